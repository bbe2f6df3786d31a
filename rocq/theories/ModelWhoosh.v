(** * The tokenizer for Whoosh, jieba/analyse/analyzer.py:16-31

    Whoosh's [Tokenizer] and [Token] are outside the repository: a token is an object
    with attributes.  The filters of [ChineseAnalyzer] (lines 34-37) are Whoosh's and
    left out. *)
From Verif Require Import PyBase PyNum ModelFinalseg ModelSeg ModelDict ModelApi.

(** the attributes of a token that [__call__] sets *)
Record wtoken := mkTok {
  tk_original : str; tk_text : str; tk_pos : nat; tk_startchar : nat; tk_endchar : nat
}.

(** objects by reference *)
Definition heap := list (option wtoken).     (* [None]: no attribute set yet *)
Fixpoint hset (h : heap) (r : nat) (t : wtoken) : heap :=
  match h, r with
  | [], _ => []
  | _ :: h', O => Some t :: h'
  | x :: h', S r' => x :: hset h' r' t
  end.
(** the attributes of the object [r], analyse/analyzer.py:23-31 *)
Definition hget (h : heap) (r : nat) : option wtoken := nth r h None.

(** [accepted_chars.match(w)], line 16, 25 *)
Definition accepted (w : str) : bool :=
  match w with c :: _ => in_range 0x4E00 0x9FD5 c | [] => false end.

(** the loop, lines 24-31: the references it yields, each with the heap at that moment *)
Fixpoint wh_loop (token : nat) (words : list (str * nat * nat)) (h : heap) : list (nat * heap) * heap :=
  match words with
  | [] => ([], h)
  | (w, start_pos, stop_pos) :: words' =>
      if negb (accepted w) && (length w <=? 1) then wh_loop token words' h
      else
        let h1 := hset h token (mkTok w w start_pos start_pos stop_pos) in
        let '(ys, h2) := wh_loop token words' h1 in ((token, h1) :: ys, h2)
  end.

Section Whoosh.
  Variable num : Num.
  Variable H : hmm num.

  (** [__call__], lines 21-31: what it yields, the heap at its end and the exception of
      [jieba.tokenize]; [token = Token()] is a new object *)
  Definition wh_call (d : dstate) (text : str) (h : heap) : (list (nat * heap) * heap) * option exn :=
    let g := tokenize num H TSearch true (d_freq d) (d_total d) (d_force d) text in
    (wh_loop (length h) (fst g) (h ++ [None]), snd g).

  (** a consumer that reads every token as it comes *)
  Definition read_each (r : list (nat * heap) * heap) : list (option wtoken) :=
    map (fun y => hget (snd y) (fst y)) (fst r).
  (** a consumer that makes a list first: [list(tokenizer(text))] *)
  Definition read_list (r : list (nat * heap) * heap) : list (option wtoken) :=
    map (fun y => hget (snd r) (fst y)) (fst r).
End Whoosh.
