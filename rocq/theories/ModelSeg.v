(** * Model of the segmentation part of jieba/__init__.py (class Tokenizer) *)
From Verif Require Import PyBase PyRegex PyNum ModelFinalseg.

(** ** Regular expressions, jieba/__init__.py:36-46 *)

(** [re_eng = re.compile('[a-zA-Z0-9]', re.U)], line 38 *)
Definition re_eng : re := RCls is_alnum.

(** the class of [re_han_default], line 44:
    [[一-鿕a-zA-Z0-9+#&\._%\-]] *)
Definition is_word_char (c : char) : bool :=
  is_han c || is_alnum c
  || (c =? 43)%N || (c =? 35)%N || (c =? 38)%N || (c =? 46)%N || (c =? 95)%N
  || (c =? 37)%N || (c =? 45)%N.
(** [re_han_default], jieba/__init__.py:44 *)
Definition re_han_default : re := RGrp 1 (RPlus is_word_char).

(** [re_skip_default = re.compile("(\r\n|\s)", re.U)], line 46 *)
Definition re_skip_default : re := RGrp 1 (RAlt (RStr [13; 10]%N) (RCls is_space)).

(** ** The dictionary part of a Tokenizer *)

(** [self.FREQ] and [self.total], lines 61-62 *)
Definition freqs := sdict Z.

(** truth value of [self.FREQ.get(w)] *)
Definition freq_true (fr : freqs) (w : str) : bool :=
  match sget fr w with Some n => negb (n =? 0)%Z | None => false end.

(** [self.FREQ.get(w) or 1] *)
Definition freq_or1 (fr : freqs) (w : str) : Z :=
  match sget fr w with Some n => if (n =? 0)%Z then 1%Z else n | None => 1%Z end.

(** [self.FREQ.get(w, d)] *)
Definition freq_get (fr : freqs) (w : str) (d : Z) : Z :=
  match sget fr w with Some n => n | None => d end.

(** ** Word graph, lines 180-196 *)

(** the [while] loop, lines 188-192; [fuel] bounds the number of rounds *)
Fixpoint dag_scan (fuel : nat) (fr : freqs) (sentence : str) (k i : nat) (frag : str)
         (tmplist : list nat) : list nat :=
  match fuel with
  | O => tmplist
  | S fuel' =>
      if (i <? length sentence)%nat && smem fr frag then
        let tmplist' := if freq_true fr frag then tmplist ++ [i] else tmplist in
        dag_scan fuel' fr sentence k (i + 1) (slice sentence k (i + 1 + 1)) tmplist'
      else tmplist
  end.

(** one round of the [for k] loop, lines 185-195: [DAG[k]] *)
Definition dag_at (fr : freqs) (sentence : str) (k : nat) : list nat :=
  let tmplist := dag_scan (S (length sentence)) fr sentence k k (slice sentence k (k + 1)) [] in
  match tmplist with [] => [k] | _ => tmplist end.

(** [get_DAG], lines 180-196 (after [check_initialized]); the dictionary [DAG] with
    keys 0..N-1 inserted in this order is the list of its values *)
Definition get_DAG (fr : freqs) (sentence : str) : list (list nat) :=
  map (dag_at fr sentence) (seq 0 (length sentence)).

Section Seg.
  Variable num : Num.
  Notation F := (F num).

  (** ** Route, lines 172-178 *)

  (** [(a, x) > (b, y)] for a float and an int *)
  Definition route_gt : F * nat -> F * nat -> bool :=
    tup_gt num (fun x y => (y <? x)%nat).

  (** the candidates of [route[idx]], lines 177-178; [route] holds the entries
      of [idx+1 .. N] *)
  Fixpoint calc_cands (fr : freqs) (logtotal : F) (sentence : str) (idx : nat)
           (route : list (F * nat)) (xs : list nat) : res (list (F * nat)) :=
    match xs with
    | [] => Ok []
    | x :: xs' =>
        rbind (py_log num (freq_or1 fr (slice sentence idx (x + 1)))) (fun lw =>
        match nth_error route (x - idx) with
        | None => Err KeyError
        | Some r =>
            rbind (calc_cands fr logtotal sentence idx route xs') (fun cs =>
            Ok ((f_add num (f_sub num lw logtotal) (fst r), x) :: cs))
        end)
    end.

  (** the loop over [idx] from N-1 down to 0, lines 176-178: [n] entries remain to
      be computed; the accumulated list holds [route[n], ..., route[N]] *)
  Fixpoint calc_loop (fr : freqs) (logtotal : F) (sentence : str) (DAG : list (list nat))
           (n : nat) (route : list (F * nat)) : res (list (F * nat)) :=
    match n with
    | O => Ok route
    | S idx =>
        match nth_error DAG idx with
        | None => Err KeyError
        | Some xs =>
            rbind (calc_cands fr logtotal sentence idx route xs) (fun cs =>
            rbind (py_max route_gt cs) (fun r =>
            calc_loop fr logtotal sentence DAG idx (r :: route)))
        end
    end.

  (** [calc], lines 172-178: the dictionary [route] as the list of its values for
      the keys 0..N *)
  Definition calc (fr : freqs) (total : Z) (sentence : str) (DAG : list (list nat))
    : res (list (F * nat)) :=
    rbind (py_log num total) (fun logtotal =>
    calc_loop fr logtotal sentence DAG (length sentence) [(f_zero num, 0%nat)]).

  (** ** Full mode, lines 198-224 *)

  (** lines 219-222: the loop [for j in L: if j > k: yield ...] *)
  Fixpoint cut_all_words (sentence : str) (k : nat) (L : list nat) (old_j : Z)
    : list str * Z :=
    match L with
    | [] => ([], old_j)
    | j :: L' =>
        if (k <? j)%nat then
          let '(ws, o) := cut_all_words sentence k L' (Z.of_nat j) in
          (slice sentence k (j + 1) :: ws, o)
        else cut_all_words sentence k L' old_j
    end.

  (** [re_eng.match(w)] *)
  Definition eng_match (w : str) : bool := re_matches re_eng w.

  (** the loop over the word graph, lines 203-224; [eng_scan] is a flag *)
  Fixpoint cut_all_loop (sentence : str) (k : nat) (dag : list (list nat)) (old_j : Z)
           (eng_scan : bool) (eng_buf : str) : list str :=
    match dag with
    | [] => if eng_scan then [eng_buf] else []
    | L :: dag' =>
        let flush := eng_scan && negb (eng_match (slice sentence k (k + 1))) in
        let eng_scan := if flush then false else eng_scan in
        let out0 := if flush then [eng_buf] else [] in
        match L, (old_j <? Z.of_nat k)%Z with
        | [l0], true =>
            let word := slice sentence k (l0 + 1) in
            let '(eng_scan, eng_buf) :=
              if eng_match word then
                if eng_scan then (true, eng_buf ++ word) else (true, word)
              else (eng_scan, eng_buf) in
            let out1 := if eng_scan then [] else [word] in
            out0 ++ out1 ++ cut_all_loop sentence (S k) dag' (Z.of_nat l0) eng_scan eng_buf
        | _, _ =>
            let '(ws, o) := cut_all_words sentence k L old_j in
            out0 ++ ws ++ cut_all_loop sentence (S k) dag' o eng_scan eng_buf
        end
    end.

  (** [__cut_all], lines 198-224 *)
  Definition cut_all_block (fr : freqs) (sentence : str) : gen str :=
    gof (cut_all_loop sentence 0 (get_DAG fr sentence) (-1) false []).

  (** ** Accurate mode without HMM, lines 226-247 *)

  (** the loop, lines 233-247; [fuel] bounds the number of rounds *)
  Fixpoint cut_nohmm_loop (fuel : nat) (sentence : str) (route : list (F * nat))
           (x : nat) (buf : str) : gen str :=
    match fuel with
    | O => gerr OutOfFuel
    | S fuel' =>
        if (x <? length sentence)%nat then
          match nth_error route x with
          | None => gerr KeyError
          | Some r =>
              let y := (snd r + 1)%nat in
              let l_word := slice sentence x y in
              if eng_match l_word && (length l_word =? 1)%nat then
                cut_nohmm_loop fuel' sentence route y (buf ++ l_word)
              else
                gapp (match buf with [] => gnil | _ => gone buf end)
                     (gcons l_word (cut_nohmm_loop fuel' sentence route y []))
          end
        else match buf with [] => gnil | _ => gone buf end
    end.

  (** [__cut_DAG_NO_HMM], lines 226-247 *)
  Definition cut_nohmm_block (fr : freqs) (total : Z) (sentence : str) : gen str :=
    match calc fr total sentence (get_DAG fr sentence) with
    | Err e => gerr e
    | Ok route => cut_nohmm_loop (S (length sentence)) sentence route 0 []
    end.

  (** ** Accurate mode with HMM, lines 249-287 *)

  Variable H : hmm num.

  (** lines 263-274 and, identically, 279-287: what is yielded for a non-empty
      buffer of single characters *)
  Definition cut_buf (fr : freqs) (force : list str) (buf : str) : gen str :=
    if (length buf =? 1)%nat then gone buf
    else if negb (freq_true fr buf) then fs_cut num H force buf
    else gof (map (fun c => [c]) buf).

  (** the loop, lines 256-287 *)
  Fixpoint cut_hmm_loop (fuel : nat) (fr : freqs) (force : list str) (sentence : str)
           (route : list (F * nat)) (x : nat) (buf : str) : gen str :=
    match fuel with
    | O => gerr OutOfFuel
    | S fuel' =>
        if (x <? length sentence)%nat then
          match nth_error route x with
          | None => gerr KeyError
          | Some r =>
              let y := (snd r + 1)%nat in
              let l_word := slice sentence x y in
              if (y - x =? 1)%nat then
                cut_hmm_loop fuel' fr force sentence route y (buf ++ l_word)
              else
                gapp (match buf with [] => gnil | _ => cut_buf fr force buf end)
                     (gcons l_word (cut_hmm_loop fuel' fr force sentence route y []))
          end
        else match buf with [] => gnil | _ => cut_buf fr force buf end
    end.

  (** [__cut_DAG], lines 249-287 *)
  Definition cut_hmm_block (fr : freqs) (total : Z) (force : list str) (sentence : str) : gen str :=
    match calc fr total sentence (get_DAG fr sentence) with
    | Err e => gerr e
    | Ok route => cut_hmm_loop (S (length sentence)) fr force sentence route 0 []
    end.

  (** ** [cut], lines 289-336 (without the paddle branch, lines 301-311, which is
      taken only if paddle is installed) *)

  Inductive mode := Full | WithHMM | NoHMM.

  (** lines 314-319: [cut_all] wins over [HMM] *)
  Definition mode_of (cut_all HMM : bool) : mode :=
    if cut_all then Full else if HMM then WithHMM else NoHMM.

  (** [cut_block], jieba/__init__.py:314-319 *)
  Definition cut_block (m : mode) (fr : freqs) (total : Z) (force : list str) (blk : str)
    : gen str :=
    match m with
    | Full => cut_all_block fr blk
    | WithHMM => cut_hmm_block fr total force blk
    | NoHMM => cut_nohmm_block fr total blk
    end.

  (** lines 328-336: a block outside the word characters *)
  Definition cut_other (cut_all : bool) (blk : str) : gen str :=
    gfor (re_split re_skip_default blk)
         (fun x => if re_matches re_skip_default x then gone x
                   else if negb cut_all then gof (map (fun c => [c]) x)
                   else gone x).

  (** [cut_all], jieba/__init__.py:314,332 *)
  Definition is_full (m : mode) : bool := match m with Full => true | _ => false end.

  (** lines 320-336 on a decoded sentence *)
  Definition cut (m : mode) (fr : freqs) (total : Z) (force : list str) (sentence : str)
    : gen str :=
    gfor (re_split re_han_default sentence)
         (fun blk =>
            match blk with
            | [] => gnil
            | _ => if re_matches re_han_default blk then cut_block m fr total force blk
                   else cut_other (is_full m) blk
            end).

  (** ** Search mode, lines 338-354 *)

  (** lines 344-348 and 349-353: the [n]-grams of [w] that are dictionary words,
      with their offsets *)
  Definition dict_grams (fr : freqs) (n : nat) (w : str) : list (str * nat) :=
    if (n <? length w)%nat then
      flat_map (fun i => let g := slice w i (i + n) in
                         if freq_true fr g then [(g, i)] else [])
               (seq 0 (length w - (n - 1)))
    else [].

  (** [cut_for_search], jieba/__init__.py:338-354 *)
  Definition cut_for_search (HMM : bool) (fr : freqs) (total : Z) (force : list str)
             (sentence : str) : gen str :=
    gbind (cut (mode_of false HMM) fr total force sentence)
          (fun w => gof (map fst (dict_grams fr 2 w) ++ map fst (dict_grams fr 3 w) ++ [w])).

  (** ** [tokenize], lines 476-507 *)

  Definition token := (str * nat * nat)%type.

  (** default mode, lines 489-492 *)
  Fixpoint tokenize_default (ws : list str) (start : nat) : list token :=
    match ws with
    | [] => []
    | w :: ws' =>
        (w, start, (start + length w)%nat) :: tokenize_default ws' (start + length w)
    end.

  (** search mode, lines 494-507 *)
  Fixpoint tokenize_search (fr : freqs) (ws : list str) (start : nat) : list token :=
    match ws with
    | [] => []
    | w :: ws' =>
        map (fun gi => (fst gi, (start + snd gi)%nat, (start + snd gi + 2)%nat)) (dict_grams fr 2 w)
        ++ map (fun gi => (fst gi, (start + snd gi)%nat, (start + snd gi + 3)%nat)) (dict_grams fr 3 w)
        ++ (w, start, (start + length w)%nat) :: tokenize_search fr ws' (start + length w)
    end.

  Inductive tmode := TDefault | TSearch.   (* any mode but "default" is search, line 493 *)

  (** an exception of [cut] ends the generator after the tokens of the words
      yielded before it *)
  Definition tokenize (tm : tmode) (HMM : bool) (fr : freqs) (total : Z) (force : list str)
             (sentence : str) : gen token :=
    let g := cut (mode_of false HMM) fr total force sentence in
    match tm with
    | TDefault => (tokenize_default (fst g) 0, snd g)
    | TSearch => (tokenize_search fr (fst g) 0, snd g)
    end.
End Seg.
