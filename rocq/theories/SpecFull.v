(** * Specification vocabulary for full mode *)
From Verif Require Import PyBase SpecBase SpecSeg.

(** a piece made of the spans [sp] (start, end) of [s], put together *)
Definition piece_of (s : str) (sp : list (nat * nat)) (p : str) : Prop :=
  p = concat (map (fun ab => sub s (fst ab) (snd ab - fst ab)) sp)
  /\ Forall (fun ab => fst ab < snd ab <= length s) sp.

(** a piece has one span, or none if it is empty, unless it starts with a letter
    or digit *)
Definition simple_unless_alnum (sp : list (nat * nat)) (p : str) : Prop :=
  length sp <= 1 \/ match p with c :: _ => is_alnum c = true | [] => False end.

(** the pieces use every position of [s] *)
Definition covers (s : str) (ps : list str) : Prop :=
  exists spans : list (list (nat * nat)),
    Forall2 (fun sp p => piece_of s sp p /\ simple_unless_alnum sp p) spans ps /\
    forall i, i < length s -> exists sp a b, In sp spans /\ In (a, b) sp /\ a <= i < b.

(** one letter or digit *)
Definition starts_alnum (w : str) : Prop := match w with c :: _ => is_alnum c = true | [] => False end.

(** what full mode may yield for a run of word characters *)
Inductive full_piece (D : dictionary) (r : str) : str -> Prop :=
| fp_word w : is_word D w -> substring w r -> full_piece D r w
| fp_char c : In c r -> full_piece D r [c]
| fp_alnum ws :
    ws <> [] ->
    Forall (fun w => starts_alnum w /\ substring w r /\ (is_word D w \/ length w = 1)) ws ->
    full_piece D r (concat ws).

(** what it may yield for other text: blank, or a stretch without blanks *)
Definition other_piece (r p : str) : Prop :=
  substring p r /\
  (p = [13; 10]%N \/ (exists c, p = [c] /\ is_space c = true) \/ Forall (fun c => is_space c = false) p).
