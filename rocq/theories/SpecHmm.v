(** * Specification vocabulary for the HMM stage *)
From Verif Require Import PyBase ModelFinalseg.

(** the BMES grammar: which label may follow which *)
Definition follows (a b : label) : Prop :=
  match a, b with
  | LB, LM | LB, LE | LM, LM | LM, LE => True
  | LE, LB | LE, LS | LS, LB | LS, LS => True
  | _, _ => False
  end.

(** consecutive labels follow each other *)
Fixpoint chain (ls : list label) : Prop :=
  match ls with
  | a :: ls' => match ls' with b :: _ => follows a b | [] => True end /\ chain ls'
  | [] => True
  end.

Definition final (ls : list label) : Prop :=
  exists ls' y, ls = ls' ++ [y] /\ (y = LE \/ y = LS).

(** the labels of one word *)
Definition word_labels (ls : list label) : Prop :=
  ls = [LS] \/ exists n, ls = LB :: repeat LM n ++ [LE].
(** the labels of a first word whose beginning is cut off *)
Definition tail_labels (ls : list label) : Prop := exists n, ls = repeat LM n ++ [LE].

(** [ws] is the division of a text prescribed by the labels [ls]: the label
    sequence splits into one block per word, of the same length *)
Definition spelled_by (ls : list label) (ws : list str) : Prop :=
  exists blocks, concat blocks = ls /\ map (@length label) blocks = map (@length char) ws
    /\ match blocks with
       | [] => True
       | b :: bs => (word_labels b \/ tail_labels b) /\ Forall word_labels bs
       end.

(** ** Score of a label sequence *)
Section Score.
  Variable num : PyNum.Num.
  Variable H : hmm num.
  Notation "x + y" := (PyNum.f_add num x y).

  (** a table entry, or the smallest number (log of "never") *)
  Definition entry (o : option (PyNum.F num)) : PyNum.F num :=
    match o with Some x => x | None => PyNum.f_min_float num end.

  (** score of the labels [ls] for the characters [cs], after the label [y0] and the
      score [acc] so far *)
  Fixpoint score_from (acc : PyNum.F num) (y0 : label) (cs : str) (ls : list label) : PyNum.F num :=
    match cs, ls with
    | c :: cs', y :: ls' =>
        score_from ((acc + entry (h_trans H y0 y)) + entry (h_emit H y c)) y cs' ls'
    | _, _ => acc
    end.

  Definition label_score (cs : str) (ls : list label) : PyNum.F num :=
    match cs, ls with
    | c :: cs', y :: ls' => score_from (h_start H y + entry (h_emit H y c)) y cs' ls'
    | _, _ => PyNum.f_zero num
    end.
End Score.
Arguments label_score {num}. Arguments score_from {num}.
