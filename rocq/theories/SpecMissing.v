(** * Specification vocabulary: missing entries of the HMM tables

    The shipped tables (finalseg/prob_start.py, prob_trans.py, prob_emit.py) write
    "never" as -3.14e100 (two entries of prob_start.py) or have no entry, for which
    the code takes -3.14e100 as well; every other number lies between -18 and -0.2. *)
From Coq Require Import Reals.
From Flocq Require Import Core BinarySingleNaN.
From Verif Require Import PyBase PyNum ModelFinalseg SpecHmm InstB64 InstR SpecUnknown.

(** binary64 tables: numbers of moderate size, -3.14e100 for a label that no text
    begins with, and all transitions of the BMES grammar *)
Record sound_tables {lg} (H : hmm (numB lg)) : Prop := {
  st_start : forall y, small (h_start H y) \/ h_start H y = b64_min_float;
  st_trans : forall a y, follows a y -> exists x : b64, h_trans H a y = Some x /\ small x;
  st_emit : forall y c (x : b64), h_emit H y c = Some x -> small x;
}.

(** how many entries the labels [ls] of the characters [cs] lack: [st] says which
    labels are missing from the start table *)
Definition lacks {num} (H : hmm num) (y : label) (c : char) : nat :=
  match h_emit H y c with Some _ => 0 | None => 1 end.
Fixpoint lacking {num} (H : hmm num) (cs : str) (ls : list label) : nat :=
  match cs, ls with
  | c :: cs', y :: ls' => lacks H y c + lacking H cs' ls'
  | _, _ => 0
  end.
Definition missing {num} (H : hmm num) (st : label -> bool) (cs : str) (ls : list label) : nat :=
  match ls with y :: _ => (if st y then 1 else 0) | [] => 0 end + lacking H cs ls.

(** the start entry is -3.14e100 *)
Definition no_start {lg} (H : hmm (numB lg)) (y : label) : bool := Beqb (h_start H y : b64) b64_min_float.

(** labels for a text: as many as characters, following the grammar, the last word complete *)
Definition labelling (s : str) (ls : list label) : Prop :=
  length ls = length s /\ chain ls /\ final ls.

(** equal, or smaller at the last place where they differ; the letters are ordered
    B < E < M < S *)
Definition not_above (l' l : list label) : Prop :=
  l' = l \/ exists p' a' p a q,
    l' = p' ++ a' :: q /\ l = p ++ a :: q /\ length p' = length p /\ (label_code a' < label_code a)%N.

(** the same entries exist *)
Definition same_entries {lg1 lg2} (H1 : hmm (numB lg1)) (H2 : hmm (numB lg2)) : Prop :=
  (forall y, no_start H1 y = no_start H2 y) /\
  (forall y c, h_emit H1 y c = None <-> h_emit H2 y c = None).

(** the same for exact numbers, with a bound [B] on the entries *)
Record sound_tables_exact (H : hmm numR) (st : label -> bool) (B : R) : Prop := {
  se_start : forall y, if st y then h_start H y = f_min_float numR else (Rabs (h_start H y : R) <= B)%R;
  se_trans : forall a y, follows a y -> exists x : R, h_trans H a y = Some x /\ (Rabs x <= B)%R;
  se_emit : forall y c (x : R), h_emit H y c = Some x -> (Rabs x <= B)%R;
}.
