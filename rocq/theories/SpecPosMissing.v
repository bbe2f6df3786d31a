(** * Specification vocabulary: how many table entries a tagging lacks *)
From Flocq Require Import BinarySingleNaN.
From Verif Require Import PyBase PyNum ModelPosseg SpecPosseg InstB64 InstB64Ext SpecUnknown.

(** binary64 tables in which every entry is at most 2^200 in size, but for start
    entries that are -3.14e100 *)
Record sound_ptables {lg} (T : ptables (numB lg)) : Prop := {
  sp_ok : tables_ok (infB lg) T;
  sp_start : forall y, is_pstate T y -> small (start_of T y) \/ start_of T y = b64_min_float;
  sp_trans : forall x y (p : b64), step_p T x y p -> small p;
  sp_emit : forall y e c (x : b64), t_emit T y = Some e -> e c = Some x -> small x;
}.

(** how many entries the states [ys] of the characters [cs] lack *)
Definition p_lacks {num} (T : ptables num) (y : pstate) (c : char) : nat :=
  match t_emit T y with Some e => match e c with Some _ => 0 | None => 1 end | None => 1 end.
Fixpoint p_lacking {num} (T : ptables num) (cs : str) (ys : list pstate) : nat :=
  match cs, ys with
  | c :: cs', y :: ys' => p_lacks T y c + p_lacking T cs' ys'
  | _, _ => 0
  end.
(** the start entry is -3.14e100 *)
Definition p_no_start {lg} (T : ptables (numB lg)) (y : pstate) : bool := Beqb (start_of T y : b64) b64_min_float.
Definition p_missing {lg} (T : ptables (numB lg)) (cs : str) (ys : list pstate) : nat :=
  match ys with y :: _ => (if p_no_start T y then 1 else 0) | [] => 0 end + p_lacking T cs ys.

(** no state has an emission entry for the character *)
Definition p_unknown {num} (T : ptables num) (c : char) : Prop :=
  forall y e, t_emit T y = Some e -> e c = None.

(** equal, or smaller at the last place where they differ; states are ordered as
    tuples of strings *)
Definition p_not_above (l' l : list pstate) : Prop :=
  l' = l \/ exists p' a' p a q,
    l' = p' ++ a' :: q /\ l = p ++ a :: q /\ length p' = length p /\ pstate_gt a a' = true.

(** the same states, transitions and entries exist *)
Definition p_has {num} (T : ptables num) (y : pstate) (c : char) : Prop :=
  exists e x, t_emit T y = Some e /\ e c = Some x.
Record same_pentries {lg1 lg2} (T1 : ptables (numB lg1)) (T2 : ptables (numB lg2)) : Prop := {
  sn_states : forall c, t_states T1 c = t_states T2 c;
  sn_pstate : forall y, is_pstate T1 y <-> is_pstate T2 y;
  sn_step : forall x y, step T1 x y <-> step T2 x y;
  sn_start : forall y, p_no_start T1 y = p_no_start T2 y;
  sn_emit : forall y c, p_has T1 y c <-> p_has T2 y c;
}.
