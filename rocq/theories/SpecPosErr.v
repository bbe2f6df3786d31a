(** * Specification vocabulary: the tagger's search computed exactly *)
From Coq Require Import Reals.
From Flocq Require Import Core BinarySingleNaN.
From Verif Require Import PyBase PyNum ModelPosseg SpecBase SpecPosseg SpecTagging InstR InstExt InstB64 InstB64Ext InstRound SpecPosMissing SpecHmmErr.
Local Open Scope R_scope.

(** binary64 tables with entries between -32 and 32, but for start entries that are
    -3.14e100; the numbers of posseg's tables lie between -16 and 0 *)
Record moderate_ptables {lg} (T : ptables (numB lg)) : Prop := {
  mp_ok : tables_ok (infB lg) T;
  mp_start : forall y, is_pstate T y -> within32 (start_of T y) \/ start_of T y = b64_min_float;
  mp_trans : forall x y (p : b64), step_p T x y p -> within32 p;
  mp_emit : forall y e c (x : b64), t_emit T y = Some e -> e c = Some x -> within32 x;
}.

(** the sum of the table entries that belong to a tagging, computed without rounding;
    -3.14e100 for an emission entry that does not exist *)
Definition emit_value {lg} (T : ptables (numB lg)) (y : pstate) (c : char) : R :=
  match t_emit T y with
  | Some e => match e c with Some x => B2R (x : b64) | None => f_min_float numR end
  | None => f_min_float numR
  end.
Fixpoint tag_value_from {lg} (T : ptables (numB lg)) (acc : R) (x : pstate) (cs : str) (ys : list pstate) : R :=
  match cs, ys with
  | c :: cs', y :: ys' => tag_value_from T (acc + B2R (prob_of T x y : b64) + emit_value T y c) y cs' ys'
  | _, _ => acc
  end.
Definition tag_value {lg} (T : ptables (numB lg)) (cs : str) (ys : list pstate) : R :=
  match cs, ys with
  | c :: cs', y :: ys' => tag_value_from T (B2R (start_of T y : b64) + emit_value T y c) y cs' ys'
  | _, _ => 0
  end.

(** the same tables as real numbers with minus infinity *)
Definition exact_ptables {lg} (T : ptables (numB lg)) : ptables numX :=
  let val (x : b64) : F numX := Some (B2R x) in
  mkPt (t_states T)
    (fun y => match t_start T y with Some x => Some (val x) | None => None end)
    (map (fun r => (fst r, map (fun q => (fst q, val (snd q))) (snd r))) (t_trans T))
    (fun y => match t_emit T y with
              | Some e => Some (fun c => match e c with Some x => Some (val x) | None => None end)
              | None => None
              end).

(** a tagging without missing entries that is better than all others by more than what
    rounding may cost *)
Definition clear_tagging {lg} (T : ptables (numB lg)) (s : str) (ys : list pstate) : Prop :=
  considered T s ys /\ p_missing T s ys = 0%nat /\
  forall ys', considered T s ys' -> ys' <> ys -> tag_value T s ys' + cost (length s) < tag_value T s ys.

(** [ws] are tagged words of the Han run [r] that a tagging spells which the search
    compares; if the run (of at most 2^22 characters) can be tagged without a missing
    entry, the tagging needs none and is the best up to rounding *)
Definition near_tags {lg} (T : ptables (numB lg)) (r : str) (ws : list tagged) : Prop :=
  exists ys, concat (map fst ws) = r /\ spelled true ws ys /\ considered T r ys /\
    ((length r <= 2 ^ 22)%nat -> (exists o, considered T r o /\ p_missing T r o = 0%nat) ->
     p_missing T r ys = 0%nat /\
     forall other, considered T r other -> tag_value T r other <= tag_value T r ys + cost (length r)).
