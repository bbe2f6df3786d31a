(** * Dictionaries as they come from files and calls with non-negative frequencies *)
From Verif Require Import PyBase SpecBase SpecSeg SpecDict.

(** prefix closed, a positive total, non-negative frequencies that sum up to at
    most the total *)
Definition healthy (fr : list (str * Z)) (total : Z) : Prop :=
  prefix_closed (sget fr) /\ (0 < total)%Z /\ total_ok fr total.

(** product of the scoring weights *)
Definition weights (D : dictionary) (ws : list str) : Z :=
  fold_right (fun w acc => (weight_of D w * acc)%Z) 1%Z ws.
