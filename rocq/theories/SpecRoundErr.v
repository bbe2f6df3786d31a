(** * Specification of a segmentation that rounding cannot overturn *)
From Coq Require Import Reals.
From Verif Require Import PyBase SpecBase SpecSeg SpecScore.

(** the factor that rounding may cost a run of [n] characters: 1 + n^2 / 2^43 *)
Definition slack (n : nat) : R := (1 + INR n * INR n / 8796093022208)%R.

(** [ws] is a segmentation of [r], and every other is less probable by more than [slack] *)
Definition clear_winner (D : dictionary) (total : Z) (r : str) (ws : list str) : Prop :=
  candidate D r ws /\
  forall ws', candidate D r ws' -> ws' <> ws ->
    (prob D total ws' * slack (length r) < prob D total ws)%R.
