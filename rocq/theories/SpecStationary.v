(** * The weights TextRank is after

    The ten rounds of [SpecTextrank] are meant to approach weights that one more round
    would not change. *)
From Coq Require Import Reals.
From Verif Require Import PyBase ModelAnalyse SpecTextrank.
Local Open Scope R_scope.

(** every word already has the weight it would collect *)
Definition stationary (ls : list (term * term)) (nodes : list term) (W : term -> R) : Prop :=
  forall n, In n nodes -> W n = collected ls nodes W n.

(** the smallest and the largest number of links a word has *)
Definition least_linked (ls : list (term * term)) (nodes : list term) (d : R) : Prop :=
  (exists n, In n nodes /\ degree ls nodes n = d) /\ forall n, In n nodes -> d <= degree ls nodes n.
Definition most_linked (ls : list (term * term)) (nodes : list term) (d : R) : Prop :=
  (exists n, In n nodes /\ degree ls nodes n = d) /\ forall n, In n nodes -> degree ls nodes n <= d.

(** the weights after [k] rounds that start from [W] *)
Definition rounds (ls : list (term * term)) (nodes order : list term) (k : nat) (W : term -> R) : term -> R :=
  Nat.iter k (one_round ls nodes order) W.
