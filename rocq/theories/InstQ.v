(** * A computable arithmetic, used for examples

    Rationals, with a rounded logarithm: [log2 (n^64)], a monotone function that
    is within one of 64 times the binary logarithm. *)
From Coq Require Import QArith Reals Lra Qreals.
From Verif Require Import PyBase PyNum SpecNum.

Definition Qltb (x y : Q) : bool := negb (Qle_bool y x).
Definition q_log (n : Z) : Q := inject_Z (Z.log2 (n ^ 64)).

Definition numQ : Num := {|
  F := Q;
  f_zero := 0;
  f_add := fun x y => Qred (x + y);
  f_sub := fun x y => Qred (x - y);
  f_mul := fun x y => Qred (x * y);
  f_div := fun x y => Qred (x / y);
  f_lt := Qltb;
  f_eq := Qeq_bool;
  f_of_Z := fun n => Some (inject_Z n);
  f_trunc := fun x => Ok (Z.quot (Qnum x) (Zpos (Qden x)));
  f_log := q_log;
  f_min_float := inject_Z (- (314 * 10 ^ 98));
  f_neg_inf := inject_Z (- (10 ^ 1000));
|}.

Lemma Q2R_red x : Q2R (Qred x) = Q2R x.
Proof. apply Qeq_eqR, Qred_correct. Qed.

Definition orderQ : NumOrder numQ.
Proof.
  refine (@Build_NumOrder numQ (fun _ => True) (fun _ => True) Q2R
            _ _ _ _ _ _ _ _ _ _); cbn [F f_lt f_eq f_add f_zero numQ]; auto; intros.
  - unfold Qltb. rewrite negb_true_iff. split.
    + intros E. apply Qlt_Rlt. apply Qnot_le_lt. intros L. apply Qle_bool_iff in L. congruence.
    + intros L. apply Rlt_Qlt in L. apply Qlt_not_le in L.
      destruct (Qle_bool y x) eqn:E; auto. apply Qle_bool_iff in E. contradiction.
  - rewrite Qeq_bool_iff. split; [apply Qeq_eqR | apply eqR_Qeq].
  - rewrite !Q2R_red, !Q2R_plus. lra.
  - rewrite !Q2R_red, !Q2R_plus. lra.
Defined.
