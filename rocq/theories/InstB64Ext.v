(** * Binary64 for the tagger: no sum of table entries overflows

    Sizes are counted in units of 2^340 (more than 3.14e100); texts of less than
    2^49 characters need at most 2^50 units. *)
From Coq Require Import Reals Lra.
From Flocq Require Import Core BinarySingleNaN.
From Verif Require Import PyBase PyNum SpecNum SpecPosseg InstB64.
Local Open Scope R_scope.

Definition unit340 : R := bpow radix2 340.

(** a table entry: finite and of size at most 2^340 *)
Definition entry_ok (x : b64) : Prop := is_finite x = true /\ Rabs (B2R x) <= unit340.

Definition bfin (k : nat) (x : b64) : Prop :=
  is_finite x = true /\ Rabs (B2R x) <= INR k * unit340.
Definition blim (k : nat) : Prop := (Z.of_nat k <= 2 ^ 50)%Z.

Lemma unit340_pos : 0 < unit340.
Proof. apply bpow_gt_0. Qed.

Lemma units_format k : blim k -> generic_format radix2 (SpecFloat.fexp 53 1024) (INR k * unit340).
Proof.
  unfold blim. intros L. rewrite INR_IZR_INZ. unfold unit340.
  change (IZR (Z.of_nat k) * bpow radix2 340) with (F2R (Float radix2 (Z.of_nat k) 340)).
  apply generic_format_F2R. cbn [Fnum Fexp]. intros NZ.
  unfold cexp. rewrite mag_F2R by auto.
  assert (B : (mag radix2 (IZR (Z.of_nat k)) <= 51)%Z).
  { apply mag_le_bpow.
    - apply IZR_neq. auto.
    - rewrite Rabs_right by (apply Rle_ge, IZR_le; lia).
      apply Rle_lt_trans with (IZR (2 ^ 50)); [apply IZR_le; auto|].
      change (bpow radix2 51) with (IZR (2 ^ 51)). apply IZR_lt. reflexivity. }
  unfold SpecFloat.fexp, SpecFloat.emin. lia.
Qed.

Lemma units_lt_M k : blim k -> INR k * unit340 < M.
Proof.
  unfold blim. intros L. rewrite INR_IZR_INZ. unfold unit340, M.
  apply Rle_lt_trans with (IZR (2 ^ 50) * bpow radix2 340).
  - apply Rmult_le_compat_r; [apply bpow_ge_0|]. apply IZR_le. auto.
  - change (IZR (2 ^ 50)) with (bpow radix2 50). rewrite <- bpow_plus. apply bpow_lt. lia.
Qed.

Lemma bfin_add k x y : bfin k x -> bfin 1 y -> blim (S k) -> bfin (S k) (Bplus mode_NE x y).
Proof.
  intros [Fx Bx] [Fy By] L.
  assert (B : Rabs (rnd (B2R x + B2R y)) <= INR (S k) * unit340).
  { unfold rnd. apply abs_round_le_generic.
    - apply fexp_correct. reflexivity.
    - apply valid_rnd_N.
    - apply units_format. auto.
    - eapply Rle_trans; [apply Rabs_triang|]. rewrite S_INR. simpl INR in By. lra. }
  pose proof (Bplus_correct 53 1024 _ _ mode_NE x y Fx Fy) as BC.
  cbn [round_mode] in BC. fold (rnd (B2R x + B2R y)) in BC.
  rewrite Rlt_bool_true in BC.
  - destruct BC as [E [FI _]]. split; auto. rewrite E. auto.
  - eapply Rle_lt_trans; [exact B|]. apply units_lt_M. auto.
Qed.

Lemma bfin_not_nan k x : bfin k x -> not_nan x.
Proof. intros [Fx _]. unfold not_nan. destruct x; auto; discriminate. Qed.

Lemma bfin_lt j k x y : bfin j x -> bfin k y -> (Bltb x y = true <-> bval x < bval y).
Proof. intros A B. apply Bltb_val; eapply bfin_not_nan; eauto. Qed.
Lemma bfin_lt_false j k x y : bfin j x -> bfin k y -> (Bltb x y = false <-> bval y <= bval x).
Proof.
  intros A B. destruct (Bltb x y) eqn:E.
  - rewrite (bfin_lt j k) in E by auto. split; [discriminate|lra].
  - split; auto. intros _. apply Rnot_lt_le. intros L. rewrite <- (bfin_lt j k) in L by auto. congruence.
Qed.

Lemma min_float_bound : Rabs (B2R b64_min_float) <= unit340.
Proof.
  pose proof (binary_normalize_correct 53 1024 _ _ mode_NE (- (314 * 10 ^ 98)) 0 false) as BC.
  cbn [round_mode] in BC. cbv zeta in BC.
  assert (B : Rabs (round radix2 (SpecFloat.fexp 53 1024) ZnearestE
                      (F2R (Float radix2 (- (314 * 10 ^ 98)) 0))) <= unit340).
  { apply abs_round_le_generic.
    - apply fexp_correct. reflexivity.
    - apply valid_rnd_N.
    - apply generic_format_bpow. vm_compute. discriminate.
    - unfold F2R. cbn [Fnum Fexp]. change (bpow radix2 0) with 1. rewrite Rmult_1_r, <- abs_IZR.
      unfold unit340. rewrite <- (IZR_Zpower radix2 340) by lia. apply IZR_le. vm_compute. discriminate. }
  rewrite Rlt_bool_true in BC.
  - destruct BC as [E _]. unfold b64_min_float. rewrite E. exact B.
  - eapply Rle_lt_trans; [exact B|]. apply bpow_lt. lia.
Qed.

Definition infB (lg : Z -> b64) : NumInf (numB lg).
Proof.
  refine (@Build_NumInf (numB lg) bfin blim (fun x => x = B754_infinity true)
            _ _ _ _ _ _ _ _ _ _ _); cbn [F f_lt f_eq f_add f_min_float f_neg_inf numB].
  - unfold blim. intros. lia.
  - split; [vm_compute; reflexivity|]. simpl INR. rewrite Rmult_1_l. apply min_float_bound.
  - intros. apply bfin_add; auto.
  - intros k x [Fx _]. apply Bplus_inf_r. auto.
  - intros x y -> [Fy _]. apply Bplus_inf_l. auto.
  - intros j x A. apply (bfin_lt_false j j); auto. lra.
  - intros j k l x y z A B C. rewrite (bfin_lt j k x y), (bfin_lt k l y z), (bfin_lt j l x z) by auto. lra.
  - intros j k l x y z A B C. rewrite (bfin_lt j k x y), (bfin_lt k l y z), (bfin_lt j l x z) by auto.
    intros L. destruct (Rlt_dec (bval x) (bval y)); auto. right. lra.
  - intros j k x y A B. destruct (Beqb x y) eqn:E.
    + apply Beqb_val in E; try (eapply bfin_not_nan; eauto).
      symmetry. apply andb_true_intro. rewrite !negb_true_iff, (bfin_lt_false j k x y), (bfin_lt_false k j y x) by auto.
      lra.
    + symmetry. apply not_true_iff_false.
      rewrite andb_true_iff, !negb_true_iff, (bfin_lt_false j k x y), (bfin_lt_false k j y x) by auto.
      intros [L1 L2]. assert (bval x = bval y) as V by lra.
      apply Beqb_val in V; try (eapply bfin_not_nan; eauto). congruence.
  - intros k x y -> [Fy _]. destruct y as [[]|[]| |[] m e Bd]; try discriminate; auto.
  - intros k x y w A B W L. rewrite (bfin_lt_false k k) by auto.
    rewrite (bfin_lt_false (S k) (S k)) by (apply bfin_add; auto).
    intros V. apply Bplus_mono_r; auto; try (eapply bfin_not_nan; eauto). apply W.
Defined.
