(** * The sign laws of [SpecDict.NumSign] for the three arithmetics *)
From Coq Require Import Reals Lra QArith.
From Flocq Require Import Core BinarySingleNaN.
From Verif Require Import PyBase PyNum SpecDict InstR InstQ InstB64.

Definition signR : NumSign numR.
Proof.
  refine (@Build_NumSign numR (fun x : R => (0 <= x)%R) _ _ _ _); cbn [F f_of_Z f_mul f_div f_trunc numR].
  - intros n x L E. inversion E. apply IZR_le; auto.
  - intros x y X Y. apply Rmult_le_pos; auto.
  - intros x y X Y. unfold Rdiv. apply Rmult_le_pos; auto.
    destruct Y as [Y|<-].
    + left. apply Rinv_0_lt_compat; auto.
    + rewrite Rinv_0. lra.
  - intros x n X E. inversion E; subst. pose proof (Rtrunc_spec x X) as [A B].
    assert (-1 < IZR (Rtrunc x))%R by lra. apply lt_IZR in H. lia.
Defined.

Definition signQ : NumSign numQ.
Proof.
  refine (@Build_NumSign numQ (fun x : Q => (0 <= x)%Q) _ _ _ _); cbn [F f_of_Z f_mul f_div f_trunc numQ].
  - intros n x L E. inversion E. unfold Qle. simpl. lia.
  - intros x y X Y. rewrite Qred_correct. apply Qmult_le_0_compat; auto.
  - intros x y X Y. rewrite Qred_correct. unfold Qdiv. apply Qmult_le_0_compat; auto.
    apply Qinv_le_0_compat; auto.
  - intros x n X E. inversion E; subst. apply Z.quot_pos; [|lia]. unfold Qle in X. simpl in X. lia.
Defined.

Definition b_nn (x : b64) : Prop := is_nan x = true \/ Bsign x = false.

Lemma overflow_sign (z : b64) : B2SF z = binary_overflow 53 1024 mode_NE false -> Bsign z = false.
Proof. destruct z as [s|s| |s m e B]; cbn; intros E; inversion E; auto. Qed.

Definition signB (lg : Z -> b64) : NumSign (numB lg).
Proof.
  refine (@Build_NumSign (numB lg) b_nn _ _ _ _); cbn [F f_of_Z f_mul f_div f_trunc numB].
  - intros n x L. unfold b64_of_Z.
    pose proof (binary_normalize_correct 53 1024 prec53 emax1024 mode_NE n 0 false) as C. cbv zeta in C.
    set (z := binary_normalize 53 1024 prec53 emax1024 mode_NE n 0 false) in *.
    destruct (is_finite z) eqn:FZ; [|discriminate]. intros E; inversion E; subst x. right.
    assert (NX : (0 <= @F2R radix2 {| Fnum := n; Fexp := 0 |})%R).
    { apply F2R_ge_0. auto. }
    destruct (Rlt_bool _ _).
    + destruct C as [_ [_ ->]]. destruct (Rcompare_spec (@F2R radix2 {| Fnum := n; Fexp := 0 |}) 0%R); auto. exfalso; lra.
    + apply overflow_sign. rewrite C. f_equal. apply Rlt_bool_false. auto.
  - intros x y X Y. unfold b_nn. destruct (is_nan (Bmult mode_NE x y)) eqn:NN; auto. right.
    pose proof (Bmult_correct 53 1024 prec53 emax1024 mode_NE x y) as C.
    assert (SX : Bsign x = false).
    { destruct X as [X|]; auto. destruct x; try discriminate; reflexivity. }
    assert (SY : Bsign y = false).
    { destruct Y as [Y|]; auto. destruct y; try discriminate; reflexivity. }
    rewrite SX, SY in C. destruct (Rlt_bool _ _).
    + destruct C as [_ [_ C]]. apply C; auto.
    + apply overflow_sign; auto.
  - intros x y X Y. unfold b_nn. destruct (is_nan (Bdiv mode_NE x y)) eqn:NN; auto. right.
    assert (SX : Bsign x = false).
    { destruct X as [X|]; auto. destruct x; try discriminate; reflexivity. }
    assert (SY : Bsign y = false).
    { destruct Y as [Y|]; auto. destruct y; try discriminate; reflexivity. }
    destruct y as [s|s| |s m e B].
    + destruct x; cbn in *; subst; auto; discriminate.
    + destruct x; cbn in *; subst; auto; discriminate.
    + destruct x; discriminate.
    + assert (NZ : B2R (B754_finite s m e B) <> 0%R).
      { cbn [Bsign] in SY. subst s. apply Rgt_not_eq. apply F2R_gt_0. reflexivity. }
      pose proof (Bdiv_correct 53 1024 prec53 emax1024 mode_NE x (B754_finite s m e B) NZ) as C.
      rewrite SX, SY in C. destruct (Rlt_bool _ _).
      * destruct C as [_ [_ C]]. apply C; auto.
      * apply overflow_sign; auto.
  - intros x n X. unfold b64_trunc.
    destruct x as [s|s| |s m e B]; try discriminate; intros E.
    + inversion E. cbn. lia.
    + assert (EN : n = Btrunc (B754_finite s m e B)) by congruence. clear E. subst n. destruct X as [X|X]; [discriminate|].
      pose proof (Btrunc_correct 53 1024 emax1024 (B754_finite s m e B)) as C.
      apply le_IZR. rewrite C. rewrite <- (round_0 radix2 (FIX_exp 0) Ztrunc).
      apply round_le; [apply FIX_exp_valid|apply valid_rnd_ZR|].
      pose proof (Bsign_B2R (B754_finite s m e B)) as SG. rewrite X in SG. auto.
Defined.
