(** * The rounding laws of [SpecAnalyse.NumRound]: exact reals and binary64 *)
From Coq Require Import Reals Lra Lia Psatz.
From Flocq Require Import Core BinarySingleNaN Relative.
From Verif Require Import PyBase PyNum SpecNum ModelAnalyse SpecAnalyse InstR InstB64 InstExt InstCount.
Local Open Scope R_scope.

(** exact arithmetic, for any range *)
Definition roundR (G : R) (GB : 100 <= G) : NumRound numR orderR.
Proof.
  refine (@Build_NumRound numR orderR 0 G (fun x => x) _ GB _ _ _ _ _ _ _ _ _ _ _ _);
    unfold lit, float_max, float_min; cbn [F f_of_Z f_add f_sub f_mul f_div f_zero o_fin o_val orderR numR]; auto.
  - lra.
  - intros k _. rewrite Rplus_0_r, pow1. lra.
  - intros x _. lra.
  - split; auto. unfold lit. cbn [f_of_Z numR]. apply IZR_le. vm_compute. discriminate.
  - split; auto. unfold lit. cbn [f_of_Z numR].
    assert (P : 128 <= IZR (2 ^ 1022)) by (apply IZR_le; vm_compute; discriminate).
    unfold Rdiv. rewrite !Rmult_1_l. split.
    + apply Rlt_le, Rinv_0_lt_compat. lra.
    + apply Rinv_le_contravar; lra.
Defined.

(** ** Binary64 *)

Definition GB64 : R := bpow radix2 48.
Definition u64 : R := bpow radix2 (-53).

Lemma GB64_pow : GB64 ^ 8 = bpow radix2 384.
Proof. unfold GB64. rewrite <- bpow_powerRZ || idtac. cbn [pow]. rewrite Rmult_1_r, <- !bpow_plus. reflexivity. Qed.

Lemma steps_bound u k : 0 <= u -> INR k * u < 1 -> (1 + u) ^ k * (1 - INR k * u) <= 1.
Proof.
  intros U. induction k as [|k IH]; intros L.
  - cbn. lra.
  - rewrite S_INR in *. assert (P : 0 < (1 + u) ^ k) by (apply pow_lt; lra).
    assert (K : 0 <= INR k) by apply pos_INR.
    assert (L' : INR k * u < 1) by nra. specialize (IH L').
    cbn [pow]. replace ((1 + u) * (1 + u) ^ k * (1 - (INR k + 1) * u))
      with ((1 + u) ^ k * (1 - INR k * u) - (1 + u) ^ k * ((INR k + 1) * (u * u))) by ring.
    assert (0 <= (1 + u) ^ k * ((INR k + 1) * (u * u))).
    { apply Rmult_le_pos; [lra|]. apply Rmult_le_pos; [lra|]. nra. }
    lra.
Qed.

Lemma rnd_small x : Rabs x <= bpow radix2 384 -> Rabs (rnd x) < bpow radix2 1024.
Proof.
  intros B. apply Rle_lt_trans with (bpow radix2 384); [|apply bpow_lt; lia].
  apply abs_round_le_generic; auto.
  - apply fexp_correct. reflexivity.
  - apply valid_rnd_N.
  - apply generic_format_bpow. vm_compute. discriminate.
Qed.

Lemma rnd_rel x : bpow radix2 (-384) <= x -> (1 - u64) * x <= rnd x <= (1 + u64) * x.
Proof.
  intros B. pose proof (bpow_gt_0 radix2 (-384)) as P.
  pose proof (relative_error_N_FLT radix2 (-1074) 53 ltac:(lia) (fun x => negb (Z.even x)) x) as RE.
  change (FLT_exp (-1074) 53) with (SpecFloat.fexp 53 1024) in RE. fold (rnd x) in RE.
  rewrite (Rabs_pos_eq x) in RE by lra.
  assert (E : / 2 * bpow radix2 (-52) = u64).
  { unfold u64. change (-52)%Z with (-53 + 1)%Z. rewrite bpow_plus. change (bpow radix2 1) with 2. field. }
  assert (RB : Rabs (rnd x - x) <= u64 * x).
  { rewrite <- E. apply RE. apply Rle_trans with (2 := B). apply bpow_le. lia. }
  apply Rabs_le_inv in RB. lra.
Qed.

Lemma rnd_format x : generic_format radix2 (SpecFloat.fexp 53 1024) x -> rnd x = x.
Proof. intros FM. unfold rnd. apply round_generic; auto. apply valid_rnd_N. Qed.

Lemma finite_not_nan (x : b64) : is_finite x = true -> not_nan x.
Proof. unfold not_nan. destruct x; auto; discriminate. Qed.

Lemma min_shape (x : b64) :
  match x with B754_finite false m e _ => Pos.eqb m (2 ^ 52) && Z.eqb e (-1074) | _ => false end = true ->
  exists B, x = B754_finite false (2 ^ 52) (-1074) B.
Proof.
  destruct x as [| | |[] m e B]; try discriminate. intros H.
  apply andb_true_iff in H. destruct H as [A C]. apply Pos.eqb_eq in A. apply Z.eqb_eq in C.
  subst m e. exists B. reflexivity.
Qed.

Lemma small_lit lg z : (0 <= z)%Z -> IZR z <= GB64 ->
  is_finite (lit (numB lg) z : b64) = true /\ bval (lit (numB lg) z : b64) = IZR z.
Proof.
  intros P L. change GB64 with (IZR (2 ^ 48)) in L. apply le_IZR in L.
  destruct (litB lg z) as (A & B & _); [lia|]. split; auto. rewrite bval_finite; auto.
Qed.

Definition roundB (lg : Z -> b64) (LO : log_ok lg) : NumRound (numB lg) (orderB lg LO).
Proof.
  refine (@Build_NumRound (numB lg) (orderB lg LO) u64 GB64 rnd _ _ _ _ _ _ _ _ _ _ _ _ _ _);
    rewrite ?GB64_pow; cbn [F f_add f_sub f_mul f_div f_zero o_fin o_val orderB numB].
  - unfold u64. split; [apply bpow_ge_0|]. change (bpow radix2 (-53)) with (/ IZR (2 ^ 53)).
    replace (1 / 1000) with (/ 1000) by lra. apply Rinv_le_contravar; [lra|]. apply IZR_le. vm_compute. discriminate.
  - change GB64 with (IZR (2 ^ 48)). apply IZR_le. vm_compute. discriminate.
  - intros k L.
    assert (U : 0 <= u64) by apply bpow_ge_0.
    assert (K : INR k * u64 <= 1 / 32).
    { apply Rle_trans with (GB64 * u64); [apply Rmult_le_compat_r; auto|].
      unfold GB64, u64. rewrite <- bpow_plus. change (bpow radix2 (48 + -53)) with (/ 32). lra. }
    pose proof (steps_bound u64 k U ltac:(lra)) as SB.
    assert (P : 0 < (1 + u64) ^ k) by (apply pow_lt; lra). nra.
  - apply rnd_mono.
  - intros x [L _]. apply rnd_rel. rewrite <- bpow_opp in L. exact L.
  - intros z P L. change GB64 with (IZR (2 ^ 48)) in L. apply le_IZR in L. apply rnd_format, format_int. lia.
  - intros z P L. apply small_lit; auto.
  - intros x y X Y B. rewrite (bval_finite x X), (bval_finite y Y) in *.
    pose proof (Bplus_correct 53 1024 prec53 emax1024 mode_NE x y X Y) as C. cbn [round_mode] in C.
    fold (rnd (B2R x + B2R y)) in C. rewrite Rlt_bool_true in C by (apply rnd_small; auto).
    destruct C as (C1 & C2 & _). split; auto. rewrite bval_finite; auto.
  - intros x y X Y B. rewrite (bval_finite x X), (bval_finite y Y) in *.
    pose proof (Bminus_correct 53 1024 prec53 emax1024 mode_NE x y X Y) as C. cbn [round_mode] in C.
    fold (rnd (B2R x - B2R y)) in C. rewrite Rlt_bool_true in C by (apply rnd_small; auto).
    destruct C as (C1 & C2 & _). split; auto. rewrite bval_finite; auto.
  - intros x y X Y B. rewrite (bval_finite x X), (bval_finite y Y) in *.
    pose proof (Bmult_correct 53 1024 prec53 emax1024 mode_NE x y) as C. cbn [round_mode] in C.
    fold (rnd (B2R x * B2R y)) in C. rewrite Rlt_bool_true in C by (apply rnd_small; auto).
    destruct C as (C1 & C2 & _). rewrite X, Y in C2. split; auto. rewrite bval_finite; auto.
  - intros x y X Y NZ B. rewrite (bval_finite x X), (bval_finite y Y) in *.
    pose proof (Bdiv_correct 53 1024 prec53 emax1024 mode_NE x y NZ) as C. cbn [round_mode] in C.
    fold (rnd (B2R x / B2R y)) in C. rewrite Rlt_bool_true in C by (apply rnd_small; auto).
    destruct C as (C1 & C2 & _). rewrite X in C2. split; auto. rewrite bval_finite; auto.
  - reflexivity.
  - assert (FI : is_finite (float_max (numB lg) : b64) = true) by (vm_compute; reflexivity).
    split; auto.
    assert (LT : Bltb (lit (numB lg) 2 : b64) (float_max (numB lg) : b64) = true) by (vm_compute; reflexivity).
    destruct (small_lit lg 2) as [A B]; [lia|change GB64 with (IZR (2 ^ 48)); apply IZR_le; vm_compute; discriminate|].
    apply Bltb_val in LT.
    + rewrite B in LT. lra.
    + apply finite_not_nan, A.
    + apply finite_not_nan, FI.
  - assert (FI : is_finite (float_min (numB lg) : b64) = true) by (vm_compute; reflexivity).
    split; auto.
    assert (E : exists B, (float_min (numB lg) : b64) = B754_finite false (2 ^ 52) (-1074) B).
    { apply min_shape. vm_compute. reflexivity. }
    destruct E as (B & E). cbn [F numB] in E |- *. rewrite E. cbn [bval B2R]. unfold F2R. cbn [Fnum Fexp SpecFloat.cond_Zopp].
    replace (IZR (Z.pos (2 ^ 52))) with (bpow radix2 52) by reflexivity.
    rewrite <- bpow_plus. split; [apply bpow_ge_0|].
    apply Rle_trans with (bpow radix2 (-7)); [apply bpow_le; lia|].
    change (bpow radix2 (-7)) with (/ 128). lra.
Defined.

(** ** With minus infinity *)

Definition ext_round (num : Num) (o : NumOrder num) (all : forall x, o_fin o x) (Q : NumRound num o) :
  (forall n, f_of_Z num n <> None) -> NumRound (ext_num num) (ext_order num o all).
Proof.
  intros TOT.
  assert (LIT : forall n, lit (ext_num num) n = Some (lit num n)).
  { intros n. unfold lit. cbn [f_of_Z ext_num]. specialize (TOT n). destruct (f_of_Z num n); [reflexivity|congruence]. }
  refine (@Build_NumRound (ext_num num) (ext_order num o all) (r_u Q) (r_G Q) (r_rnd Q)
            (r_u_pos _ _ Q) (r_G_big _ _ Q) (r_steps _ _ Q) (r_mono _ _ Q) (r_rel _ _ Q) (r_int _ _ Q)
            _ _ _ _ _ _ _ _);
    cbn [F f_add f_sub f_mul f_div f_zero o_fin o_val ext_order ext_num].
  - intros z P L. rewrite LIT. split; [discriminate|]. apply (r_lit _ _ Q); auto.
  - intros [x|] [y|] X Y B; try congruence. split; [discriminate|]. apply (r_add _ _ Q); auto.
  - intros [x|] [y|] X Y B; try congruence. split; [discriminate|]. apply (r_sub _ _ Q); auto.
  - intros [x|] [y|] X Y B; try congruence. split; [discriminate|]. apply (r_mul _ _ Q); auto.
  - intros [x|] [y|] X Y NZ B; try congruence. split; [discriminate|]. apply (r_div _ _ Q); auto.
  - apply (r_zero _ _ Q).
  - unfold float_max. rewrite LIT. split; [discriminate|]. apply (r_max _ _ Q).
  - unfold float_min. rewrite !LIT. cbn [f_div ext_num]. split; [discriminate|]. apply (r_min _ _ Q).
Defined.

(** the reals with minus infinity, which the tagger needs *)
Definition numX : Num := ext_num numR.
Definition orderX : NumOrder numX := ext_order numR orderR (fun _ => I).
Lemma numR_total n : f_of_Z numR n <> None. Proof. discriminate. Qed.
Definition countX : NumCount numX orderX := ext_count numR orderR (fun _ => I) countR numR_total.
Definition roundX (G : R) (GB : 100 <= G) : NumRound numX orderX :=
  ext_round numR orderR (fun _ => I) (roundR G GB) numR_total.
