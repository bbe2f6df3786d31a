(** * IEEE binary64 (Python's float), via Flocq

    [math.log] is not specified by IEEE 754; it is a parameter of the instance,
    about which only finiteness and a (very generous) bound are assumed.  The
    bound is an explicit hypothesis of the theorems, not an axiom. *)
From Coq Require Import Reals Lra.
From Flocq Require Import Core BinarySingleNaN.
From Verif Require Import PyBase PyNum SpecNum.
Local Open Scope R_scope.

Definition b64 := binary_float 53 1024.

Global Instance prec53 : Prec_gt_0 53.
Proof. reflexivity. Qed.
Global Instance emax1024 : Prec_lt_emax 53 1024.
Proof. reflexivity. Qed.

(** [float(n)]: rounded to nearest even, [OverflowError] if too large *)
Definition b64_of_Z (n : Z) : option b64 :=
  let x := binary_normalize 53 1024 _ _ mode_NE n 0 false in
  if is_finite x then Some x else None.

(** [int(x)] *)
Definition b64_trunc (x : b64) : res Z :=
  match x with
  | B754_nan => Err ValueError
  | B754_infinity _ => Err OverflowError
  | _ => Ok (Btrunc x)
  end.

(** the binary64 number nearest to -3.14e100 *)
Definition b64_min_float : b64 :=
  binary_normalize 53 1024 _ _ mode_NE (- (314 * 10 ^ 98)) 0 false.

Definition numB (lg : Z -> b64) : Num := {|
  F := b64;
  f_zero := B754_zero false;
  f_add := Bplus mode_NE;
  f_sub := Bminus mode_NE;
  f_mul := Bmult mode_NE;
  f_div := Bdiv mode_NE;
  f_lt := fun x y => Bltb x y;
  f_eq := fun x y => Beqb x y;
  f_of_Z := b64_of_Z;
  f_trunc := b64_trunc;
  f_log := lg;
  f_min_float := b64_min_float;
  f_neg_inf := B754_infinity true;
|}.

(** the assumption on [math.log]: defined and within [2^1000] for positive ints *)
Definition log_ok (lg : Z -> b64) : Prop :=
  forall n, (0 < n)%Z -> is_finite (lg n) = true /\ Rabs (B2R (lg n)) <= bpow radix2 1000.

(** ** Order embedding *)

Definition M : R := bpow radix2 1024.

Definition bval (x : b64) : R :=
  match x with
  | B754_infinity false => M
  | B754_infinity true => - M
  | _ => B2R x
  end.

Lemma bval_finite x : is_finite x = true -> bval x = B2R x.
Proof. destruct x as [s|[]| |]; auto; discriminate. Qed.

Lemma B2R_lt_M (x : b64) : - M < B2R x < M.
Proof.
  pose proof (abs_B2R_lt_emax 53 1024 x) as A. apply Rabs_lt_inv in A. exact A.
Qed.

Lemma M_pos : 0 < M.
Proof. apply bpow_gt_0. Qed.

Lemma bval_range x : - M <= bval x <= M.
Proof.
  pose proof M_pos. destruct x as [s|[]| |s m e B]; cbn [bval]; try lra.
  - cbn [B2R]. lra.
  - cbn [B2R]. lra.
  - pose proof (B2R_lt_M (B754_finite s m e B)). lra.
Qed.

Definition not_nan (x : b64) : Prop := is_nan x = false.

Lemma Bltb_val x y : not_nan x -> not_nan y -> (Bltb x y = true <-> bval x < bval y).
Proof.
  intros Nx Ny. destruct (is_finite x) eqn:Fx, (is_finite y) eqn:Fy.
  - rewrite Bltb_correct, !bval_finite by auto.
    destruct (Rlt_bool_spec (B2R x) (B2R y)); split; auto; try discriminate; lra.
  - rewrite (bval_finite x Fx). pose proof (B2R_lt_M x).
    destruct y as [|[]| |]; try discriminate; destruct x as [|[]| |]; try discriminate; cbn [bval];
      (split; intros HL; [try discriminate HL; lra | try reflexivity; try lra]);
      try (cbn in HL; destruct s; discriminate HL);
      try (cbn; destruct s; reflexivity).
  - rewrite (bval_finite y Fy). pose proof (B2R_lt_M y).
    destruct x as [|[]| |]; try discriminate; destruct y as [|[]| |]; try discriminate; cbn [bval];
      (split; intros HL; [try discriminate HL; lra | try reflexivity; try lra]);
      try (cbn in HL; destruct s; discriminate HL);
      try (cbn; destruct s; reflexivity).
  - pose proof M_pos.
    destruct x as [|[]| |]; try discriminate; destruct y as [|[]| |]; try discriminate;
      cbn [bval Bltb Beqb SpecFloat.SFltb SpecFloat.SFeqb SpecFloat.SFcompare B2SF];
      split; intros HL; try discriminate; try reflexivity; lra.
Qed.

Lemma Beqb_val x y : not_nan x -> not_nan y -> (Beqb x y = true <-> bval x = bval y).
Proof.
  intros Nx Ny. destruct (is_finite x) eqn:Fx, (is_finite y) eqn:Fy.
  - rewrite Beqb_correct, !bval_finite by auto.
    destruct (Req_bool_spec (B2R x) (B2R y)); split; auto; try discriminate; contradiction.
  - rewrite (bval_finite x Fx). pose proof (B2R_lt_M x).
    destruct y as [|[]| |]; try discriminate; destruct x as [|[]| |]; try discriminate; cbn [bval];
      (split; intros HL; [try discriminate HL; try (cbn in HL; destruct s; discriminate HL) | lra]).
  - rewrite (bval_finite y Fy). pose proof (B2R_lt_M y).
    destruct x as [|[]| |]; try discriminate; destruct y as [|[]| |]; try discriminate; cbn [bval];
      (split; intros HL; [try discriminate HL; try (cbn in HL; destruct s; discriminate HL) | lra]).
  - pose proof M_pos.
    destruct x as [|[]| |]; try discriminate; destruct y as [|[]| |]; try discriminate;
      cbn [bval Bltb Beqb SpecFloat.SFltb SpecFloat.SFeqb SpecFloat.SFcompare B2SF];
      split; intros HL; try discriminate; try reflexivity; lra.
Qed.

(** ** Addition *)

Definition rnd (r : R) : R := round radix2 (SpecFloat.fexp 53 1024) ZnearestE r.

Definition clamp (r : R) : R := Rmax (- M) (Rmin M r).

Lemma clamp_mono a b : a <= b -> clamp a <= clamp b.
Proof.
  intros L. unfold clamp. apply Rle_max_compat_l. apply Rle_min_compat_l. auto.
Qed.

Lemma rnd_mono a b : a <= b -> rnd a <= rnd b.
Proof. intros L. unfold rnd. apply round_le; auto. apply fexp_correct. reflexivity. apply valid_rnd_N. Qed.

Lemma Bsign_B2R (x : b64) : if Bsign x then B2R x <= 0 else 0 <= B2R x.
Proof.
  destruct x as [s|s| |s m e B]; cbn [Bsign B2R].
  - destruct s; lra.
  - destruct s; lra.
  - lra.
  - unfold F2R. cbn [Fnum Fexp].
    pose proof (bpow_gt_0 radix2 e). destruct s; cbn [SpecFloat.cond_Zopp].
    + assert (IZR (Z.neg m) <= 0) by (apply IZR_le; lia).
      change (Z.opp (Z.pos m)) with (Z.neg m).
      nra.
    + apply Rmult_le_pos; [apply IZR_le; lia|lra].
Qed.

Lemma Bplus_val x y :
  is_finite x = true -> is_finite y = true ->
  is_nan (Bplus mode_NE x y) = false /\
  bval (Bplus mode_NE x y) = clamp (rnd (B2R x + B2R y)).
Proof.
  intros Fx Fy. pose proof (Bplus_correct 53 1024 _ _ mode_NE x y Fx Fy) as BC.
  fold (rnd (B2R x + B2R y)) in BC. change (bpow radix2 1024) with M in BC.
  cbn [round_mode] in BC. fold (rnd (B2R x + B2R y)) in BC.
  destruct (Rlt_bool_spec (Rabs (rnd (B2R x + B2R y))) M) as [L|L].
  - destruct BC as [E [FI _]]. split.
    + destruct (Bplus mode_NE x y); auto; discriminate.
    + rewrite bval_finite, E by auto. apply Rabs_lt_inv in L. unfold clamp.
      rewrite Rmin_right, Rmax_right by lra. reflexivity.
  - destruct BC as [E ES]. pose proof M_pos as MP.
    assert (EI : Bplus mode_NE x y = B754_infinity (Bsign x)).
    { unfold binary_overflow in E. cbn [overflow_to_inf] in E.
      destruct (Bplus mode_NE x y) as [s|s| |s m e B]; cbn in E; congruence. }
    rewrite EI. split; auto. cbn [bval].
    pose proof (Bsign_B2R x) as Sx. pose proof (Bsign_B2R y) as Sy. rewrite <- ES in Sy.
    assert (R0 : rnd 0 = 0) by (unfold rnd; apply round_0; apply valid_rnd_N).
    destruct (Bsign x).
    + assert (rnd (B2R x + B2R y) <= 0).
      { rewrite <- R0. apply rnd_mono. lra. }
      rewrite Rabs_left1 in L by auto. unfold clamp. rewrite Rmin_right by lra.
      rewrite Rmax_left by lra. reflexivity.
    + assert (0 <= rnd (B2R x + B2R y)).
      { rewrite <- R0. apply rnd_mono. lra. }
      rewrite Rabs_right in L by lra. unfold clamp. rewrite Rmin_left by lra.
      rewrite Rmax_right by lra. reflexivity.
Qed.

Lemma inf_cases (x : b64) : not_nan x ->
  is_finite x = true \/ x = B754_infinity false \/ x = B754_infinity true.
Proof. unfold not_nan. destruct x as [|[]| |]; cbn; auto. Qed.

Lemma Bplus_inf_r w b : is_finite w = true -> Bplus mode_NE w (B754_infinity b) = B754_infinity b.
Proof. destruct w; try discriminate; reflexivity. Qed.
Lemma Bplus_inf_l w b : is_finite w = true -> Bplus mode_NE (B754_infinity b) w = B754_infinity b.
Proof. destruct w; try discriminate; reflexivity. Qed.

Lemma Bplus_not_nan_l w x : is_finite w = true -> not_nan x -> not_nan (Bplus mode_NE w x).
Proof.
  intros Fw Nx. destruct (inf_cases x Nx) as [Fx|[ -> | -> ]].
  - apply Bplus_val; auto.
  - rewrite Bplus_inf_r by auto. reflexivity.
  - rewrite Bplus_inf_r by auto. reflexivity.
Qed.

Lemma Bplus_not_nan_r w x : is_finite w = true -> not_nan x -> not_nan (Bplus mode_NE x w).
Proof.
  intros Fw Nx. destruct (inf_cases x Nx) as [Fx|[ -> | -> ]].
  - apply Bplus_val; auto.
  - rewrite Bplus_inf_l by auto. reflexivity.
  - rewrite Bplus_inf_l by auto. reflexivity.
Qed.

Lemma clamp_range r : - M <= clamp r <= M.
Proof.
  pose proof M_pos. unfold clamp. split; [apply Rmax_l|].
  apply Rmax_lub; [lra|apply Rmin_l].
Qed.

Lemma Bplus_mono_l w x y :
  is_finite w = true -> not_nan x -> not_nan y -> bval x <= bval y ->
  bval (Bplus mode_NE w x) <= bval (Bplus mode_NE w y).
Proof.
  intros Fw Nx Ny L. pose proof M_pos as MP.
  destruct (inf_cases x Nx) as [Fx|[ -> | -> ]], (inf_cases y Ny) as [Fy|[ -> | -> ]];
    rewrite ?Bplus_inf_r by auto.
  - rewrite (proj2 (Bplus_val w x Fw Fx)), (proj2 (Bplus_val w y Fw Fy)).
    apply clamp_mono, rnd_mono. rewrite !bval_finite in L by auto. lra.
  - apply bval_range.
  - rewrite (bval_finite x Fx) in L. pose proof (B2R_lt_M x). cbn [bval] in L. lra.
  - rewrite (bval_finite y Fy) in L. pose proof (B2R_lt_M y). cbn [bval] in L. lra.
  - lra.
  - cbn [bval] in L. lra.
  - apply bval_range.
  - cbn [bval]. lra.
  - lra.
Qed.

Lemma Bplus_comm_val w x :
  is_finite w = true -> not_nan x -> bval (Bplus mode_NE x w) = bval (Bplus mode_NE w x).
Proof.
  intros Fw Nx. destruct (inf_cases x Nx) as [Fx|[ -> | -> ]].
  - rewrite (proj2 (Bplus_val w x Fw Fx)), (proj2 (Bplus_val x w Fx Fw)). f_equal. f_equal. lra.
  - rewrite Bplus_inf_l, Bplus_inf_r by auto. reflexivity.
  - rewrite Bplus_inf_l, Bplus_inf_r by auto. reflexivity.
Qed.

Lemma Bplus_mono_r w x y :
  is_finite w = true -> not_nan x -> not_nan y -> bval x <= bval y ->
  bval (Bplus mode_NE x w) <= bval (Bplus mode_NE y w).
Proof.
  intros Fw Nx Ny L. rewrite (Bplus_comm_val w x), (Bplus_comm_val w y) by auto. apply Bplus_mono_l; auto.
Qed.

Lemma log_sub_finite lg n m :
  log_ok lg -> (0 < n)%Z -> (0 < m)%Z -> is_finite (Bminus mode_NE (lg n) (lg m)) = true.
Proof.
  intros LO Hn Hm. destruct (LO n Hn) as [Fn Bn]. destruct (LO m Hm) as [Fm Bm].
  pose proof (Bminus_correct 53 1024 _ _ mode_NE (lg n) (lg m) Fn Fm) as BC.
  rewrite Rlt_bool_true in BC; [apply BC|].
  apply Rle_lt_trans with (bpow radix2 1001); [|apply bpow_lt; lia].
  apply abs_round_le_generic.
  - apply fexp_correct. reflexivity.
  - apply valid_rnd_N.
  - apply generic_format_bpow. vm_compute. discriminate.
  - replace (bpow radix2 1001) with (bpow radix2 1000 + bpow radix2 1000).
    + apply Rle_trans with (Rabs (B2R (lg n)) + Rabs (B2R (lg m))); [|lra].
      unfold Rminus. rewrite <- (Rabs_Ropp (B2R (lg m))). apply Rabs_triang.
    + change 1001%Z with (1000 + 1)%Z. rewrite bpow_plus. change (bpow radix2 1) with 2. lra.
Qed.

Definition orderB (lg : Z -> b64) (LO : log_ok lg) : NumOrder (numB lg).
Proof.
  refine (@Build_NumOrder (numB lg) (fun x : b64 => is_finite x = true) not_nan bval
            _ _ _ _ _ _ _ _ _ _); cbn [F f_zero f_add f_sub f_lt f_eq f_log f_min_float numB].
  - apply Bltb_val.
  - apply Beqb_val.
  - intros x. unfold not_nan. destruct x; auto; discriminate.
  - reflexivity.
  - apply Bplus_not_nan_l.
  - apply Bplus_not_nan_r.
  - apply Bplus_mono_l.
  - apply Bplus_mono_r.
  - intros n m. apply log_sub_finite; auto.
  - vm_compute. reflexivity.
Defined.

(** the hypothesis on [log] can be met *)
Example log_ok_const : log_ok (fun _ => B754_zero false).
Proof.
  intros n _. split; auto. cbn [B2R]. rewrite Rabs_R0. apply bpow_ge_0.
Qed.
