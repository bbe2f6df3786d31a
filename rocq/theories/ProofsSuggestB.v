(** * Scores and suggested frequencies in binary64, with error bounds *)
From Coq Require Import Reals Lra Lia Psatz.
From Flocq Require Import Core BinarySingleNaN Relative.
From Verif Require Import PyBase PyRegex PyNum ModelFinalseg ModelSeg ModelDict ModelAnalyse SpecBase SpecSeg SpecNum SpecScore
  SpecDict SpecHealth SpecLog InstR InstB64 InstCount InstRound
  ProofsBase ProofsSeg ProofsOpt ProofsNoHmm ProofsDict ProofsTotal ProofsSuggest ProofsWhole.
Set Implicit Arguments.
Local Open Scope R_scope.

Notation u := u64.

Lemma u_val : u = / 9007199254740992.
Proof. reflexivity. Qed.

(** ** Rounding errors *)

Lemma rnd_err x : Rabs (rnd x - x) <= u * (Rabs x + 1).
Proof.
  destruct (relative_error_N_FLT'_ex radix2 (-1074) 53 ltac:(lia) (fun x => negb (Z.even x)) x)
    as (eps & eta & B1 & B2 & _ & E).
  change (FLT_exp (-1074) 53) with (SpecFloat.fexp 53 1024) in E. fold (rnd x) in E. rewrite E.
  replace (x * (1 + eps) + eta - x) with (eps * x + eta) by ring.
  eapply Rle_trans; [apply Rabs_triang|]. rewrite Rabs_mult, Rmult_plus_distr_l, Rmult_1_r.
  apply Rplus_le_compat.
  - apply Rmult_le_compat_r; [apply Rabs_pos|]. eapply Rle_trans; [exact B1|].
    assert (V : u_ro radix2 53 = u).
    { unfold u_ro, u64. change (- (53) + 1)%Z with (-53 + 1)%Z. rewrite bpow_plus. change (bpow radix2 1) with 2. lra. }
    rewrite V. assert (U : 0 < u) by (rewrite u_val; lra).
    apply (Rmult_le_reg_r (1 + u)); [lra|]. unfold Rdiv. rewrite Rmult_assoc, Rinv_l by lra. nra.
  - eapply Rle_trans; [exact B2|]. apply Rle_trans with (bpow radix2 (-1074)).
    + pose proof (bpow_ge_0 radix2 (-1074)). lra.
    + apply bpow_le. lia.
Qed.

Lemma rnd_le_int x z : (0 <= z < 2 ^ 53)%Z -> x <= IZR z -> rnd x <= IZR z.
Proof.
  intros B L. rewrite <- (rnd_format (IZR z)); [apply rnd_mono; auto|apply format_int; lia].
Qed.
Lemma rnd_ge_0 x : 0 <= x -> 0 <= rnd x.
Proof. intros L. rewrite <- (rnd_format 0); [apply rnd_mono; auto|apply generic_format_0]. Qed.

Lemma rnd_fits x : Rabs x <= bpow radix2 384 -> Rlt_bool (Rabs (rnd x)) (bpow radix2 1024) = true.
Proof. intros B. apply Rlt_bool_true, rnd_small. auto. Qed.

Lemma plusB (x y : b64) :
  is_finite x = true -> is_finite y = true -> Rabs (B2R x + B2R y) <= bpow radix2 384 ->
  is_finite (Bplus mode_NE x y) = true /\ B2R (Bplus mode_NE x y) = rnd (B2R x + B2R y).
Proof.
  intros X Y B. pose proof (Bplus_correct 53 1024 prec53 emax1024 mode_NE x y X Y) as C. cbn [round_mode] in C.
  fold (rnd (B2R x + B2R y)) in C. rewrite rnd_fits in C by auto. tauto.
Qed.
Lemma minusB (x y : b64) :
  is_finite x = true -> is_finite y = true -> Rabs (B2R x - B2R y) <= bpow radix2 384 ->
  is_finite (Bminus mode_NE x y) = true /\ B2R (Bminus mode_NE x y) = rnd (B2R x - B2R y).
Proof.
  intros X Y B. pose proof (Bminus_correct 53 1024 prec53 emax1024 mode_NE x y X Y) as C. cbn [round_mode] in C.
  fold (rnd (B2R x - B2R y)) in C. rewrite rnd_fits in C by auto. tauto.
Qed.
Lemma multB (x y : b64) :
  is_finite x = true -> is_finite y = true -> Rabs (B2R x * B2R y) <= bpow radix2 384 ->
  is_finite (Bmult mode_NE x y) = true /\ B2R (Bmult mode_NE x y) = rnd (B2R x * B2R y).
Proof.
  intros X Y B. pose proof (Bmult_correct 53 1024 prec53 emax1024 mode_NE x y) as C. cbn [round_mode] in C.
  fold (rnd (B2R x * B2R y)) in C. rewrite rnd_fits in C by auto. rewrite X, Y in C. tauto.
Qed.
Lemma divB (x y : b64) :
  is_finite x = true -> B2R y <> 0 -> Rabs (B2R x / B2R y) <= bpow radix2 384 ->
  is_finite (Bdiv mode_NE x y) = true /\ B2R (Bdiv mode_NE x y) = rnd (B2R x / B2R y).
Proof.
  intros X Y B. pose proof (Bdiv_correct 53 1024 prec53 emax1024 mode_NE x y Y) as C. cbn [round_mode] in C.
  fold (rnd (B2R x / B2R y)) in C. rewrite rnd_fits in C by auto. rewrite X in C. tauto.
Qed.

Lemma big_384 x : Rabs x <= 9007199254740992 -> Rabs x <= bpow radix2 384.
Proof. intros L. eapply Rle_trans; [exact L|]. change 9007199254740992 with (bpow radix2 53). apply bpow_le. lia. Qed.

(** ** Logarithms of the numbers in range *)

Lemma ln_2_le : ln 2 <= 1.
Proof.
  pose proof (exp_ineq1 1 ltac:(lra)) as E. rewrite <- (ln_exp 1). left. apply ln_increasing; lra.
Qed.

Lemma ln_range n : (1 <= n <= 2 ^ 44)%Z -> 0 <= ln (IZR n) <= 44.
Proof.
  intros [A B]. apply IZR_le in A, B. split.
  - rewrite <- ln_1. apply ln_le; lra.
  - apply Rle_trans with (ln (IZR (2 ^ 44))); [apply ln_le; lra|].
    replace (IZR (2 ^ 44)) with (2 ^ 44)%R by (rewrite pow_IZR; reflexivity).
    rewrite ln_pow by lra. rewrite INR_IZR_INZ. change (IZR (Z.of_nat 44)) with 44. pose proof ln_2_le. lra.
Qed.

Lemma ln_ge_1m y : 0 <= y <= / 2 -> - (2 * y) <= ln (1 - y).
Proof.
  intros [A B]. 
  assert (E : ln (1 - y) = - ln (/ (1 - y))) by (rewrite ln_Rinv; lra).
  rewrite E. assert (ln (/ (1 - y)) <= 2 * y); [|lra].
  assert (P : 0 < 1 - y) by lra.
  assert (L : / (1 - y) <= exp (2 * y)).
  { apply Rle_trans with (1 + 2 * y).
    - apply (Rmult_le_reg_r (1 - y)); auto. rewrite Rinv_l by lra. nra.
    - destruct (Req_dec y 0) as [->|NZ]; [rewrite Rmult_0_r, exp_0; lra|].
      left. apply exp_ineq1. lra. }
  rewrite <- (ln_exp (2 * y)). apply ln_le; auto. apply Rinv_0_lt_compat; auto.
Qed.

(** ln (b / a) >= (b - a) / b *)
Lemma ln_diff a b : 0 < a -> a <= b -> (b - a) / b <= ln b - ln a.
Proof.
  intros A L. assert (B : 0 < b) by lra.
  assert (E : ln b - ln a = - ln (a / b)).
  { unfold Rdiv. rewrite ln_mult, ln_Rinv; auto; [lra|]. apply Rinv_0_lt_compat; auto. }
  rewrite E. assert (P : 0 < a / b) by (apply Rdiv_lt_0_compat; auto).
  assert (Q : ln (a / b) <= a / b - 1).
  { rewrite <- (ln_exp (a / b - 1)). apply ln_le; auto.
    destruct (Req_dec (a / b - 1) 0) as [Z|NZ]; [rewrite Z, exp_0; lra|].
    pose proof (exp_ineq1 (a / b - 1) NZ). lra. }
  replace ((b - a) / b) with (1 - a / b) by (field; lra). lra.
Qed.

Section Score.
  Variable lg : Z -> b64.
  Hypothesis LO : log_ok lg.
  Hypothesis LC : log_close lg.
  Notation numB := (numB lg).
  Notation O := (orderB lg LO).

  (** error of one word's score *)
  Lemma word_scoreB D T w :
    (1 <= weight_of D w <= T)%Z -> (T <= 2 ^ 44)%Z ->
    let x := word_score numB D T w : b64 in
    is_finite x = true /\ Rabs (B2R x - (ln (IZR (weight_of D w)) - ln (IZR T))) <= 128 * u.
  Proof.
    intros W LT. unfold word_score. cbn [f_sub f_log InstB64.numB]. set (n := weight_of D w) in *.
    destruct (@LO n ltac:(lia)) as [F1 _]. destruct (@LO T ltac:(lia)) as [F2 _].
    pose proof (@LC n ltac:(lia)) as C1. pose proof (@LC T ltac:(lia)) as C2.
    change (bpow radix2 (-48)) with (/ 281474976710656) in C1, C2.
    pose proof (@ln_range n ltac:(lia)) as R1. pose proof (@ln_range T ltac:(lia)) as R2.
    apply Rabs_le_inv in C1, C2.
    assert (B : Rabs (B2R (lg n) - B2R (lg T)) <= 45) by (apply Rabs_le; lra).
    destruct (@minusB (lg n) (lg T) F1 F2) as [F3 E]; [apply big_384; lra|].
    cbv zeta. split; auto. rewrite E.
    pose proof (rnd_err (B2R (lg n) - B2R (lg T))) as RE. rewrite u_val in *.
    assert (RE2 : Rabs (rnd (B2R (lg n) - B2R (lg T)) - (B2R (lg n) - B2R (lg T))) <= 46 * / 9007199254740992) by lra.
    apply Rabs_le_inv in RE2. apply Rabs_le. lra.
  Qed.

  (** the real score *)
  Definition rscore (D : dictionary) (T : Z) (ws : list str) : R :=
    fold_right (fun w acc => ln (IZR (weight_of D w)) - ln (IZR T) + acc) 0 ws.

  Lemma rscore_R D T ws : rscore D T ws = score numR D T ws.
  Proof. induction ws; simpl; [reflexivity|]. rewrite IHws. reflexivity. Qed.

  Lemma rscore_range D T ws :
    Forall (fun w => (1 <= weight_of D w <= T)%Z) ws -> (T <= 2 ^ 44)%Z ->
    - (44 * INR (length ws)) <= rscore D T ws <= 0.
  Proof.
    intros F LT. induction F as [|w ws W F IH]; [simpl; lra|].
    cbn [rscore fold_right length]. fold (rscore D T ws). rewrite S_INR.
    pose proof (@ln_range (weight_of D w) ltac:(lia)). pose proof (@ln_range T ltac:(lia)).
    assert (ln (IZR (weight_of D w)) <= ln (IZR T)).
    { apply ln_le; [apply IZR_lt; lia|apply IZR_le; lia]. }
    lra.
  Qed.

  Lemma scoreB D T ws :
    Forall (fun w => (1 <= weight_of D w <= T)%Z) ws -> (T <= 2 ^ 44)%Z ->
    INR (length ws) * INR (length ws) * (256 * u) <= 1 ->
    let x := score numB D T ws : b64 in
    is_finite x = true /\
    Rabs (B2R x - rscore D T ws) <= INR (length ws) * INR (length ws) * (256 * u).
  Proof.
    intros F LT. induction F as [|w ws W F IH]; intros K.
    - cbv zeta. split; [reflexivity|]. simpl. rewrite Rminus_0_r, Rabs_R0. lra.
    - cbn [length] in *. rewrite S_INR in *. set (k := INR (length ws)) in *.
      assert (K0 : 0 <= k) by apply pos_INR.
      assert (U : 0 < u) by (rewrite u_val; lra).
      assert (K1 : k * k * (256 * u) <= 1) by nra.
      destruct (IH K1) as [F1 E1]. destruct (@word_scoreB D T w W LT) as [F2 E2]. cbv zeta in *.
      cbn [score rscore fold_right] in *. fold (score numB D T ws) (rscore D T ws) in *.
      set (s := score numB D T ws : b64) in *. set (x := word_score numB D T w : b64) in *.
      cbn [f_add InstB64.numB].
      pose proof (@rscore_range D T ws F LT) as RR. fold k in RR.
      pose proof (@ln_range (weight_of D w) ltac:(lia)) as R1. pose proof (@ln_range T ltac:(lia)) as R2.
      assert (R3 : ln (IZR (weight_of D w)) <= ln (IZR T)).
      { apply ln_le; [apply IZR_lt; lia|apply IZR_le; lia]. }
      apply Rabs_le_inv in E1, E2.
      assert (K2 : k <= 9007199254740992 / 256).
      { rewrite u_val in K1. destruct (Rle_lt_dec k 1); [lra|]. assert (k * 1 <= k * k) by nra. lra. }
      assert (U2 : 128 * u <= 1) by (rewrite u_val; lra).
      assert (B : Rabs (B2R x + B2R s) <= 44 * (k + 1) + 2).
      { apply Rabs_le. lra. }
      destruct (@plusB x s F2 F1) as [F3 E3]; [apply big_384; lra|]. 
      split; [exact F3|]. match goal with |- Rabs (?y - _) <= _ => change y with (B2R (Bplus mode_NE x s)) end.
      rewrite E3.
      pose proof (rnd_err (B2R x + B2R s)) as RE.
      assert (RE2 : Rabs (rnd (B2R x + B2R s) - (B2R x + B2R s)) <= u * (44 * (k + 1) + 3)).
      { eapply Rle_trans; [exact RE|]. apply Rmult_le_compat_l; lra. }
      apply Rabs_le_inv in RE2.
      assert (ST : 128 * u + u * (44 * (k + 1) + 3) + k * k * (256 * u) <= (k + 1) * (k + 1) * (256 * u)) by nra.
      apply Rabs_le. lra.
  Qed.

  (** ** The product of the frequencies *)

  Lemma py_floatB n : (0 <= n < 2 ^ 53)%Z ->
    exists x : b64, py_float numB n = Ok x /\ is_finite x = true /\ B2R x = IZR n.
  Proof.
    intros B. destruct (@litB lg n B) as (A & C & _). unfold lit, py_float in *. cbn [f_of_Z InstB64.numB] in *.
    unfold b64_of_Z in *. destruct (is_finite (binary_normalize 53 1024 prec53 emax1024 mode_NE n 0 false)) eqn:E.
    - eexists. split; [reflexivity|]. auto.
    - exfalso.
      pose proof (binary_normalize_correct 53 1024 prec53 emax1024 mode_NE n 0 false) as Q. cbv zeta in Q.
      assert (EE : @F2R radix2 {| Fnum := n; Fexp := 0 |} = IZR n) by (unfold F2R; cbn [Fnum Fexp bpow]; lra).
      rewrite EE in Q. rewrite round_generic in Q; [|apply valid_rnd_N|apply format_int; auto].
      rewrite Rlt_bool_true in Q by (apply small_lt_M; auto). rewrite E in Q. destruct Q as (_ & Q & _). discriminate.
  Qed.

  Definition in01 (x : b64) : Prop := is_finite x = true /\ 0 <= B2R x <= 1.

  Lemma freq_range fr T s : healthy fr T -> (0 <= freq_get fr s 1 <= T)%Z.
  Proof.
    intros HE. unfold freq_get. destruct (sget fr s) eqn:E; [eapply healthy_get; eauto|].
    destruct HE as [_ [P _]]. lia.
  Qed.

  Lemma quotB fr T s (ft : b64) :
    healthy fr T -> (T <= 2 ^ 44)%Z -> is_finite ft = true -> B2R ft = IZR T ->
    exists q : b64, rbind (py_float numB (freq_get fr s 1)) (fun x => py_div numB x ft) = Ok q /\ in01 q /\
      ((0 < freq_get fr s 1)%Z -> (1 - u) * (IZR (freq_get fr s 1) / IZR T) <= B2R q).
  Proof.
    intros HE LT FF VF. pose proof (freq_range s HE) as FR. pose proof HE as [_ [P _]].
    set (n := freq_get fr s 1) in *. destruct (@py_floatB n ltac:(lia)) as (x & -> & FX & VX). cbn [rbind].
    assert (PT : 0 < IZR T) by (apply IZR_lt; auto).
    unfold py_div. cbn [f_eq f_div f_zero InstB64.numB].
    assert (EQ : Beqb ft (B754_zero false : b64) = false).
    { rewrite Beqb_correct by auto. apply Req_bool_false. rewrite VF. cbn [B2R]. lra. }
    rewrite EQ.
    assert (Q : 0 <= IZR n / IZR T <= 1).
    { destruct FR as [A B]. apply IZR_le in A, B. split.
      - apply Rmult_le_pos; auto. left. apply Rinv_0_lt_compat; auto.
      - apply (Rmult_le_reg_r (IZR T)); auto. unfold Rdiv. rewrite Rmult_assoc, Rinv_l by lra. lra. }
    destruct (@divB x ft FX) as [F3 E3]; [rewrite VF; lra| |].
    { rewrite VX, VF. apply big_384. rewrite Rabs_pos_eq; lra. }
    rewrite VX, VF in E3. eexists. split; [reflexivity|]. split.
    - split; auto. rewrite E3. split; [apply rnd_ge_0; lra|apply (@rnd_le_int _ 1); [lia|lra]].
    - intros NP. rewrite E3. apply rnd_rel. apply Rle_trans with (/ IZR T).
      + apply Rle_trans with (bpow radix2 (-44)); [apply bpow_le; lia|].
        change (bpow radix2 (-44)) with (/ IZR (2 ^ 44)). apply Rinv_le_contravar; auto. apply IZR_le; auto.
      + unfold Rdiv. rewrite <- (Rmult_1_l (/ IZR T)) at 1. apply Rmult_le_compat_r.
        * left. apply Rinv_0_lt_compat; auto.
        * apply IZR_le. lia.
  Qed.

  Lemma mul01 (a q : b64) : in01 a -> in01 q -> in01 (Bmult mode_NE a q) /\
    B2R (Bmult mode_NE a q) = rnd (B2R a * B2R q).
  Proof.
    intros [FA BA] [FQ BQ].
    assert (B : 0 <= B2R a * B2R q <= 1).
    { split; [apply Rmult_le_pos; lra|]. replace 1 with (1 * 1) by lra. apply Rmult_le_compat; lra. }
    destruct (@multB a q FA FQ) as [F E]; [apply big_384; rewrite Rabs_pos_eq; lra|].
    split; auto. split; auto. rewrite E. split; [apply rnd_ge_0; lra|apply (@rnd_le_int _ 1); [lia|lra]].
  Qed.

  Lemma raw_freqs_pos fr T segs : healthy fr T -> 0 < raw fr T segs -> Forall (fun s => (0 < freq_get fr s 1)%Z) segs.
  Proof.
    intros HE. induction segs as [|s segs IH]; intros P; constructor; cbn [raw fold_right] in P; fold (raw fr T segs) in P.
    - pose proof (freq_range s HE) as [A _]. destruct (Z.eq_dec (freq_get fr s 1) 0) as [E|]; [|lia].
      rewrite E in P. unfold Rdiv in P. rewrite !Rmult_0_l in P. lra.
    - apply IH. pose proof (raw_bounds segs HE) as [B _]. destruct (Req_dec (raw fr T segs) 0) as [E|]; [|lra].
      rewrite E, Rmult_0_r in P. lra.
  Qed.

  Lemma productB fr T (ft : b64) segs :
    healthy fr T -> (T <= 2 ^ 44)%Z -> is_finite ft = true -> B2R ft = IZR T ->
    forall a : b64, in01 a ->
    exists x : b64, freq_product numB fr ft segs (Some a) = Ok (Some x) /\ in01 x /\
      (bpow radix2 (-100) <= B2R a * raw fr T segs * (1 - u) ^ (2 * length segs) ->
       B2R a * raw fr T segs * (1 - u) ^ (2 * length segs) <= B2R x).
  Proof.
    intros HE LT FF VF. induction segs as [|s segs IH]; intros a A.
    - exists a. split; [reflexivity|]. split; auto. simpl. lra.
    - cbn [freq_product]. destruct (@quotB fr T s ft HE LT FF VF) as (q & EQ & Q & LB).
      destruct (py_float numB (freq_get fr s 1)) as [x|]; cbn [rbind] in EQ |- *; [|discriminate]. rewrite EQ. cbn [rbind].
      cbn [acc_mul f_mul InstB64.numB]. destruct (@mul01 a q A Q) as [A' E'].
      destruct (IH _ A') as (y & EY & Y & LY). exists y. split; [exact EY|]. split; auto.
      cbn [raw fold_right length]. fold (raw fr T segs).
      replace (2 * S (length segs))%nat with (S (S (2 * length segs))) by lia. cbn [pow].
      set (p := (1 - u) ^ (2 * length segs)) in *. set (f := IZR (freq_get fr s 1) / IZR T) in *.
      set (r := raw fr T segs) in *. intros LB2.
      assert (U : 0 < u < 1) by (rewrite u_val; lra).
      assert (P : 0 < p) by (apply pow_lt; lra).
      assert (P1 : p <= 1). { rewrite <- (pow1 (2 * length segs)). apply pow_incr; lra. }
      pose proof (raw_bounds segs HE) as RB. fold r in RB.
      pose proof (bpow_gt_0 radix2 (-100)) as B0.
      assert (FP : (0 < freq_get fr s 1)%Z).
      { pose proof (freq_range s HE) as [N _]. destruct (Z.eq_dec (freq_get fr s 1) 0) as [E|]; [|lia].
        exfalso. unfold f in LB2. rewrite E in LB2. unfold Rdiv in LB2. rewrite !Rmult_0_l, Rmult_0_r, Rmult_0_l in LB2. lra. }
      specialize (LB FP). fold f in LB. destruct A as [FA [A0 A1]].
      pose proof HE as [_ [PT _]]. apply IZR_lt in PT. 
      assert (F0 : 0 < f) by (apply Rdiv_lt_0_compat; auto; apply IZR_lt; auto).
      (* the product so far is at least this *)
      assert (M1 : B2R a * f * (1 - u) <= B2R a * B2R q) by (rewrite Rmult_assoc; apply Rmult_le_compat_l; lra).
      assert (AF : 0 <= B2R a * f) by (apply Rmult_le_pos; lra).
      assert (M2 : bpow radix2 (-100) <= B2R a * f * (1 - u)).
      { eapply Rle_trans; [exact LB2|].
        replace (B2R a * (f * r) * ((1 - u) * ((1 - u) * p))) with (B2R a * f * (1 - u) * (r * ((1 - u) * p))) by ring.
        rewrite <- (Rmult_1_r (B2R a * f * (1 - u))) at 2. apply Rmult_le_compat_l; [apply Rmult_le_pos; lra|].
        assert ((1 - u) * p <= 1) by nra. assert (0 <= (1 - u) * p) by nra. nra. }
      assert (M3 : bpow radix2 (-384) <= B2R a * B2R q).
      { apply Rle_trans with (bpow radix2 (-100)); [apply bpow_le; lia|]. lra. }
      pose proof (rnd_rel _ M3) as [M4 _]. rewrite <- E' in M4.
      assert (M5 : B2R a * f * (1 - u) * (1 - u) <= B2R (Bmult mode_NE a q)).
      { eapply Rle_trans; [|exact M4]. rewrite (Rmult_comm (1 - u) (B2R a * B2R q)). apply Rmult_le_compat_r; lra. }
      assert (RP : 0 <= r * p) by (apply Rmult_le_pos; lra).
      assert (M6 : B2R a * (f * r) * ((1 - u) * ((1 - u) * p)) <= B2R (Bmult mode_NE a q) * r * p).
      { replace (B2R a * (f * r) * ((1 - u) * ((1 - u) * p))) with (B2R a * f * (1 - u) * (1 - u) * (r * p)) by ring.
        rewrite (Rmult_assoc (B2R (Bmult mode_NE a q))). apply Rmult_le_compat_r; auto. }
      eapply Rle_trans; [exact M6|]. apply LY. eapply Rle_trans; [exact LB2|exact M6].
  Qed.

  Lemma pow_1mu n : 1 - INR n * u <= (1 - u) ^ n.
  Proof.
    assert (U : 0 < u < 1) by (rewrite u_val; lra).
    induction n as [|n IH]; [simpl; lra|]. rewrite S_INR. cbn [pow].
    assert (N : 0 <= INR n) by apply pos_INR.
    assert (P : 0 < (1 - u) ^ n <= 1).
    { split; [apply pow_lt; lra|]. pose proof (pow_incr (1 - u) 1 n ltac:(lra)) as Q. rewrite pow1 in Q. exact Q. }
    nra.
  Qed.

  (** [int(x)] *)
  Lemma truncB (x : b64) : is_finite x = true -> 0 <= B2R x ->
    exists n, b64_trunc x = Ok n /\ (0 <= n)%Z /\ IZR n <= B2R x < IZR n + 1.
  Proof.
    intros FX P. exists (Btrunc x). split; [destruct x; try discriminate; reflexivity|].
    assert (E : Btrunc x = Ztrunc (B2R x)).
    { apply eq_IZR. rewrite (Btrunc_correct 53 1024 emax1024). unfold round, F2R, scaled_mantissa, cexp, FIX_exp. simpl. rewrite Rmult_1_r, Rmult_1_r. reflexivity. }
    rewrite E, Ztrunc_floor by auto. split; [apply Zfloor_lub; auto|]. split; [apply Zfloor_lb|apply Zfloor_ub].
  Qed.

  Lemma suggestB (H : hmm numB) fr T force w :
    healthy fr T -> (T <= 2 ^ 44)%Z -> w <> [] ->
    Forall (fun c => word_char c = true /\ is_alnum c = false) w ->
    let cs := chosen numB fr T w in
    exists f, suggest_freq_value numB H fr T force (Whole w) = Ok f /\ (1 <= f <= T + 1)%Z /\
      (1 < prob (sget fr) T cs * IZR T -> (2 * INR (length cs) + 1) * u <= / 2 ->
       prob (sget fr) T cs * IZR T * (1 - (2 * INR (length cs) + 1) * u) <= IZR f).
  Proof.
    intros HE LT NE FW cs. pose proof HE as [PC [P _]].
    unfold suggest_freq_value. destruct (@py_floatB T ltac:(lia)) as (ft & -> & FF & VF). cbn [rbind].
    rewrite whole_segments by (auto using healthy_sane). unfold gof, g_list. cbn [fst snd rbind].
    pose proof (chosen_candidate numB w (healthy_sane HE) PC) as C. apply candidate_partition in C.
    fold cs in C |- *. destruct cs as [|s segs] eqn:ECS; [destruct C as [C _]; simpl in C; congruence|].
    assert (PT : 0 < IZR T) by (apply IZR_lt; auto).
    assert (TU : 1 <= IZR T) by (apply IZR_le; lia).
    assert (TM : IZR T <= IZR (2 ^ 44)) by (apply IZR_le; auto).
    cbn [freq_product]. destruct (@quotB fr T s ft HE LT FF VF) as (q & EQ & Q & LB).
    destruct (py_float numB (freq_get fr s 1)) as [x0|]; cbn [rbind] in EQ |- *; [|discriminate]. rewrite EQ. cbn [rbind acc_mul].
    destruct (@productB fr T ft segs HE LT FF VF q Q) as (x & EX & X & LX). 
    match goal with |- context [freq_product ?n ?a ?b ?c ?d] => change (freq_product n a b c d) with (freq_product numB fr ft segs (Some q)) end.
    rewrite EX. cbn [rbind int_freq_total f_trunc f_mul InstB64.numB].
    destruct X as [FX [X0 X1]].
    assert (XT : 0 <= B2R x * B2R ft <= IZR T).
    { rewrite VF. split; [apply Rmult_le_pos; lra|]. rewrite <- (Rmult_1_l (IZR T)) at 2. apply Rmult_le_compat_r; lra. }
    destruct (@multB x ft FX FF) as [FM EM]; [apply big_384; rewrite Rabs_pos_eq by lra; change (IZR (2 ^ 44)) with 17592186044416 in TM; lra|].
    assert (M0 : 0 <= B2R (Bmult mode_NE x ft) <= IZR T).
    { rewrite EM. split; [apply rnd_ge_0; lra|apply rnd_le_int; [lia|lra]]. }
    destruct (@truncB (Bmult mode_NE x ft) FM ltac:(lra)) as (n & EN & N0 & N1). 
    match goal with |- context [rbind ?b _] => change b with (b64_trunc (Bmult mode_NE x ft)) end. rewrite EN. cbn [rbind].
    eexists. split; [reflexivity|].
    assert (NT : (n <= T)%Z) by (apply le_IZR; lra).
    pose proof (freq_range w HE) as FRW.
    split; [lia|].
    intros BIG SM. assert (U : 0 < u < 1) by (rewrite u_val; lra).
    assert (RAW : raw fr T (s :: segs) = prob (sget fr) T (s :: segs)).
    { destruct (prob_raw (s :: segs) HE) as [E|L]; [auto|lra]. }
    rewrite <- RAW in *. clear RAW.
    assert (SP : Forall (fun s => (0 < freq_get fr s 1)%Z) (s :: segs)).
    { apply (@raw_freqs_pos fr T); auto. pose proof (raw_bounds (s :: segs) HE) as [B _].
      destruct (Req_dec (raw fr T (s :: segs)) 0) as [E|]; [|lra]. rewrite E in BIG. lra. }
    inversion SP as [|? ? SP1 SP2]; subst. specialize (LB SP1).
    cbn [raw fold_right] in BIG |- *. fold (raw fr T segs) in BIG |- *. set (r := raw fr T segs) in *.
    set (f := IZR (freq_get fr s 1) / IZR T) in *.
    cbn [length] in *. rewrite S_INR in *. set (k := length segs) in *.
    pose proof (pow_1mu (2 * k)) as PM. rewrite mult_INR in PM. change (INR 2) with 2 in PM.
    set (p := (1 - u) ^ (2 * k)) in *.
    assert (K : 0 <= INR k) by apply pos_INR.
    pose proof (raw_bounds segs HE) as RB. fold r in RB.
    assert (F0 : 0 < f) by (apply Rdiv_lt_0_compat; auto; apply IZR_lt; auto).
    assert (FR0 : 0 <= f * r) by (apply Rmult_le_pos; lra).
    assert (P0 : / 2 <= p) by nra.
    assert (P1 : p <= 1). { pose proof (pow_incr (1 - u) 1 (2 * k) ltac:(lra)) as Z. rewrite pow1 in Z. exact Z. }
    assert (FR1 : / IZR (2 ^ 44) <= f * r).
    { apply Rle_trans with (/ IZR T); [apply Rinv_le_contravar; auto|].
      apply (Rmult_le_reg_r (IZR T)); auto. rewrite Rinv_l by lra. lra. }
    assert (QR : f * r * (1 - u) * p <= B2R q * r * p).
    { apply Rmult_le_compat_r; [lra|]. replace (f * r * (1 - u)) with ((1 - u) * f * r) by ring. apply Rmult_le_compat_r; lra. }
    assert (B100 : bpow radix2 (-100) <= f * r * (1 - u) * p).
    { apply Rle_trans with (bpow radix2 (-46)); [apply bpow_le; lia|].
      change (bpow radix2 (-46)) with (/ IZR (2 ^ 46)). change (IZR (2 ^ 46)) with 70368744177664.
      change (IZR (2 ^ 44)) with 17592186044416 in FR1.
      assert (/ 4 <= (1 - u) * p). { rewrite u_val. nra. }
      rewrite Rmult_assoc. nra. }
    assert (LX2 : f * r * (1 - u) * p <= B2R x).
    { eapply Rle_trans; [exact QR|]. apply LX. eapply Rle_trans; [exact B100|exact QR]. }
    assert (BM : bpow radix2 (-384) <= B2R x * B2R ft).
    { apply Rle_trans with (bpow radix2 (-100)); [apply bpow_le; lia|]. rewrite VF.
      eapply Rle_trans; [exact B100|]. eapply Rle_trans; [exact LX2|].
      rewrite <- (Rmult_1_r (B2R x)) at 1. apply Rmult_le_compat_l; lra. }
    pose proof (rnd_rel _ BM) as [RR _]. rewrite <- EM in RR. rewrite VF in RR.
    assert (FIN : f * r * (1 - u) * p * IZR T * (1 - u) <= IZR n + 1).
    { apply Rle_trans with ((1 - u) * (B2R x * IZR T)); [|lra].
      rewrite (Rmult_comm (1 - u)). apply Rmult_le_compat_r; [lra|]. apply Rmult_le_compat_r; lra. }
    apply Rle_trans with (IZR n + 1).
    - eapply Rle_trans; [|exact FIN].
      replace (f * r * (1 - u) * p * IZR T * (1 - u)) with (f * r * IZR T * ((1 - u) * p * (1 - u))) by ring.
      apply Rmult_le_compat_l; [lra|].
      assert (1 - (2 * INR k + 2) * u <= (1 - u) * p * (1 - u)) by nra. nra.
    - rewrite <- plus_IZR. apply IZR_le. lia.
  Qed.
End Score.
