(** * C19 in binary64: an added word comes out whole *)
From Coq Require Import Reals Lra Lia Psatz.
From Flocq Require Import Core BinarySingleNaN.
From Verif Require Import PyBase PyRegex PyNum ModelFinalseg ModelSeg ModelDict SpecBase SpecSeg SpecNum SpecScore
  SpecDict SpecHealth SpecLog InstR InstB64 InstCount InstRound
  ProofsBase ProofsSeg ProofsOpt ProofsNoHmm ProofsDict ProofsTotal ProofsSuggest ProofsWhole ProofsSuggestB
  PropsSuggest Demo ProofsDemo ProofsHealth.
Local Open Scope R_scope.

(** ** C19 in the arithmetic of the program

    With binary64 numbers and a logarithm accurate to 2^-48, [add_word(w)] without a
    frequency makes [cut(w)] give [[w]], as long as [length w ^ 2 * total <= 2^41].
    (The total of the supplied dictionary is below 2^26: words of up to 181
    characters.) *)
Theorem C19_binary64 :
  forall (lg : Z -> b64), log_ok lg -> log_close lg ->
  forall (H : hmm (numB lg)) (d : dstate) (w : str) (tag : option str),
    healthy (d_freq d) (d_total d) -> w <> [] ->
    Forall (fun c => word_char c = true /\ is_alnum c = false) w ->
    (Z.of_nat (length w) ^ 2 * d_total d <= 2 ^ 41)%Z ->
    exists d', add_word (numB lg) H d w None tag = Ok d' /\
      forall HMM, cut (numB lg) H (mode_of false HMM) (d_freq d') (d_total d') (d_force d') w = gof [w].
Proof.
  intros lg LO LC H d w tag HE NE FW SZ. set (fr := d_freq d) in *. set (T := d_total d) in *.
  pose proof HE as [PC [P _]].
  assert (LW : (1 <= Z.of_nat (length w))%Z) by (destruct w; [congruence|simpl; lia]).
  assert (T41 : (T <= 2 ^ 41)%Z) by nia.
  destruct (@suggestB lg H fr T (d_force d) w HE ltac:(lia) NE FW) as (f & ES & [F1 F2] & FB).
  exists (add_word_freq d w f tag). split; [unfold add_word; fold fr T; rewrite ES; reflexivity|].
  intros HMM. cbn [add_word_freq d_freq d_total d_force]. fold fr T.
  set (fr' := add_prefixes (sset fr w f) w).
  assert (HE' : healthy fr' (T + f)) by (apply healthy_add; auto; lia). pose proof HE' as [PC' [P' _]].
  apply whole_cut; [apply healthy_sane; auto|auto|eapply Forall_impl; [|exact FW]; intros ? [? ?]; auto|].
  apply (@whole_chosen (numB lg) (orderB lg LO)); auto using healthy_sane; [apply is_word_after_self; lia|].
  intros ws C L2. pose proof (candidate_partition _ _ _ C) as PA.
  assert (NI : ~ In w ws) by (destruct ws as [|x [|y ws]]; [simpl in L2; lia|simpl in L2; lia|apply (partition_no_whole PA)]).
  assert (C0 : candidate (sget fr) w ws) by (eapply (@candidate_before fr w f); eauto; lia).
  pose proof (@chosen_best (numB lg) (orderB lg LO) fr T w ws (healthy_sane HE) PC C0) as BEST.
  pose proof (chosen_candidate (numB lg) w (healthy_sane HE) PC) as CC.
  set (cs := chosen (numB lg) fr T w) in *. pose proof (candidate_partition _ _ _ CC) as PCC.
  apply partition_length in PA, PCC.
  (* all numbers are in range *)
  set (K := INR (length w)).
  assert (PT : 0 < IZR T) by (apply IZR_lt; auto).
  assert (KT : K * K * IZR T <= 2199023255552).
  { unfold K. rewrite INR_IZR_INZ, <- !mult_IZR. apply IZR_le. rewrite <- Z.pow_2_r. exact SZ. }
  assert (K1 : 1 <= K) by (unfold K; rewrite INR_IZR_INZ; apply IZR_le; exact LW).
  assert (T1 : 1 <= IZR T) by (apply IZR_le; lia).
  assert (KK : K * K <= 2199023255552) by nra.
  assert (U : 0 < u64) by (rewrite u_val; lra).
  assert (SQ : forall n, (n <= length w)%nat -> 0 <= INR n <= K /\ INR n * INR n * (256 * u64) <= K * K * (256 * u64)).
  { intros n L. apply le_INR in L. fold K in L. pose proof (pos_INR n).
    split; [lra|]. apply Rmult_le_compat_r; [lra|]. apply Rmult_le_compat; lra. }
  assert (KU : K * K * (256 * u64) <= 1) by (rewrite u_val; lra).
  assert (WT : forall fr T ws, healthy fr T -> Forall (fun w => (1 <= weight_of (sget fr) w <= T)%Z) ws).
  { intros fr0 T0 ws0 HE0. apply Forall_forall. intros x _. apply healthy_weight; auto. }
  destruct (SQ _ PA) as [A1 A2]. destruct (SQ _ PCC) as [B1 B2].
  destruct (@scoreB lg LO LC (sget fr) T ws (WT _ _ _ HE) ltac:(lia) ltac:(lra)) as [S1 E1].
  destruct (@scoreB lg LO LC (sget fr) T cs (WT _ _ _ HE) ltac:(lia) ltac:(lra)) as [S2 E2].
  destruct (@scoreB lg LO LC (sget fr') (T + f) ws (WT _ _ _ HE') ltac:(lia) ltac:(lra)) as [S3 E3].
  destruct (@scoreB lg LO LC (sget fr') (T + f) [w] (WT _ _ _ HE') ltac:(lia)) as [S4 E4].
  { simpl. rewrite u_val. lra. }
  cbv zeta in *. cbn [o_val orderB] in BEST |- *.
  rewrite !bval_finite in BEST by auto. rewrite !bval_finite by auto.
  apply Rabs_le_inv in E1, E2, E3, E4.
  set (x1 := B2R (score (numB lg) (sget fr) T ws : b64)) in *.
  set (x2 := B2R (score (numB lg) (sget fr) T cs : b64)) in *.
  set (x3 := B2R (score (numB lg) (sget fr') (T + f) ws : b64)) in *.
  set (x4 := B2R (score (numB lg) (sget fr') (T + f) [w] : b64)) in *.
  (* the exact scores *)
  assert (R3 : rscore (sget fr') (T + f) ws = rscore (sget fr) T ws + INR (length ws) * (ln (IZR T) - ln (IZR (T + f)))).
  { clear -NI. unfold fr'. induction ws as [|x ws IH]; [simpl; ring|]. cbn [rscore fold_right length]. rewrite S_INR.
    fold (rscore (sget (add_prefixes (sset fr w f) w)) (T + f) ws) (rscore (sget fr) T ws).
    rewrite IH by (intros ?; apply NI; right; auto). rewrite weight_after by (intros ->; apply NI; left; auto). ring. }
  assert (EW : weight_of (sget fr') w = f).
  { unfold weight_of, fr'. rewrite add_get. unfold after_add. rewrite str_eqb_refl. destruct (Z.eqb_spec f 0); lia. }
  assert (R4 : rscore (sget fr') (T + f) [w] = ln (IZR f) - ln (IZR (T + f))).
  { cbn [rscore fold_right]. rewrite EW. ring. }
  assert (NN : forall w n, sget fr w = Some n -> (0 <= n)%Z) by (intros ? ? E; exact (proj1 (healthy_get _ HE E))).
  assert (R2 : rscore (sget fr) T cs = ln (prob (sget fr) T cs)) by (rewrite rscore_R; apply score_ln_prob; auto).
  assert (PP : 0 < prob (sget fr) T cs) by (apply prob_pos; auto).
  (* the suggested frequency is large enough *)
  assert (FF : 1 <= IZR f) by (apply IZR_le; auto).
  assert (SG : ln (prob (sget fr) T cs) + ln (IZR T) - 6 * (K * K) * u64 <= ln (IZR f)).
  { rewrite <- ln_mult by auto. set (q := prob (sget fr) T cs * IZR T) in *.
    assert (Q : 0 < q) by (apply Rmult_lt_0_compat; auto).
    assert (KK0 : 0 <= 6 * (K * K) * u64) by (apply Rmult_le_pos; [nra|lra]).
    destruct (Rle_lt_dec q 1) as [LQ|LQ].
    - assert (ln q <= ln 1) by (apply ln_le; lra). rewrite ln_1 in *.
      assert (0 <= ln (IZR f)) by (rewrite <- ln_1; apply ln_le; lra). lra.
    - assert (Y : (2 * INR (length cs) + 1) * u64 <= 3 * (K * K) * u64) by (apply Rmult_le_compat_r; [lra|]; nra).
      assert (Y2 : (2 * INR (length cs) + 1) * u64 <= / 2) by (eapply Rle_trans; [exact Y|]; rewrite u_val; lra).
      assert (Y0 : 0 <= (2 * INR (length cs) + 1) * u64) by (apply Rmult_le_pos; lra).
      specialize (FB LQ Y2). fold cs in FB, Y, Y2, Y0. set (y := (2 * INR (length cs) + 1) * u64) in *.
      pose proof (@ln_ge_1m y ltac:(lra)) as LY.
      assert (LF : ln (q * (1 - y)) <= ln (IZR f)) by (apply ln_le; [apply Rmult_lt_0_compat; lra|exact FB]).
      rewrite ln_mult in LF by lra. lra. }
  (* and the larger total tells against two words *)
  assert (PT' : 0 < IZR (T + f)) by (apply IZR_lt; auto).
  assert (TT : IZR T <= IZR (T + f)) by (apply IZR_le; lia).
  pose proof (@ln_diff _ _ PT TT) as DL.
  assert (T3 : IZR (T + f) <= 3 * IZR T) by (rewrite <- mult_IZR; apply IZR_le; lia).
  assert (MG : / (3 * IZR T) <= ln (IZR (T + f)) - ln (IZR T)).
  { eapply Rle_trans; [|exact DL]. apply Rle_trans with (/ IZR (T + f)); [apply Rinv_le_contravar; lra|].
    unfold Rdiv. rewrite <- (Rmult_1_l (/ IZR (T + f))) at 1. apply Rmult_le_compat_r; [left; apply Rinv_0_lt_compat; auto|].
    rewrite plus_IZR. lra. }
  assert (MU : 1100 * (K * K) * u64 <= / (3 * IZR T)).
  { apply (Rmult_le_reg_r (3 * IZR T)); [lra|]. rewrite Rinv_l by lra.
    replace (1100 * (K * K) * u64 * (3 * IZR T)) with (3300 * u64 * (K * K * IZR T)) by ring.
    rewrite u_val. lra. }
  assert (LEN : 2 <= INR (length ws)) by (apply (le_INR 2) in L2; simpl in L2; lra).
  set (g := ln (IZR (T + f)) - ln (IZR T)) in *.
  assert (G0 : 0 < g). { eapply Rlt_le_trans; [|exact MG]. apply Rinv_0_lt_compat. lra. }
  assert (LG : 2 * g <= INR (length ws) * g) by (apply Rmult_le_compat_r; lra).
  assert (KU1 : u64 <= K * K * u64) by (rewrite <- (Rmult_1_l u64) at 1; apply Rmult_le_compat_r; [lra|nra]).
  simpl INR in E4.
  replace (INR (length ws) * (ln (IZR T) - ln (IZR (T + f)))) with (- (INR (length ws) * g)) in R3 by (unfold g; ring).
  rewrite R3 in E3. rewrite R4 in E4. rewrite R2 in E2.
  assert (EG : ln (IZR (T + f)) = ln (IZR T) + g) by (unfold g; ring). rewrite EG in E4.
  clearbody g. change (x3 <= x4). lra.
Qed.
Print Assumptions C19_binary64.

(** A logarithm that meets both hypotheses: truncated to 48 binary places. *)
Definition lg_cut (n : Z) : b64 :=
  if (n <=? 2 ^ 44)%Z then binary_normalize 53 1024 _ _ mode_NE (Ztrunc (ln (IZR n) * IZR (2 ^ 48))) (-48) false
  else B754_zero false.

Lemma ln_2_lt : ln 2 < 8 / 11.
Proof.
  assert (E : exp (8 / 11) = exp (1 / 11) ^ 8).
  { cbn [pow]. rewrite Rmult_1_r, <- !exp_plus. f_equal. field. }
  pose proof (exp_ineq1 (1 / 11) ltac:(lra)) as L.
  assert (P : (12 / 11) ^ 8 <= exp (1 / 11) ^ 8) by (apply pow_incr; lra).
  rewrite <- (ln_exp (8 / 11)). apply ln_increasing; [lra|]. rewrite E. simpl in P |- *. lra.
Qed.

Lemma lg_cut_val n : (0 < n <= 2 ^ 44)%Z ->
  is_finite (lg_cut n) = true /\ 0 <= B2R (lg_cut n) <= 32 /\ Rabs (B2R (lg_cut n) - ln (IZR n)) <= bpow radix2 (-48).
Proof.
  intros B. unfold lg_cut. destruct (Z.leb_spec n (2 ^ 44)) as [_|]; [|lia].
  assert (R : 0 <= ln (IZR n) < 32).
  { destruct B as [B1 B2]. apply Zlt_le_succ in B1. apply IZR_le in B1, B2. simpl in B1. split.
    - rewrite <- ln_1. apply ln_le; lra.
    - apply Rle_lt_trans with (ln (IZR (2 ^ 44))); [apply ln_le; lra|].
      replace (IZR (2 ^ 44)) with (2 ^ 44)%R by (rewrite pow_IZR; reflexivity).
      rewrite ln_pow by lra. rewrite INR_IZR_INZ. change (IZR (Z.of_nat 44)) with 44. pose proof ln_2_lt. lra. }
  set (l := ln (IZR n)) in *. set (c := IZR (2 ^ 48)).
  assert (C : c = 281474976710656) by reflexivity.
  assert (L0 : 0 <= l * c) by (rewrite C; nra).
  set (z := Ztrunc (l * c)). assert (EZ : z = Zfloor (l * c)) by (apply Ztrunc_floor; auto).
  pose proof (Zfloor_lb (l * c)) as Z1. pose proof (Zfloor_ub (l * c)) as Z2. rewrite <- EZ in Z1, Z2.
  assert (Z0 : (0 <= z)%Z) by (rewrite EZ; apply Zfloor_lub; auto).
  assert (ZM : (z < 2 ^ 53)%Z).
  { apply lt_IZR. change (IZR (2 ^ 53)) with 9007199254740992. rewrite C in *. nra. }
  pose proof (binary_normalize_correct 53 1024 prec53 emax1024 mode_NE z (-48) false) as Q. cbv zeta in Q.
  assert (E : @F2R radix2 {| Fnum := z; Fexp := -48 |} = IZR z * / c) by reflexivity.
  rewrite round_generic in Q; [|apply valid_rnd_N|].
  2:{ apply (generic_format_FLT radix2 (-1074) 53). exists {| Fnum := z; Fexp := -48 |}; [reflexivity| |simpl; lia].
      cbn [Fnum]. rewrite Z.abs_eq by auto. exact ZM. }
  rewrite E in Q. pose proof (IZR_le _ _ Z0) as Z3. 
  assert (V : 0 <= IZR z * / c <= 32) by (rewrite C in *; lra).
  rewrite Rlt_bool_true in Q.
  2:{ rewrite Rabs_pos_eq by lra. apply Rle_lt_trans with 32; [lra|]. change 32 with (bpow radix2 5). apply bpow_lt. lia. }
  destruct Q as (Q1 & Q2 & _). split; [exact Q2|]. rewrite Q1. split; [exact V|].
  change (bpow radix2 (-48)) with (/ c). rewrite C in *. apply Rabs_le. lra.
Qed.

Lemma lg_cut_ok : log_ok lg_cut /\ log_close lg_cut.
Proof.
  split.
  - intros n P. destruct (Z.leb_spec n (2 ^ 44)) as [L|L].
    + destruct (lg_cut_val n ltac:(lia)) as (A & B & _). split; auto. rewrite Rabs_pos_eq by lra.
      apply Rle_trans with 32; [lra|]. change 32 with (bpow radix2 5). apply bpow_le. lia.
    + unfold lg_cut. destruct (Z.leb_spec n (2 ^ 44)); [lia|]. split; auto. cbn [B2R]. rewrite Rabs_R0. apply bpow_ge_0.
  - intros n P. apply lg_cut_val. auto.
Qed.

Example log_close_exists : exists lg, log_ok lg /\ log_close lg.
Proof. exists lg_cut. apply lg_cut_ok. Qed.

Example C19_binary64_nonvacuous :
  let w := [c_jing; c_da; c_bei] in
  healthy (d_freq demo) (d_total demo) /\ w <> [] /\
  Forall (fun c => word_char c = true /\ is_alnum c = false) w /\
  (Z.of_nat (length w) ^ 2 * d_total demo <= 2 ^ 41)%Z.
Proof.
  split; [exact demo_healthy|]. split; [discriminate|]. split; [apply C19_han_only; repeat constructor|].
  vm_compute. discriminate.
Qed.
