(** * C20, C52 and C56 in binary64 *)
From Coq Require Import Reals Lra Lia Psatz.
From Flocq Require Import Core BinarySingleNaN.
From Verif Require Import PyBase PyRegex PyNum ModelFinalseg ModelSeg ModelDict ModelApi SpecBase SpecSeg SpecNum SpecScore
  SpecDict SpecHealth SpecApi SpecLog InstR InstB64 InstCount InstRound InstSign
  ProofsBase ProofsRegex ProofsSeg ProofsOpt ProofsNoHmm ProofsDict ProofsTotal ProofsWords ProofsSuggest ProofsWhole
  ProofsStable ProofsSuggestB ProofsLn PropsSuggest PropsSuggestB Demo ProofsDemo ProofsHealth.
Local Open Scope R_scope.

(** ** C56 in binary64

    As [C56_raising_keeps_whole], with [length w ^ 2 * (total + f') <= 2^41]. *)
Theorem C56_binary64 :
  forall (lg : Z -> b64), log_ok lg -> log_close lg ->
  forall (H : hmm (numB lg)) (d : dstate) (w : str) (f f' : Z) (tag : option str) (d' : dstate),
    healthy (d_freq d) (d_total d) ->
    (exists c, In c w /\ han_char c = true) -> Forall (fun c => word_char c = true) w ->
    cut (numB lg) H (mode_of false false) (d_freq d) (d_total d) (d_force d) w = gof [w] ->
    sget (d_freq d) w = Some f -> (0 < f <= f')%Z ->
    (Z.of_nat (length w) ^ 2 * (d_total d + f') <= 2 ^ 41)%Z ->
    add_word (numB lg) H d w (Some f') tag = Ok d' ->
    forall HMM, cut (numB lg) H (mode_of false HMM) (d_freq d') (d_total d') (d_force d') w = gof [w].
Proof.
  intros lg LO LC H d w f f' tag d' HE [c [HC HH]] FW EC EF [L1 L2] SZ ED HMM.
  unfold add_word in ED. cbn [rbind] in ED. inversion ED. clear ED. subst d'. cbn [d_freq d_total d_force add_word_freq].
  assert (NE : w <> []) by (destruct w; [contradiction|discriminate]).
  set (fr := d_freq d) in *. set (T := d_total d) in *. pose proof HE as [PC [P _]].
  assert (LW : (1 <= Z.of_nat (length w))%Z) by (destruct w; [congruence|simpl; lia]).
  assert (T41 : (T + f' <= 2 ^ 41)%Z) by nia.
  assert (CH : chosen (numB lg) fr T w = [w]).
  { rewrite cut_nohmm_text in EC by (apply healthy_sane; auto). rewrite (@runs_whole word_char w true NE FW) in EC.
    cbn [flat_map fst snd] in EC. rewrite app_nil_r in EC.
    assert (EM : merge_eng [] (chosen (numB lg) fr T w) = [w]) by (apply (f_equal fst) in EC; exact EC).
    destruct (@merged_origin _ _ w (merge_eng_merged (chosen (numB lg) fr T w))) as [a [b [[_ E]|[g [_ [FG [EG _]]]]]]].
    - rewrite EM. left. reflexivity.
    - pose proof (chosen_candidate (numB lg) w (healthy_sane HE) PC) as C3. apply candidate_partition in C3.
      destruct C3 as [C3 C4]. rewrite E in *. rewrite concat_app in C3. simpl in C3.
      apply (f_equal (@length _)) in C3. rewrite !app_length in C3.
      apply Forall_app in C4. destruct C4 as [C4 C5]. inversion C5; subst.
      assert (a = []) as ->. { destruct a as [|x a]; auto. inversion C4; subst. simpl in C3. rewrite app_length in C3. destruct x; [congruence|simpl in C3; lia]. }
      assert (b = []) as ->. { destruct b as [|x b]; auto. inversion H3; subst. simpl in C3. rewrite app_length in C3. destruct x; [congruence|simpl in C3; lia]. }
      reflexivity.
    - exfalso. apply concat_singles_alnum in FG. rewrite <- EG, Forall_forall in FG. specialize (FG c HC).
      unfold han_char, is_alnum, is_digit09, is_lower, is_upper, in_range in *.
      apply andb_true_iff in HH. destruct HH as [HH _]. apply N.leb_le in HH.
      rewrite !orb_true_iff, !andb_true_iff, !N.leb_le in FG. lia. }
  set (fr' := add_prefixes (sset fr w f') w).
  assert (HE' : healthy fr' (T + f')) by (apply healthy_add; auto; lia). pose proof HE' as [PC' [P' _]].
  apply whole_cut; [apply healthy_sane; auto|auto|auto|].
  apply (@whole_chosen (numB lg) (orderB lg LO)); auto using healthy_sane; [apply is_word_after_self; lia|].
  intros ws C LL. pose proof (candidate_partition _ _ _ C) as PA.
  assert (NI : ~ In w ws) by (destruct ws as [|x [|y ws]]; [simpl in LL; lia|simpl in LL; lia|apply (partition_no_whole PA)]).
  assert (C0 : candidate (sget fr) w ws) by (eapply (@candidate_before fr w f'); eauto; lia).
  pose proof (@chosen_best (numB lg) (orderB lg LO) fr T w ws (healthy_sane HE) PC C0) as BEST. rewrite CH in BEST.
  apply partition_length in PA.
  set (K := INR (length w)).
  assert (PT : 0 < IZR T) by (apply IZR_lt; auto).
  assert (PT' : 0 < IZR (T + f')) by (apply IZR_lt; auto).
  assert (KT : K * K * IZR (T + f') <= 2199023255552).
  { unfold K. rewrite INR_IZR_INZ, <- !mult_IZR. apply IZR_le. rewrite <- Z.pow_2_r. exact SZ. }
  assert (K1 : 1 <= K) by (unfold K; rewrite INR_IZR_INZ; apply IZR_le; exact LW).
  assert (T1 : 1 <= IZR (T + f')) by (apply IZR_le; lia).
  assert (KK : K * K <= 2199023255552) by nra.
  assert (U : 0 < u64) by (rewrite u_val; lra).
  assert (A1 : 0 <= INR (length ws) <= K) by (split; [apply pos_INR|apply le_INR; exact PA]).
  assert (A2 : INR (length ws) * INR (length ws) * (256 * u64) <= K * K * (256 * u64)).
  { apply Rmult_le_compat_r; [lra|]. apply Rmult_le_compat; lra. }
  assert (KU : K * K * (256 * u64) <= 1) by (rewrite u_val; lra).
  assert (WT : forall fr T ws, healthy fr T -> Forall (fun w => (1 <= weight_of (sget fr) w <= T)%Z) ws).
  { intros fr0 T0 ws0 HE0. apply Forall_forall. intros x _. apply healthy_weight; auto. }
  assert (ONE : INR (length [w]) * INR (length [w]) * (256 * u64) <= 1) by (simpl; rewrite u_val; lra).
  destruct (@scoreB lg LO LC (sget fr) T ws (WT _ _ _ HE) ltac:(lia) ltac:(lra)) as [S1 E1].
  destruct (@scoreB lg LO LC (sget fr) T [w] (WT _ _ _ HE) ltac:(lia) ONE) as [S2 E2].
  destruct (@scoreB lg LO LC (sget fr') (T + f') ws (WT _ _ _ HE') ltac:(lia) ltac:(lra)) as [S3 E3].
  destruct (@scoreB lg LO LC (sget fr') (T + f') [w] (WT _ _ _ HE') ltac:(lia) ONE) as [S4 E4].
  cbv zeta in *. cbn [o_val orderB] in BEST |- *.
  rewrite !bval_finite in BEST by auto. rewrite !bval_finite by auto.
  apply Rabs_le_inv in E1, E2, E3, E4.
  set (x1 := B2R (score (numB lg) (sget fr) T ws : b64)) in *.
  set (x2 := B2R (score (numB lg) (sget fr) T [w] : b64)) in *.
  set (x3 := B2R (score (numB lg) (sget fr') (T + f') ws : b64)) in *.
  set (x4 := B2R (score (numB lg) (sget fr') (T + f') [w] : b64)) in *.
  assert (R3 : rscore (sget fr') (T + f') ws = rscore (sget fr) T ws + INR (length ws) * (ln (IZR T) - ln (IZR (T + f')))).
  { clear -NI. unfold fr'. induction ws as [|x ws IH]; [simpl; ring|]. cbn [rscore fold_right length]. rewrite S_INR.
    fold (rscore (sget (add_prefixes (sset fr w f') w)) (T + f') ws) (rscore (sget fr) T ws).
    rewrite IH by (intros ?; apply NI; right; auto). rewrite weight_after by (intros ->; apply NI; left; auto). ring. }
  assert (EW : weight_of (sget fr') w = f').
  { unfold weight_of, fr'. rewrite add_get. unfold after_add. rewrite str_eqb_refl. destruct (Z.eqb_spec f' 0); lia. }
  assert (EW0 : weight_of (sget fr) w = f).
  { unfold weight_of. rewrite EF. destruct (Z.eqb_spec f 0); lia. }
  assert (R4 : rscore (sget fr') (T + f') [w] = ln (IZR f') - ln (IZR (T + f'))).
  { cbn [rscore fold_right]. rewrite EW. ring. }
  assert (R2 : rscore (sget fr) T [w] = ln (IZR f) - ln (IZR T)).
  { cbn [rscore fold_right]. rewrite EW0. ring. }
  assert (LF : ln (IZR f) <= ln (IZR f')) by (apply ln_le; [apply IZR_lt; lia|apply IZR_le; lia]).
  assert (TT : IZR T <= IZR (T + f')) by (apply IZR_le; lia).
  pose proof (@ln_diff _ _ PT TT) as DL.
  assert (MG : / IZR (T + f') <= ln (IZR (T + f')) - ln (IZR T)).
  { eapply Rle_trans; [|exact DL].
    unfold Rdiv. rewrite <- (Rmult_1_l (/ IZR (T + f'))) at 1. apply Rmult_le_compat_r; [left; apply Rinv_0_lt_compat; auto|].
    rewrite plus_IZR. assert (1 <= IZR f') by (apply IZR_le; lia). lra. }
  assert (MU : 1100 * (K * K) * u64 <= / IZR (T + f')).
  { apply (Rmult_le_reg_r (IZR (T + f'))); [lra|]. rewrite Rinv_l by lra.
    replace (1100 * (K * K) * u64 * IZR (T + f')) with (1100 * u64 * (K * K * IZR (T + f'))) by ring.
    rewrite u_val. lra. }
  assert (LEN : 2 <= INR (length ws)) by (apply (le_INR 2) in LL; simpl in LL; lra).
  set (g := ln (IZR (T + f')) - ln (IZR T)) in *.
  assert (G0 : 0 < g). { eapply Rlt_le_trans; [|exact MG]. apply Rinv_0_lt_compat. lra. }
  assert (LG : 2 * g <= INR (length ws) * g) by (apply Rmult_le_compat_r; lra).
  assert (KU1 : u64 <= K * K * u64) by (rewrite <- (Rmult_1_l u64) at 1; apply Rmult_le_compat_r; [lra|nra]).
  simpl INR in E2, E4.
  replace (INR (length ws) * (ln (IZR T) - ln (IZR (T + f')))) with (- (INR (length ws) * g)) in R3 by (unfold g; ring).
  rewrite R3 in E3. rewrite R4 in E4. rewrite R2 in E2.
  assert (EG : ln (IZR (T + f')) = ln (IZR T) + g) by (unfold g; ring). rewrite EG in E4.
  clearbody g. change (x3 <= x4). lra.
Qed.
Print Assumptions C56_binary64.

Example C56_binary64_nonvacuous :
  let w := [c_lai; c_dao] in
  healthy (d_freq demo) (d_total demo) /\ sget (d_freq demo) w = Some 15%Z /\
  (Z.of_nat (length w) ^ 2 * (d_total demo + 20) <= 2 ^ 41)%Z.
Proof. split; [exact demo_healthy|]. split; [vm_compute; reflexivity|vm_compute; discriminate]. Qed.

(** ** C20 in binary64 *)

(** A word [w] that is chosen in a text, and [segs] that spell it, all in the
    dictionary: the product of the probabilities of [segs] does not exceed that of
    [w] by more than the rounding errors. *)
Lemma chosen_not_worse lg (LO : log_ok lg) (LC : log_close lg) fr T r a w b segs :
  healthy fr T -> (T <= 2 ^ 44)%Z -> (Z.of_nat (length r) ^ 2 <= 2 ^ 42)%Z ->
  chosen (numB lg) fr T r = a ++ w :: b ->
  partition w segs -> Forall (is_word (sget fr)) segs ->
  rscore (sget fr) T segs - rscore (sget fr) T [w] <= INR (length r) * INR (length r) * (512 * u64).
Proof.
  intros HE LT LR EC PA FW. pose proof HE as [PC [P _]].
  pose proof (chosen_candidate (numB lg) r (healthy_sane HE) PC) as CC. rewrite EC in CC.
  assert (C1 : candidate (sget fr) r (a ++ segs ++ b)).
  { clear -CC PA FW. revert r CC. induction a as [|x a IH]; intros r CC; cbn [app] in CC |- *.
    - cbn [candidate] in CC. destruct CC as [s' [-> [_ [_ CB]]]]. destruct PA as [<- PA].
      apply candidate_words_app; auto.
    - cbn [candidate] in CC |- *. destruct CC as [s' [-> [NX [WX CB]]]]. exists s'. auto. }
  pose proof (@chosen_best (numB lg) (orderB lg LO) fr T r _ (healthy_sane HE) PC C1) as BEST.
  rewrite EC in BEST.
  pose proof (partition_length (candidate_partition _ _ _ CC)) as LA. pose proof (partition_length (candidate_partition _ _ _ C1)) as LB.
  set (K := INR (length r)).
  assert (U : 0 < u64) by (rewrite u_val; lra).
  assert (KK : K * K <= 4398046511104).
  { unfold K. rewrite INR_IZR_INZ, <- mult_IZR, <- Z.pow_2_r. apply IZR_le. exact LR. }
  assert (SQ : forall n, (n <= length r)%nat -> INR n * INR n * (256 * u64) <= K * K * (256 * u64)).
  { intros n L. apply le_INR in L. fold K in L. pose proof (pos_INR n).
    apply Rmult_le_compat_r; [lra|]. apply Rmult_le_compat; lra. }
  assert (KU : K * K * (256 * u64) <= 1) by (rewrite u_val; lra).
  assert (WT : forall ws, Forall (fun w => (1 <= weight_of (sget fr) w <= T)%Z) ws).
  { intros ws0. apply Forall_forall. intros x _. apply healthy_weight; auto. }
  pose proof (SQ _ LA) as A2. pose proof (SQ _ LB) as B2.
  destruct (@scoreB lg LO LC (sget fr) T _ (WT (a ++ w :: b)) LT ltac:(lra)) as [S1 E1].
  destruct (@scoreB lg LO LC (sget fr) T _ (WT (a ++ segs ++ b)) LT ltac:(lra)) as [S2 E2].
  cbv zeta in *. cbn [o_val orderB] in BEST. rewrite !bval_finite in BEST by auto.
  apply Rabs_le_inv in E1, E2.
  set (x1 := B2R (score (numB lg) (sget fr) T (a ++ w :: b) : b64)) in *.
  set (x2 := B2R (score (numB lg) (sget fr) T (a ++ segs ++ b) : b64)) in *.
  assert (APP : forall u v, rscore (sget fr) T (u ++ v) = rscore (sget fr) T u + rscore (sget fr) T v).
  { induction u as [|x u IH]; intros v; [simpl; ring|]. cbn [app rscore fold_right].
    fold (rscore (sget fr) T (u ++ v)) (rscore (sget fr) T u). rewrite IH. ring. }
  set (n1 := INR (length (a ++ w :: b))) in *. set (n2 := INR (length (a ++ segs ++ b))) in *.
  assert (R1 : rscore (sget fr) T (a ++ w :: b) = rscore (sget fr) T a + (rscore (sget fr) T [w] + rscore (sget fr) T b)).
  { rewrite <- !APP. reflexivity. }
  rewrite R1 in E1. rewrite !APP in E2. change (x2 <= x1) in BEST. lra.
Qed.

Lemma rscore_weights fr T ws : healthy fr T ->
  rscore (sget fr) T ws = ln (IZR (weights (sget fr) ws)) - INR (length ws) * ln (IZR T) /\ (0 < weights (sget fr) ws)%Z.
Proof.
  intros HE. induction ws as [|w ws [IH P]].
  - simpl. rewrite ln_1. split; [ring|lia].
  - cbn [rscore fold_right weights length]. fold (rscore (sget fr) T ws) (weights (sget fr) ws).
    pose proof (healthy_weight w HE) as [W _]. rewrite IH, mult_IZR, ln_mult, S_INR by (apply IZR_lt; lia). split; [ring|lia].
Qed.

(** As [C20_splits_under_bound] for a text of length [n], with a bound that leaves
    room for the rounding errors: [f * (total + f)^(m-1)] is below the product of the
    frequencies by a factor [1 + n^2 / 2^42]. *)
Theorem C20_binary64 :
  forall (lg : Z -> b64), log_ok lg -> log_close lg ->
  forall (H : hmm (numB lg)) (d : dstate) (segs : list str) (f : Z) (d' : dstate) (s : str),
    healthy (d_freq d) (d_total d) ->
    (2 <= length segs)%nat -> Forall (fun w => w <> []) segs -> Forall (is_word (sget (d_freq d))) segs ->
    (exists c, In c (concat segs) /\ han_char c = true) ->
    suggest_freq (numB lg) H d (Parts segs) true = Ok (f, d') ->
    (d_total d + f <= 2 ^ 44)%Z -> (Z.of_nat (length s) ^ 2 <= 2 ^ 42)%Z ->
    (f * (d_total d + f) ^ Z.of_nat (length segs - 1) * (2 ^ 42 + Z.of_nat (length s) ^ 2)
       <= 2 ^ 42 * weights (sget (d_freq d)) segs)%Z ->
    ~ In (concat segs) (fst (cut (numB lg) H (mode_of false false) (d_freq d') (d_total d') (d_force d') s)).
Proof.
  intros lg LO LC H d segs f d' s HE LEN NE FW [c [HC HH]] ES TB SB BND HI.
  unfold suggest_freq in ES.
  destruct (suggest_freq_value (numB lg) H (d_freq d) (d_total d) (d_force d) (Parts segs)) as [n|] eqn:EV; cbn [rbind] in ES; [|discriminate].
  unfold add_word in ES. cbn [rbind] in ES.
  injection ES as EF ED. subst n. change (segment_word (Parts segs)) with (concat segs) in *.
  set (w := concat segs : str) in *.
  assert (PT : partition w segs) by (split; auto).
  assert (NI : ~ In w segs).
  { destruct segs as [|x [|y xs]]; [simpl in LEN; lia|simpl in LEN; lia|]. apply partition_no_whole; auto. }
  assert (NW : w <> []) by (destruct w; [contradiction|discriminate]).
  assert (F0 : (0 <= f)%Z).
  { eapply (@suggest_nonneg (numB lg) (signB lg) H (d_freq d) (d_total d) (d_force d) (Parts segs)); [apply HE|exact EV]. }
  assert (LW : length w <> 1%nat).
  { intros L1. destruct segs as [|x [|y xs]]; [simpl in LEN; lia|simpl in LEN; lia|].
    inversion NE as [|? ? N1 NE2]; inversion NE2 as [|? ? N2 _]; subst. unfold w in L1. simpl in L1.
    rewrite !app_length in L1. destruct x; [congruence|]. destruct y; [congruence|]. simpl in L1. lia. }
  assert (DF : d_freq d' = add_prefixes (sset (d_freq d) w f) w) by (subst d'; reflexivity).
  assert (DT : d_total d' = (d_total d + f)%Z) by (subst d'; reflexivity).
  destruct (Z.eq_dec f 0) as [Z0|NZ].
  - apply cut_nohmm_kind in HI. destruct HI as [[k [E1 E2]]|[L|NH]]; auto.
    + rewrite DF, add_get in E1. unfold after_add in E1. rewrite str_eqb_refl in E1. congruence.
    + unfold no_han in NH. rewrite Forall_forall in NH. rewrite (NH c HC) in HH. discriminate.
  - assert (HE' : healthy (d_freq d') (d_total d')) by (rewrite DF, DT; apply healthy_add; auto).
    assert (W : is_word (sget (d_freq d')) w) by (rewrite DF; apply is_word_after_self; auto).
    assert (FW' : Forall (is_word (sget (d_freq d'))) segs).
    { rewrite DF. rewrite Forall_forall in *. intros x HX. apply is_word_after; auto. intros ->. auto. }
    rewrite cut_nohmm_text in HI by (apply healthy_sane; auto). simpl in HI. rewrite in_flat_map in HI.
    destruct HI as [[b r] [HR HI]]. simpl in HI. destruct b.
    2:{ apply ProofsWords.runs_class in HR. destruct HR as [_ FR].
        pose proof (chars_crlf_words r) as CW. rewrite Forall_forall in CW. destruct (CW w HI) as [|E]; auto.
        rewrite E in HC. simpl in HC. destruct HC as [<-|[<-|[]]]; discriminate. }
    assert (LR : (length r <= length s)%nat).
    { apply in_split in HR. destruct HR as (l1 & l2 & EL). rewrite <- (runs_concat word_char s) at 1. rewrite EL, map_app, concat_app.
      cbn [map concat snd]. rewrite !app_length. lia. }
    destruct (@merged_origin _ _ w (merge_eng_merged (chosen (numB lg) (d_freq d') (d_total d') r)) HI)
      as [a [b [[_ EC]|[g [_ [FG [EG _]]]]]]].
    2:{ apply concat_singles_alnum in FG. rewrite <- EG, Forall_forall in FG. specialize (FG c HC).
        unfold han_char, is_alnum, is_digit09, is_lower, is_upper, in_range in *.
        apply andb_true_iff in HH. destruct HH as [HH _]. apply N.leb_le in HH.
        rewrite !orb_true_iff, !andb_true_iff, !N.leb_le in FG. lia. }
    assert (LR2 : (Z.of_nat (length r) ^ 2 <= Z.of_nat (length s) ^ 2)%Z) by (apply Z.pow_le_mono_l; lia).
    pose proof (@chosen_not_worse lg LO LC (d_freq d') (d_total d') r a w b segs HE' ltac:(lia) ltac:(lia) EC PT FW') as CM.
    destruct (rscore_weights (d_freq d') (d_total d') segs HE') as [RS WS].
    destruct (rscore_weights (d_freq d') (d_total d') (@cons str w (@nil str)) HE') as [RW _]. rewrite RS, RW in CM.
    assert (EW : weights (sget (d_freq d')) (@cons str w (@nil str)) = f).
    { rewrite DF. simpl. unfold weight_of. rewrite add_get. unfold after_add. rewrite str_eqb_refl.
      destruct (Z.eqb_spec f 0); lia. }
    assert (EWS : weights (sget (d_freq d')) segs = weights (sget (d_freq d)) segs) by (rewrite DF; apply weights_after; auto).
    rewrite EW, EWS, DT in CM. rewrite EWS in WS. clear EW EWS RS RW.
    set (T' := (d_total d + f)%Z) in *. set (WW := weights (sget (d_freq d)) segs) in *.
    set (m := (length segs - 1)%nat) in *. assert (EL : length segs = S m) by (unfold m; lia).
    rewrite EL in CM. rewrite S_INR in CM. cbn [length INR] in CM.
    assert (P' : (0 < T')%Z) by (rewrite <- DT; apply HE').
    assert (Q : 0 < IZR T') by (apply IZR_lt; auto).
    assert (QM : 0 < IZR T' ^ m) by (apply pow_lt; auto).
    assert (QF : 0 < IZR f) by (apply IZR_lt; lia).
    assert (QW : 0 < IZR WW) by (apply IZR_lt; auto).
    apply IZR_le in BND. rewrite !mult_IZR, plus_IZR, <- pow_IZR in BND.
    set (S2 := IZR (Z.of_nat (length s) ^ 2)) in *.
    assert (ES2 : S2 = INR (length s) * INR (length s)).
    { unfold S2. rewrite Z.pow_2_r, mult_IZR, <- INR_IZR_INZ. reflexivity. }
    assert (S21 : 1 <= S2).
    { unfold S2. apply IZR_le. assert ((1 <= length s)%nat); [|nia].
      apply Nat.le_trans with (length r); [|exact LR]. apply ProofsWords.runs_class in HR. destruct HR as [NR _].
      destruct r; [congruence|simpl; lia]. }
    assert (S2M : S2 <= 4398046511104) by (unfold S2; apply IZR_le; exact SB).
    change (IZR (2 ^ 42)) with 4398046511104 in BND.
    assert (LNW : ln (IZR f) + INR m * ln (IZR T') + ln ((4398046511104 + S2) / 4398046511104) <= ln (IZR WW)).
    { assert (QE : 0 < (4398046511104 + S2) / 4398046511104) by (apply Rdiv_lt_0_compat; lra).
      assert (QFM : 0 < IZR f * IZR T' ^ m) by (apply Rmult_lt_0_compat; auto).
      rewrite <- (ln_pow _ Q m). rewrite <- (ln_mult _ _ QF QM), <- (ln_mult _ _ QFM QE).
      apply ln_le; [apply Rmult_lt_0_compat; auto|]. unfold Rdiv. lra. }
    assert (GAIN : S2 / 8796093022208 <= ln ((4398046511104 + S2) / 4398046511104)).
    { pose proof (@ln_diff 1 ((4398046511104 + S2) / 4398046511104) ltac:(lra) ltac:(lra)) as DL. rewrite ln_1, Rminus_0_r in DL.
      eapply Rle_trans; [|exact DL]. 
      replace (((4398046511104 + S2) / 4398046511104 - 1) / ((4398046511104 + S2) / 4398046511104)) with (S2 / (4398046511104 + S2)) by (field; lra).
      unfold Rdiv. apply Rmult_le_compat_l; [lra|]. apply Rinv_le_contravar; lra. }
    assert (RK : INR (length r) * INR (length r) * (512 * u64) <= S2 * (512 * u64)).
    { rewrite ES2. apply le_INR in LR. pose proof (pos_INR (length r)). rewrite u_val. apply Rmult_le_compat_r; [lra|]. apply Rmult_le_compat; lra. }
    rewrite u_val in RK, CM. lra.
Qed.
Print Assumptions C20_binary64.

(** 北 and 京 with frequency 40, 北京 with 30, a total of 1000: the suggested
    frequency is 1, and the bound is met for every text of up to 2^20 characters. *)
Definition bj40 : dstate :=
  build [([c_bei], 40%Z); ([c_jing], 40%Z); ([c_bei; c_jing], 30%Z); ([c_da; c_xue], 890%Z)].
Example C20_binary64_nonvacuous : forall lg (H : hmm (numB lg)),
  let segs := [[c_bei]; [c_jing]] in
  healthy (d_freq bj40) (d_total bj40) /\ Forall (is_word (sget (d_freq bj40))) segs /\
  is_word (sget (d_freq bj40)) (concat segs) /\
  exists d', suggest_freq (numB lg) H bj40 (Parts segs) true = Ok (1%Z, d') /\
    (1 * (d_total bj40 + 1) ^ Z.of_nat (length segs - 1) * (2 ^ 42 + (2 ^ 20) ^ 2)
       <= 2 ^ 42 * weights (sget (d_freq bj40)) segs)%Z.
Proof.
  intros lg H segs. split; [apply healthyb_ok; vm_compute; reflexivity|].
  split; [repeat constructor; exists 40%Z; split; try discriminate; vm_compute; reflexivity|].
  split; [exists 30%Z; split; [vm_compute; reflexivity|discriminate]|].
  eexists. split; [vm_compute; reflexivity|]. vm_compute. discriminate.
Qed.

(** ** C52 fails in binary64

    The values that [math.log] gives for 1, 3, 9, 10 and 30 (the binary64 numbers
    nearest to the logarithms). *)
Definition lit64 (m e : Z) : b64 := binary_normalize 53 1024 _ _ mode_NE m e false.
Definition lg30 (n : Z) : b64 :=
  match n with
  | 1%Z => B754_zero false
  | 3%Z => lit64 0x1193ea7aad030b (-52)      (* 1.0986122886681098 *)
  | 9%Z => lit64 0x1193ea7aad030b (-51)      (* 2.1972245773362196 *)
  | 10%Z => lit64 0x126bb1bbb55516 (-51)     (* 2.302585092994046 *)
  | 30%Z => lit64 0x1b35a6f90bd69b (-51)     (* 3.4011973816621555 *)
  | _ => lg_cut n
  end.

Lemma lit64_val m e : (0 <= m < 2 ^ 53)%Z -> (-100 <= e <= 0)%Z ->
  is_finite (lit64 m e) = true /\ B2R (lit64 m e) = IZR m * bpow radix2 e.
Proof.
  intros M E. unfold lit64. pose proof (binary_normalize_correct 53 1024 prec53 emax1024 mode_NE m e false) as Q. cbv zeta in Q.
  rewrite round_generic in Q; [|apply valid_rnd_N|].
  2:{ apply (generic_format_FLT radix2 (-1074) 53). exists {| Fnum := m; Fexp := e |}; [reflexivity| |cbn [Fexp]; lia].
      cbn [Fnum]. rewrite Z.abs_eq by lia. change (Z.pow radix2 53) with (2 ^ 53)%Z. lia. }
  rewrite Rlt_bool_true in Q; [tauto|]. unfold F2R. cbn [Fnum Fexp].
  destruct M as [M1 M2]. apply IZR_le in M1. apply IZR_lt in M2. pose proof (bpow_gt_0 radix2 e) as B0.
  assert (B1 : bpow radix2 e <= 1) by (change 1 with (bpow radix2 0); apply bpow_le; lia).
  rewrite Rabs_pos_eq by (apply Rmult_le_pos; lra).
  apply Rle_lt_trans with (IZR m * 1); [apply Rmult_le_compat_l; lra|]. rewrite Rmult_1_r.
  eapply Rlt_trans; [exact M2|]. change (IZR (2 ^ 53)) with (bpow radix2 53). apply bpow_lt. lia.
Qed.

(** a literal is within 2^-50 of the logarithm, checked in fixed-point arithmetic *)
Lemma lit64_close (n : positive) m k :
  (0 <= m < 2 ^ 53)%Z -> (0 <= k <= 69)%Z ->
  ln_check n (m * 2 ^ (69 - k) - 2 ^ 19) (m * 2 ^ (69 - k) + 2 ^ 19) 7 = true ->
  is_finite (lit64 m (- k)) = true /\ Rabs (B2R (lit64 m (- k)) - ln (IZR (Z.pos n))) <= bpow radix2 (-50) /\
  0 <= B2R (lit64 m (- k)) <= bpow radix2 53.
Proof.
  intros M K C. apply ln_check_ok in C. destruct (lit64_val m (- k) M ltac:(lia)) as [F V].
  split; [exact F|]. rewrite V.
  rewrite minus_IZR, plus_IZR, mult_IZR in C.
  assert (E2 : IZR (2 ^ (69 - k)) = bpow radix2 69 * bpow radix2 (- k)).
  { rewrite <- bpow_plus, <- IZR_Zpower by lia. reflexivity. }
  rewrite E2 in C. unfold one in C. change (IZR (2 ^ 19)) with 524288 in C. change (IZR (2 ^ 72)) with 4722366482869645213696 in C.
  change (bpow radix2 69) with 590295810358705651712 in C. change (bpow radix2 (-50)) with (/ 1125899906842624).
  pose proof (bpow_gt_0 radix2 (- k)) as P.
  assert (B1 : bpow radix2 (- k) <= 1) by (change 1 with (bpow radix2 0); apply bpow_le; lia).
  set (b := bpow radix2 (- k)) in *.
  split; [apply Rabs_le; lra|].
  destruct M as [M1 M2]. apply IZR_le in M1. apply IZR_lt in M2. change (IZR (2 ^ 53)) with (bpow radix2 53) in M2.
  split; [apply Rmult_le_pos; lra|]. apply Rle_trans with (IZR m * 1); [apply Rmult_le_compat_l; lra|lra].
Qed.

Lemma lg30_cases (P : Z -> b64 -> Prop) :
  P 1%Z (B754_zero false) ->
  P 3%Z (lit64 0x1193ea7aad030b (-52)) ->
  P 9%Z (lit64 0x1193ea7aad030b (-51)) -> P 10%Z (lit64 0x126bb1bbb55516 (-51)) ->
  P 30%Z (lit64 0x1b35a6f90bd69b (-51)) ->
  (forall n, P n (lg_cut n)) -> forall n, P n (lg30 n).
Proof.
  intros P1 P3 P9 P10 P30 PO n. unfold lg30. destruct n as [|p|p]; auto.
  do 5 (try (destruct p as [p|p|]; auto)).
Qed.

Lemma lg30_accurate : log_ok lg30 /\ log_close lg30.
Proof.
  destruct (@lit64_close 3 0x1193ea7aad030b 52 ltac:(lia) ltac:(lia) ltac:(vm_compute; reflexivity)) as (F3 & C3 & B3).
  destruct (@lit64_close 9 0x1193ea7aad030b 51 ltac:(lia) ltac:(lia) ltac:(vm_compute; reflexivity)) as (F9 & C9 & B9).
  destruct (@lit64_close 10 0x126bb1bbb55516 51 ltac:(lia) ltac:(lia) ltac:(vm_compute; reflexivity)) as (F10 & C10 & B10).
  destruct (@lit64_close 30 0x1b35a6f90bd69b 51 ltac:(lia) ltac:(lia) ltac:(vm_compute; reflexivity)) as (F30 & C30 & B30).
  assert (B50 : forall x, Rabs x <= bpow radix2 (-50) -> Rabs x <= bpow radix2 (-48)).
  { intros x X. eapply Rle_trans; [exact X|]. apply bpow_le. lia. }
  destruct (lg_cut_ok) as [LO LC].
  assert (BB : forall x : b64, 0 <= B2R x <= bpow radix2 53 -> Rabs (B2R x) <= bpow radix2 1000).
  { intros x [B1 B2]. rewrite Rabs_pos_eq by auto. eapply Rle_trans; [exact B2|]. apply bpow_le. lia. }
  split.
  - intros n. apply (lg30_cases (fun n x => (0 < n)%Z -> is_finite x = true /\ Rabs (B2R x) <= bpow radix2 1000)); auto.
    intros _. split; auto. cbn [B2R]. rewrite Rabs_R0. apply bpow_ge_0.
  - intros n. apply (lg30_cases (fun n x => (0 < n <= 2 ^ 44)%Z -> Rabs (B2R x - ln (IZR n)) <= bpow radix2 (-48))); auto.
    intros _. cbn [B2R]. rewrite ln_1, Rminus_0_r, Rabs_R0. apply bpow_ge_0.
Qed.

(** 北 9, 京 10, 北京 3, 来 1 and 大学 7: the total is 30, and 9/30 * 10/30 = 3/30 is
    an exact tie.  The scores of 北/京 and 北京 differ by rounding, and the difference
    is lost again when the score of 来 is added. *)
Definition tie30 : dstate :=
  build [([c_bei], 9%Z); ([c_jing], 10%Z); ([c_bei; c_jing], 3%Z); ([c_lai], 1%Z); ([c_da; c_xue], 7%Z)].

Theorem C52_binary64_refuted :
  exists lg, log_ok lg /\ log_close lg /\
  forall (H : hmm (numB lg)),
    let cutB s := cut (numB lg) H (mode_of false false) (d_freq tie30) (d_total tie30) (d_force tie30) s in
    healthy (d_freq tie30) (d_total tie30) /\ is_word (sget (d_freq tie30)) [c_bei; c_jing] /\
    cutB [c_bei; c_jing; c_lai] = gof [[c_bei; c_jing]; [c_lai]] /\
    cutB [c_bei; c_jing] = gof [[c_bei]; [c_jing]].
Proof.
  exists lg30. split; [apply lg30_accurate|]. split; [apply lg30_accurate|].
  intros H cutB. split; [apply healthyb_ok; vm_compute; reflexivity|].
  split; [exists 3%Z; split; [vm_compute; reflexivity|discriminate]|].
  split; vm_compute; reflexivity.
Qed.
Print Assumptions C52_binary64_refuted.
