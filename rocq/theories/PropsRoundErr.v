(** * C102: what rounding can do to the choice of [cut(HMM=False)] *)
From Coq Require Import Reals Lra Lia Psatz.
From Flocq Require Import Core BinarySingleNaN.
From Verif Require Import PyBase PyRegex PyNum ModelFinalseg ModelSeg ModelDict SpecBase SpecSeg SpecNum SpecScore
  SpecDict SpecHealth SpecLog SpecRoundErr InstR InstB64 InstCount InstRound InstSign
  ProofsBase ProofsRegex ProofsSplit ProofsSeg ProofsOpt ProofsNoHmm ProofsDict ProofsTotal ProofsSuggest ProofsWhole
  ProofsStable ProofsSuggestB ProofsLn ProofsPick Demo ProofsDemo ProofsHealth.
Local Open Scope R_scope.

Lemma prob_rscore fr T ws : healthy fr T -> prob (sget fr) T ws = exp (rscore (sget fr) T ws).
Proof.
  intros HE. pose proof HE as [_ [P _]]. destruct (healthy_sane HE) as [_ N].
  rewrite rscore_R, score_ln_prob by auto. symmetry. apply exp_ln. apply prob_pos; auto.
Qed.

Lemma exp_le_slack x : 0 <= x <= / 2 -> exp x <= 1 + 2 * x.
Proof.
  intros [A B].
  assert (P : 0 < 1 - x) by lra.
  assert (E : exp x * exp (- x) = 1) by (rewrite <- exp_plus, Rplus_opp_r; apply exp_0).
  assert (G : 1 - x <= exp (- x)).
  { destruct (Req_dec x 0) as [->|NZ]; [rewrite Ropp_0, exp_0; lra|]. pose proof (exp_ineq1 (- x) ltac:(lra)). lra. }
  assert (X : exp x * (1 - x) <= 1).
  { apply Rle_trans with (exp x * exp (- x)); [|lra]. apply Rmult_le_compat_l; auto. left. apply exp_pos. }
  apply (Rmult_le_reg_r (1 - x)); auto. nra.
Qed.

(** Two segmentations of a run: if the floating-point score of one is not larger, its
    probability is larger by [slack] at most. *)
Lemma chosen_near lg (LO : log_ok lg) (LC : log_close lg) fr T r ws :
  healthy fr T -> (T <= 2 ^ 44)%Z -> (length r <= 2 ^ 21)%nat ->
  candidate (sget fr) r ws ->
  prob (sget fr) T ws <= prob (sget fr) T (chosen (numB lg) fr T r) * slack (length r).
Proof.
  intros HE LT LR C1. pose proof HE as [PC [P _]].
  pose proof (chosen_candidate (numB lg) r (healthy_sane HE) PC) as CC.
  pose proof (@chosen_best (numB lg) (orderB lg LO) fr T r _ (healthy_sane HE) PC C1) as BEST.
  pose proof (partition_length (candidate_partition _ _ _ CC)) as LA. pose proof (partition_length (candidate_partition _ _ _ C1)) as LB.
  set (a := chosen (numB lg) fr T r) in *. set (K := INR (length r)).
  assert (U : 0 < u64) by (rewrite u_val; lra).
  assert (K0 : 0 <= K) by apply pos_INR.
  assert (K1 : K <= 2097152).
  { unfold K. rewrite INR_IZR_INZ. apply IZR_le. change (2 ^ 21)%nat with (2 ^ 21)%nat in LR.
    apply Nat2Z.inj_le in LR. rewrite Nat2Z.inj_pow in LR. exact LR. }
  assert (KK : K * K <= 4398046511104) by nra.
  assert (SQ : forall n, (n <= length r)%nat -> INR n * INR n * (256 * u64) <= K * K * (256 * u64)).
  { intros n L. apply le_INR in L. fold K in L. pose proof (pos_INR n).
    apply Rmult_le_compat_r; [lra|]. apply Rmult_le_compat; lra. }
  assert (KU : K * K * (256 * u64) <= 1) by (rewrite u_val; lra).
  assert (WT : forall ws, Forall (fun w => (1 <= weight_of (sget fr) w <= T)%Z) ws).
  { intros ws0. apply Forall_forall. intros x _. apply healthy_weight; auto. }
  pose proof (SQ _ LA) as A2. pose proof (SQ _ LB) as B2.
  destruct (@scoreB lg LO LC (sget fr) T _ (WT a) LT ltac:(lra)) as [S1 E1].
  destruct (@scoreB lg LO LC (sget fr) T _ (WT ws) LT ltac:(lra)) as [S2 E2].
  cbv zeta in *. cbn [o_val orderB] in BEST. rewrite !bval_finite in BEST by auto.
  apply Rabs_le_inv in E1, E2.
  set (x1 := B2R (score (numB lg) (sget fr) T a : b64)) in *.
  set (x2 := B2R (score (numB lg) (sget fr) T ws : b64)) in *.
  change (x2 <= x1) in BEST.
  rewrite !(prob_rscore fr T) by auto.
  set (y1 := rscore (sget fr) T a) in *. set (y2 := rscore (sget fr) T ws) in *.
  set (e := K * K * (512 * u64)).
  assert (D : y2 <= y1 + e) by (unfold e; lra).
  apply Rle_trans with (exp (y1 + e)).
  { destruct (Req_dec y2 (y1 + e)) as [->|NE]; [lra|]. left. apply exp_increasing. lra. }
  rewrite exp_plus. apply Rmult_le_compat_l; [left; apply exp_pos|].
  assert (E0 : 0 <= e <= / 2).
  { unfold e. rewrite u_val in *. split; [|lra]. apply Rmult_le_pos; [nra|lra]. }
  eapply Rle_trans; [apply exp_le_slack; auto|]. unfold slack, e. fold K. rewrite u_val. nra.
Qed.

(** Over binary64 numbers and a logarithm with a small error, [cut(s, HMM=False)]
    follows, run by run, a segmentation that no other one beats by more than a factor
    [1 + n^2 / 2^43] in probability, [n] the length of the run.  (Totals up to 2^44,
    runs of up to 2^21 characters; the frequencies of the shipped dictionary sum up to
    less than 2^26.) *)
Theorem C102_near_best :
  forall (lg : Z -> b64), log_ok lg -> log_close lg ->
  forall (H : hmm (numB lg)) (fr : freqs) (total : Z) (force : list str) (s : str),
    healthy fr total -> (total <= 2 ^ 44)%Z ->
    exists choice : str -> list str, exists out : str -> list str,
      cut (numB lg) H (mode_of false false) fr total force s =
        gof (flat_map (fun br : bool * str => if fst br then out (snd br) else chars_crlf (snd br))
                      (runs word_char s))
      /\ forall r, candidate (sget fr) r (choice r) /\ merged (choice r) (out r) /\
           ((length r <= 2 ^ 21)%nat ->
            forall ws', candidate (sget fr) r ws' ->
              prob (sget fr) total ws' <= prob (sget fr) total (choice r) * slack (length r)).
Proof.
  intros lg LO LC H fr total force s HE LT. pose proof HE as [PC _].
  exists (chosen (numB lg) fr total), (fun r => merge_eng [] (chosen (numB lg) fr total r)).
  split; [apply cut_nohmm_text; apply healthy_sane; auto|]. intros r.
  split; [apply chosen_candidate; auto; apply healthy_sane; auto|]. split; [apply merge_eng_merged|].
  intros LR ws' C. apply chosen_near; auto.
Qed.

(** A segmentation that is more probable than all others by more than that factor is the
    one that is used, in binary64 as in exact arithmetic. *)
Theorem C102_clear_winner :
  forall (lg : Z -> b64), log_ok lg -> log_close lg ->
  forall (H : hmm (numB lg)) (fr : freqs) (total : Z) (force : list str) (s : str) (win : str -> list str),
    healthy fr total -> (total <= 2 ^ 44)%Z ->
    (forall r, In (true, r) (runs word_char s) ->
       (length r <= 2 ^ 21)%nat /\ clear_winner (sget fr) total r (win r)) ->
    exists out : str -> list str,
      cut (numB lg) H (mode_of false false) fr total force s =
        gof (flat_map (fun br : bool * str => if fst br then out (snd br) else chars_crlf (snd br))
                      (runs word_char s))
      /\ forall r, merged (win r) (out r).
Proof.
  intros lg LO LC H fr total force s win HE LT W. pose proof HE as [PC [P _]].
  destruct (healthy_sane HE) as [_ N].
  exists (fun r => merge_eng [] (win r)). split; [|intros r; apply merge_eng_merged].
  cbn [mode_of]. rewrite cut_nohmm_text by (apply healthy_sane; auto). f_equal.
  rewrite !flat_map_concat_map. f_equal. apply map_ext_in. intros [[] r] I; [|reflexivity]. cbn [fst snd]. f_equal.
  destruct (W r I) as [LR [C B]].
  pose proof (chosen_near lg LO LC fr total r (win r) HE LT LR C) as NB.
  destruct (list_eq_dec (list_eq_dec N.eq_dec) (chosen (numB lg) fr total r) (win r)) as [E|NE]; auto. exfalso.
  specialize (B (chosen (numB lg) fr total r) (chosen_candidate (numB lg) r (healthy_sane HE) PC) NE). lra.
Qed.

(** ... so the result is the one of exact arithmetic. *)
Theorem C102_same_as_exact :
  forall (lg : Z -> b64), log_ok lg -> log_close lg ->
  forall (H : hmm (numB lg)) (H' : hmm numR) (fr : freqs) (total : Z) (force : list str) (s : str),
    healthy fr total -> (total <= 2 ^ 44)%Z ->
    (forall r, In (true, r) (runs word_char s) ->
       (length r <= 2 ^ 21)%nat /\ exists ws, clear_winner (sget fr) total r ws) ->
    cut (numB lg) H (mode_of false false) fr total force s = cut numR H' (mode_of false false) fr total force s.
Proof.
  intros lg LO LC H H' fr total force s HE LT W. pose proof HE as [PC [P _]].
  cbn [mode_of]. rewrite !cut_nohmm_text by (apply healthy_sane; auto). f_equal.
  rewrite !flat_map_concat_map. f_equal. apply map_ext_in. intros [[] r] I; [|reflexivity]. cbn [fst snd]. f_equal.
  destruct (W r I) as [LR [ws [C B]]].
  transitivity ws.
  - pose proof (chosen_near lg LO LC fr total r ws HE LT LR C) as NB.
    destruct (list_eq_dec (list_eq_dec N.eq_dec) (chosen (numB lg) fr total r) ws) as [E|NE]; auto. exfalso.
    specialize (B (chosen (numB lg) fr total r) (chosen_candidate (numB lg) r (healthy_sane HE) PC) NE). lra.
  - destruct (list_eq_dec (list_eq_dec N.eq_dec) (chosen numR fr total r) ws) as [E|NE]; auto. exfalso.
    specialize (B (chosen numR fr total r) (chosen_candidate numR r (healthy_sane HE) PC) NE).
    pose proof (@chosen_prob fr total r ws (healthy_sane HE) PC C) as L.
    destruct (healthy_sane HE) as [_ N].
    pose proof (@prob_pos (sget fr) total (chosen numR fr total r) P N) as Q.
    assert (1 <= slack (length r)).
    { unfold slack. pose proof (pos_INR (length r)). assert (0 <= INR (length r) * INR (length r)) by nra. lra. }
    nra.
Qed.

(** 北京大学生 with the demo dictionary: 北京 / 大学生 is a clear winner over
    北京大学 / 生 and 北京 / 大学 / 生 *)
Example C102_nonvacuous :
  let r := [c_bei; c_jing; c_da; c_xue; c_sheng] in
  healthy demo_fr demo_total /\ (demo_total <= 2 ^ 44)%Z /\ runs word_char r = [(true, r)] /\
  candidate (sget demo_fr) r [[c_bei; c_jing; c_da; c_xue]; [c_sheng]] /\
  clear_winner (sget demo_fr) demo_total r [[c_bei; c_jing]; [c_da; c_xue; c_sheng]].
Proof.
  cbv zeta. split; [exact demo_healthy|]. split; [vm_compute; discriminate|]. split; [vm_compute; reflexivity|].
  split; [apply candb_ok; vm_compute; reflexivity|].
  split; [apply candb_ok; vm_compute; reflexivity|]. intros ws' C NE.
  apply (@cands_all demo_fr ws' [c_bei; c_jing; c_da; c_xue; c_sheng] 5 (le_n _)) in C. vm_compute in C.
  unfold slack, prob. cbn [length INR].
  repeat (destruct C as [<-|C]; [|]); try contradiction; try (exfalso; apply NE; reflexivity).
  all: cbn [fold_right]; repeat match goal with |- context [weight_of ?d ?w] => let v := eval vm_compute in (weight_of d w) in change (weight_of d w) with v end;
    let v := eval vm_compute in demo_total in change demo_total with v; lra.
Qed.

Print Assumptions C102_near_best.
Print Assumptions C102_clear_winner.
Print Assumptions C102_same_as_exact.
