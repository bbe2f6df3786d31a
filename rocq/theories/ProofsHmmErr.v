(** * Error bounds for the Viterbi scores *)
From Coq Require Import Reals Lra Lia Psatz.
From Flocq Require Import Core BinarySingleNaN.
From Verif Require Import PyBase PyNum ModelFinalseg SpecBase SpecHmm SpecNum InstR InstB64 InstB64Ext InstRound SpecUnknown SpecMissing SpecHmmErr
  ProofsBase ProofsFinalseg ProofsVit ProofsAbsorb ProofsUnknown ProofsMissing ProofsSuggestB.
Local Open Scope R_scope.

Lemma within32_small x : within32 x -> small x.
Proof.
  intros [F B]. split; auto. eapply Rle_trans; [exact B|]. change 32 with (bpow radix2 5). apply bpow_le. lia.
Qed.

Lemma add_err (a t : b64) (r m : R) :
  is_finite a = true -> Rabs (B2R a - r) <= 32 * u64 * (m * m) -> Rabs r <= 32 * m ->
  within32 t -> 1 <= m -> 32 * u64 * ((m + 1) * (m + 1)) <= 1 ->
  is_finite (Bplus mode_NE a t) = true /\
  Rabs (B2R (Bplus mode_NE a t) - (r + B2R t)) <= 32 * u64 * ((m + 1) * (m + 1)) /\
  Rabs (r + B2R t) <= 32 * (m + 1).
Proof.
  intros FA EA RA [FT BT] M1 M2. apply Rabs_le_inv in EA, RA, BT.
  assert (U : 0 < u64) by (rewrite u_val; lra).
  assert (E1 : 32 * u64 * (m * m) <= 1).
  { eapply Rle_trans; [|exact M2]. apply Rmult_le_compat_l; [lra|]. apply Rmult_le_compat; lra. }
  assert (MB : m + 1 <= 9007199254740992 / 64).
  { rewrite u_val in M2. assert (2 * (m + 1) <= (m + 1) * (m + 1)) by nra. lra. }
  assert (B : Rabs (B2R a + B2R t) <= 32 * m + 33) by (apply Rabs_le; lra).
  destruct (plusB a t FA FT) as [F E]; [apply big_384; lra|].
  split; auto. rewrite E.
  pose proof (rnd_err (B2R a + B2R t)) as RE.
  assert (RE2 : Rabs (rnd (B2R a + B2R t) - (B2R a + B2R t)) <= u64 * (32 * m + 34)).
  { eapply Rle_trans; [exact RE|]. apply Rmult_le_compat_l; lra. }
  apply Rabs_le_inv in RE2. split; apply Rabs_le; [|lra].
  assert (S1 : u64 * (32 * m + 34) + 32 * u64 * (m * m) <= 32 * u64 * ((m + 1) * (m + 1))).
  { assert (Q : 32 * m + 34 + 32 * (m * m) <= 32 * ((m + 1) * (m + 1))) by nra.
    apply (Rmult_le_compat_l u64) in Q; lra. }
  lra.
Qed.

Section Err.
  Variable lg : Z -> b64.
  Variable H : hmm (numB lg).
  Hypothesis MT : moderate_tables H.
  Notation X := (exact_tables H).

  Lemma moderate_sound : sound_tables H.
  Proof.
    constructor.
    - intros y. destruct (@mt_start lg H MT y) as [S|S]; [left; apply within32_small; auto|auto].
    - intros a y F. destruct (@mt_trans lg H MT a y F) as [x E]. exists x. split; auto.
      apply within32_small. apply (@mt_trans_32 lg H MT a y x E).
    - intros y c x E. apply within32_small. apply (@mt_emit lg H MT y c x E).
  Qed.

  Lemma moderate_finite LO : hmm_finite (orderB lg LO) H.
  Proof.
    split; [|split].
    - intros y. destruct (@mt_start lg H MT y) as [[S _]|S]; [exact S|]. rewrite S. vm_compute. reflexivity.
    - intros a y x E. apply (@mt_trans_32 lg H MT a y x E).
    - intros y c x E. apply (@mt_emit lg H MT y c x E).
  Qed.

  Lemma sf_err cs : forall ls y0 (acc : b64) (r m : R),
    length ls = length cs -> chain (y0 :: ls) -> lacking H cs ls = 0%nat ->
    is_finite acc = true -> Rabs (B2R acc - r) <= 32 * u64 * (m * m) -> Rabs r <= 32 * m -> 1 <= m ->
    32 * u64 * ((m + 2 * INR (length cs)) * (m + 2 * INR (length cs))) <= 1 ->
    let x := score_from H (acc : F (numB lg)) y0 cs ls : b64 in
    is_finite x = true /\
    Rabs (B2R x - score_from X (r : F numR) y0 cs ls) <= 32 * u64 * ((m + 2 * INR (length cs)) * (m + 2 * INR (length cs))) /\
    Rabs (score_from X (r : F numR) y0 cs ls) <= 32 * (m + 2 * INR (length cs)).
  Proof.
    assert (U : 0 < u64) by (rewrite u_val; lra).
    induction cs as [|c cs IH]; intros ls y0 acc r m L C K FA EA RA M1 M2 x; destruct ls as [|y ls]; try discriminate.
    - unfold x. cbn [score_from]. simpl INR in *. replace (m + 2 * 0) with m in * by ring. auto.
    - unfold x. clear x. cbn [score_from]. cbn [length] in *. injection L as L. rewrite S_INR in *.
      destruct C as [FO C]. cbn [lacking] in K.
      pose proof (pos_INR (length cs)) as P. set (k := INR (length cs)) in *.
      destruct (@mt_trans lg H MT y0 y FO) as [t ET].
      assert (EM : exists e : b64, h_emit H y c = Some e).
      { unfold lacks in K. destruct (h_emit H y c) as [e|]; [eauto|discriminate]. }
      destruct EM as [e EE].
      assert (XT : h_trans X y0 y = Some (B2R t)) by (cbn; rewrite ET; reflexivity).
      assert (XE : h_emit X y c = Some (B2R e)) by (cbn; rewrite EE; reflexivity).
      rewrite ET, EE, XT, XE. cbn [entry f_add numB numR].
      assert (B1 : 32 * u64 * ((m + 1) * (m + 1)) <= 1) by (eapply Rle_trans; [|exact M2]; apply Rmult_le_compat_l; [lra|]; apply Rmult_le_compat; lra).
      destruct (add_err acc t r m FA EA RA (@mt_trans_32 lg H MT y0 y t ET) M1 B1) as (F1 & E1 & R1).
      assert (B2 : 32 * u64 * ((m + 1 + 1) * (m + 1 + 1)) <= 1) by (eapply Rle_trans; [|exact M2]; apply Rmult_le_compat_l; [lra|]; apply Rmult_le_compat; lra).
      destruct (add_err (Bplus mode_NE acc t) e (r + B2R t) (m + 1) F1 E1 R1 (@mt_emit lg H MT y c e EE) ltac:(lra) B2) as (F2 & E2 & R2).
      replace (m + 2 * (k + 1)) with (m + 1 + 1 + 2 * k) in * by ring.
      apply (IH ls y); auto; [lia|lra].
  Qed.

  Lemma score_err s ls : s <> [] -> length ls = length s -> chain ls -> missing H (no_start H) s ls = 0%nat ->
    (length s <= 2 ^ 22)%nat ->
    let x := label_score H s ls : b64 in
    is_finite x = true /\ Rabs (B2R x - exact_score H s ls) <= cost (length s) / 2 /\
    - (64 * INR (length s)) <= exact_score H s ls.
  Proof.
    intros NE L C K LS x. destruct s as [|c s]; [congruence|]. destruct ls as [|y ls]; [discriminate|].
    unfold missing in K. cbn [lacking] in K. cbn [length] in L. injection L as L.
    assert (N1 : INR (length (c :: s)) <= 4194304).
    { apply le_INR in LS. rewrite pow_INR in LS. simpl in LS. simpl. lra. }
    cbn [length] in *. rewrite S_INR in *. pose proof (pos_INR (length s)) as P.
    assert (EM : exists e : b64, h_emit H y c = Some e).
    { unfold lacks in K. destruct (h_emit H y c) as [e|]; [eauto|lia]. }
    destruct EM as [e EE].
    assert (ES : within32 (h_start H y)).
    { destruct (@mt_start lg H MT y) as [S|S]; auto. exfalso. unfold no_start in K. rewrite S in K.
      assert (T : Beqb b64_min_float b64_min_float = true) by (vm_compute; reflexivity). rewrite T in K. lia. }
    unfold x, exact_score. clear x. cbn [label_score].
    assert (XE : h_emit X y c = Some (B2R e)) by (cbn; rewrite EE; reflexivity).
    rewrite EE, XE. cbn [entry f_add numB numR].
    change (h_start X y) with (B2R (h_start H y : b64)).
    assert (U : 0 < u64) by (rewrite u_val; lra).
    destruct (add_err (h_start H y) e (B2R (h_start H y : b64)) 1) as (F1 & E1 & R1).
    - apply ES.
    - rewrite Rminus_diag_eq, Rabs_R0 by reflexivity. nra.
    - destruct ES as [_ ES]. lra.
    - apply (@mt_emit lg H MT y c e EE).
    - lra.
    - rewrite u_val. lra.
    - assert (BB : 32 * u64 * ((1 + 1 + 2 * INR (length s)) * (1 + 1 + 2 * INR (length s))) <= 1).
      { rewrite u_val. set (k := INR (length s)) in *. assert ((1 + 1 + 2 * k) * (1 + 1 + 2 * k) <= 8388608 * 8388608) by (apply Rmult_le_compat; lra). lra. }
      destruct (sf_err s ls y _ _ (1 + 1) L C ltac:(lia) F1 E1 R1 ltac:(lra) BB) as (A & B & D).
      split; [exact A|]. split.
      + eapply Rle_trans; [exact B|]. unfold cost. rewrite S_INR. rewrite u_val. set (k := INR (length s)). nra.
      + apply Rabs_le_inv in D. lra.
  Qed.

  (** labels that need a missing entry are worse by far *)
  Lemma sf_upper cs : forall ls y0 (r : R), length ls = length cs -> chain (y0 :: ls) ->
    score_from X (r : F numR) y0 cs ls <= r + 64 * INR (length cs) - INR (lacking H cs ls) * bpow radix2 300.
  Proof.
    pose proof (bpow_gt_0 radix2 300) as BP.
    induction cs as [|c cs IH]; intros ls y0 r L C; destruct ls as [|y ls]; try discriminate.
    - cbn [score_from lacking length]. simpl INR. lra.
    - cbn [score_from lacking length]. cbn [length] in L. injection L as L. destruct C as [FO C].
      destruct (@mt_trans lg H MT y0 y FO) as [t ET]. pose proof (@mt_trans_32 lg H MT y0 y t ET) as [_ BT].
      assert (XT : h_trans X y0 y = Some (B2R t)) by (cbn; rewrite ET; reflexivity).
      rewrite XT. cbn [entry f_add numR]. eapply Rle_trans; [apply IH; auto|].
      rewrite S_INR, plus_INR. apply Rabs_le_inv in BT.
      assert (EB : entry numR (h_emit X y c) <= 32 - INR (lacks H y c) * bpow radix2 300).
      { unfold lacks. cbn [exact_tables h_emit]. destruct (h_emit H y c) as [e|] eqn:EE; cbn [entry].
        - pose proof (@mt_emit lg H MT y c e EE) as [_ BE]. apply Rabs_le_inv in BE. simpl INR. lra.
        - cbn [f_min_float numR]. change (bpow radix2 300) with (IZR (2 ^ 300)). simpl INR. rewrite Rmult_1_l, <- minus_IZR.
          apply IZR_le. vm_compute. discriminate. }
      lra.
  Qed.

  Lemma score_upper s ls : s <> [] -> length ls = length s -> chain ls ->
    exact_score H s ls <= 64 * INR (length s) - INR (missing H (no_start H) s ls) * bpow radix2 300.
  Proof.
    pose proof (bpow_gt_0 radix2 300) as BP.
    intros NE L C. destruct s as [|c s]; [congruence|]. destruct ls as [|y ls]; [discriminate|].
    unfold exact_score. cbn [label_score]. cbn [length] in L. injection L as L.
    cbn [f_add numR]. eapply Rle_trans; [apply sf_upper; auto|].
    unfold missing. cbn [lacking length]. rewrite S_INR, !plus_INR.
    assert (EB : entry numR (h_emit X y c) <= 32 - INR (lacks H y c) * bpow radix2 300).
    { unfold lacks. cbn [exact_tables h_emit]. destruct (h_emit H y c) as [e|] eqn:EE; cbn [entry].
      - pose proof (@mt_emit lg H MT y c e EE) as [_ BE]. apply Rabs_le_inv in BE. simpl INR. lra.
      - cbn [f_min_float numR]. change (bpow radix2 300) with (IZR (2 ^ 300)). simpl INR. rewrite Rmult_1_l, <- minus_IZR.
        apply IZR_le. vm_compute. discriminate. }
    assert (SB : h_start X y <= 32 - INR (if no_start H y then 1 else 0) * bpow radix2 300).
    { cbn [exact_tables h_start]. pose proof min_float_low as ML.
      assert (B3 : bpow radix2 300 <= bpow radix2 333) by (apply bpow_le; lia).
      destruct (@mt_start lg H MT y) as [[SF SS]|SS].
      - apply Rabs_le_inv in SS. destruct (no_start H y) eqn:NS; [|simpl INR; lra].
        exfalso. unfold no_start in NS. rewrite Beqb_correct in NS by (auto; vm_compute; reflexivity).
        assert (Q : bpow radix2 6 <= bpow radix2 333) by (apply bpow_le; lia). change (bpow radix2 6) with 64 in Q.
        revert NS. destruct (Req_bool_spec (B2R (h_start H y : b64)) (B2R b64_min_float)); [lra|discriminate].
      - unfold no_start. rewrite SS. assert (T : Beqb b64_min_float b64_min_float = true) by (vm_compute; reflexivity).
        rewrite T. simpl INR. change 32 with (IZR 32). lra. }
    lra.
  Qed.

  Lemma viterbi_near (LO : log_ok lg) a obs : (length (a :: obs) <= 2 ^ 22)%nat ->
    (exists l, labelling (a :: obs) l /\ missing H (no_start H) (a :: obs) l = 0%nat) ->
    let s := a :: obs in let l := snd (viterbi H a obs) in
    labelling s l /\ missing H (no_start H) s l = 0%nat /\
    forall o, labelling s o -> exact_score H s o <= exact_score H s l + cost (length s).
  Proof.
    intros LN (l0 & LA0 & M0) s l.
    assert (LB : blim (2 * length (a :: obs))).
    { unfold blim. apply Nat2Z.inj_le in LN. rewrite Nat2Z.inj_pow in LN. change (Z.of_nat 2 ^ Z.of_nat 22)%Z with (2 ^ 22)%Z in LN. lia. }
    destruct (viterbi_missing lg H moderate_sound a obs LB) as (LA & FEW & _). fold s l in LA, FEW.
    assert (ML : missing H (no_start H) s l = 0%nat) by (pose proof (FEW l0 LA0) as Q; fold s in M0; lia).
    split; auto. split; auto. intros o (LO1 & LO2 & LO3).
    assert (NE : s <> []) by discriminate.
    destruct LA as (L1 & L2 & L3).
    destruct (score_err s l NE L1 L2 ML LN) as (F1 & E1 & LOW).
    assert (CP : 0 <= cost (length s)).
    { unfold cost. pose proof (pos_INR (length s)). assert (0 <= INR (length s) * INR (length s)) by nra. lra. }
    destruct (Nat.eq_dec (missing H (no_start H) s o) 0) as [MO|MO].
    - destruct (score_err s o NE LO1 LO2 MO LN) as (F2 & E2 & _).
      destruct (viterbi_best (moderate_finite LO) a obs) as [V1 V2]. specialize (V2 o LO1 LO2 LO3).
      rewrite V1 in V2. cbn [o_val orderB] in V2. fold s l in V2.
      rewrite !bval_finite in V2 by auto. apply Rabs_le_inv in E1, E2. lra.
    - pose proof (score_upper s o NE LO1 LO2) as UP.
      assert (N1 : INR (length s) <= 4194304).
      { apply le_INR in LN. rewrite pow_INR in LN. simpl in LN. fold s in LN. unfold s in *. simpl in *. lra. }
      assert (K1 : 1 <= INR (missing H (no_start H) s o)) by (change 1 with (INR 1); apply le_INR; lia).
      assert (B3 : bpow radix2 30 <= bpow radix2 300) by (apply bpow_le; lia).
      change (bpow radix2 30) with 1073741824 in B3. pose proof (bpow_gt_0 radix2 300). nra.
  Qed.
End Err.
