(** * What rounding can do to the keywords *)
From Coq Require Import Reals Lra Permutation.
From Flocq Require Import Core BinarySingleNaN.
From Verif Require Import PyBase PyNum SpecNum SpecBase SpecSeg SpecDict ProofsBase ProofsDemo
  ModelFinalseg ModelSeg ModelDict ModelApi ModelPosseg ModelAnalyse SpecAnalyse SpecTextrank
  InstR InstB64 InstB64Ext InstCount InstRound B64Lit
  PropsRepeat ProofsRank ProofsTfidf ProofsKeywords PropsCut PropsAnalyse PropsTextrank Demo DemoPos.
Local Open Scope R_scope.

(** ** Rankings with a clear winner *)
Lemma before_or {A} (l : list A) a b : In a l -> In b l -> a <> b -> before l a b \/ before l b a.
Proof.
  induction l as [|x l IH]; [intros []|]. intros [->|I] [->|J] N; rewrite !before_cons; try congruence; auto.
  destruct (IH I J N); auto.
Qed.

Lemma clear_before {A} (val : A -> R) (l all r : list A) (k : option Z) (a b : A) :
  NoDup l -> best_first val l all -> top_part k all r -> In a l -> In b r -> val b < val a -> before r a b.
Proof.
  intros ND [P BF] (rest & E & _) IA IB V.
  assert (NDA : NoDup all) by (eapply Permutation_NoDup; eauto).
  assert (AA : In a all) by (eapply Permutation_in; eauto).
  assert (BA : In b all) by (rewrite E; apply in_or_app; auto).
  destruct (before_or all a b AA BA) as [B|B].
  - intros ->. lra.
  - rewrite E in B. apply before_app in B.
    assert (NB : ~ In b rest).
    { intros IR. rewrite E in NDA. apply in_split in IB. destruct IB as (u & v & ->).
      rewrite <- app_assoc in NDA. cbn [app] in NDA. apply NoDup_remove_2 in NDA. apply NDA.
      rewrite !in_app_iff. auto. }
    destruct B as [B|[B|[_ B]]]; auto; [apply before_In in B; tauto|tauto].
  - destruct (BF _ _ B) as [X|[X _]]; lra.
Qed.

(** ** TF-IDF *)

(** the weight without rounding: occurrences * idf / all occurrences *)
Definition exact_weight {lg} (x : tfidf (numB lg)) (occ : list term) (j : term) : R :=
  INR (times j occ) * B2R (idf_of x (term_word j) : b64) / INR (length occ).

(** the IDF values are numbers of a reasonable size *)
Definition idf_range {lg} (x : tfidf (numB lg)) : Prop :=
  forall w, bpow radix2 (-300) <= B2R (idf_of x w : b64) <= bpow radix2 300.

Lemma nonzero_finite (y : b64) : 0 < B2R y -> is_finite y = true.
Proof. destruct y; cbn; auto; intros; lra. Qed.

Lemma idf_range_ok lg LO (x : tfidf (numB lg)) : idf_range x -> idf_ok (countB lg LO) x.
Proof.
  intros R w. destruct (R w) as [A _]. cbn [c_idf countB]. apply finite_not_nan. apply nonzero_finite.
  pose proof (bpow_gt_0 radix2 (-300)). lra.
Qed.

Lemma times_le j occ : (times j occ <= length occ)%nat.
Proof. apply count_occ_bound. Qed.

Lemma counted_length lower stop allow wf ts occ : counted lower stop allow wf ts occ -> (length occ <= length ts)%nat.
Proof. induction 1; cbn; lia. Qed.

Lemma u64_eq : u64 = / 2 ^ 53.
Proof. unfold u64. cbn. lra. Qed.
Lemma u64_small : 0 < u64 <= / 1000.
Proof. rewrite u64_eq. lra. Qed.

Section Weight.
  Variable lg : Z -> b64.
  Variable LO : log_ok lg.
  Notation Q := (roundB lg LO).
  Local Notation val := (o_val (orderB lg LO)).

  Lemma weight_near (x : tfidf (numB lg)) (occ : list term) (j : term) :
    idf_range x -> (Z.of_nat (length occ) <= 2 ^ 48)%Z -> In j occ ->
    is_finite (tfidf_weight x occ j : b64) = true /\ 0 < exact_weight x occ j /\
    (1 - u64) * ((1 - u64) * exact_weight x occ j) <= val (tfidf_weight x occ j)
       <= (1 + u64) * ((1 + u64) * exact_weight x occ j).
  Proof.
    intros R L J. unfold tfidf_weight, exact_weight.
    set (n := times j occ). set (N := length occ). set (v := idf_of x (term_word j)).
    assert (n1 : (1 <= n)%nat) by (apply (count_occ_In term_eq_dec) in J; unfold n, times; lia).
    pose proof (times_le j occ) as nN. fold n N in nN.
    destruct (R (term_word j)) as [V1 V2]. fold v in V1, V2.
    pose proof (bpow_gt_0 radix2 (-300)) as B0.
    assert (FV : is_finite (v : b64) = true) by (apply nonzero_finite; lra).
    assert (G48 : r_G Q = IZR (2 ^ 48)) by reflexivity.
    assert (NG : IZR (Z.of_nat N) <= r_G Q) by (rewrite G48; apply IZR_le; auto).
    assert (nG : IZR (Z.of_nat n) <= r_G Q) by (rewrite G48; apply IZR_le; unfold N in *; lia).
    destruct (r_lit _ _ Q (Z.of_nat n) ltac:(lia) nG) as [Fn Vn].
    destruct (r_lit _ _ Q (Z.of_nat N) ltac:(lia) NG) as [FN VN].
    assert (VV : val v = B2R (v : b64)) by (cbn [o_val orderB]; apply bval_finite; auto).
    rewrite <- INR_IZR_INZ in Vn, VN, nG, NG.
    assert (P1 : 1 <= INR n) by (change 1 with (INR 1); apply le_INR; auto).
    assert (P2 : INR n <= INR N) by (apply le_INR; auto).
    assert (G8 : r_G Q ^ 8 = bpow radix2 384) by (change (r_G Q) with GB64; apply GB64_pow).
    assert (GB : r_G Q = bpow radix2 48) by reflexivity.
    set (a := B2R (v : b64)) in *.
    assert (iN : / bpow radix2 48 <= / INR N <= 1).
    { split; [apply Rinv_le_contravar; [lra|rewrite <- GB; auto]|].
      rewrite <- Rinv_1. apply Rinv_le_contravar; lra. }
    assert (E1 : bpow radix2 (-348) = bpow radix2 (-300) * / bpow radix2 48).
    { rewrite <- bpow_opp. rewrite <- bpow_plus. reflexivity. }
    assert (b48 : 0 < / bpow radix2 48) by (apply Rinv_0_lt_compat, bpow_gt_0).
    assert (D1 : bpow radix2 (-348) <= a / INR N <= bpow radix2 300).
    { unfold Rdiv. rewrite E1. split.
      - apply Rmult_le_compat; lra.
      - apply Rle_trans with (a * 1); [apply Rmult_le_compat_l; lra|lra]. }
    assert (M1 : bpow radix2 (-384) <= bpow radix2 (-348)) by (apply bpow_le; lia).
    assert (M2 : bpow radix2 300 <= bpow radix2 384) by (apply bpow_le; lia).
    assert (iG : / bpow radix2 384 = bpow radix2 (-384)) by (rewrite <- bpow_opp; reflexivity).
    pose proof (bpow_gt_0 radix2 (-384)) as B384. pose proof (bpow_gt_0 radix2 (-348)) as B348.
    destruct (r_div _ _ Q v (lit (numB lg) (Z.of_nat N))) as [Fq Vq]; auto.
    { rewrite VN. lra. }
    { rewrite VV, VN, G8. fold a. rewrite Rabs_pos_eq by lra. lra. }
    rewrite VV, VN in Vq. fold a in Vq.
    destruct (r_rel _ _ Q (a / INR N)) as [L1 L2]; [rewrite G8, iG; lra|].
    rewrite <- Vq in L1, L2. change (r_u Q) with u64 in *.
    set (q := f_div (numB lg) v (lit (numB lg) (Z.of_nat N))) in *.
    pose proof (u64_small) as US.
    assert (Q1 : bpow radix2 (-384) <= val q <= 2 * bpow radix2 300).
    { split; [|nra]. apply Rle_trans with (bpow radix2 (-348) / 2); [|nra].
      change (-348)%Z with (1 + -349)%Z. rewrite bpow_plus. change (bpow radix2 1) with 2.
      assert (bpow radix2 (-384) <= bpow radix2 (-349)) by (apply bpow_le; lia). lra. }
    assert (E2 : bpow radix2 48 * (2 * bpow radix2 300) = bpow radix2 349).
    { change (bpow radix2 349) with (bpow radix2 (48 + (1 + 300))). rewrite !bpow_plus. reflexivity. }
    assert (X1 : bpow radix2 (-384) <= INR n * val q <= bpow radix2 384).
    { split.
      - apply Rle_trans with (1 * val q); [lra|]. apply Rmult_le_compat_r; lra.
      - apply Rle_trans with (bpow radix2 349); [|apply bpow_le; lia]. rewrite <- E2.
        apply Rmult_le_compat; lra. }
    destruct (r_mul _ _ Q (lit (numB lg) (Z.of_nat n)) q) as [Fy Vy]; auto.
    { rewrite Vn, G8. rewrite Rabs_pos_eq by lra. lra. }
    rewrite Vn in Vy. destruct (r_rel _ _ Q (INR n * val q)) as [L3 L4]; [rewrite G8, iG; lra|].
    rewrite <- Vy in L3, L4. change (r_u Q) with u64 in *.
    split; [exact Fy|].
    assert (EX : INR n * a / INR N = INR n * (a / INR N)) by (field; lra). rewrite EX.
    split; [apply Rmult_lt_0_compat; lra|].
    set (e := a / INR N) in *.
    split.
    - apply Rle_trans with (2 := L3). replace ((1 - u64) * ((1 - u64) * (INR n * e))) with ((1 - u64) * (INR n * ((1 - u64) * e))) by ring.
      apply Rmult_le_compat_l; [lra|]. apply Rmult_le_compat_l; lra.
    - apply Rle_trans with (1 := L4). replace ((1 + u64) * ((1 + u64) * (INR n * e))) with ((1 + u64) * (INR n * ((1 + u64) * e))) by ring.
      apply Rmult_le_compat_l; [lra|]. apply Rmult_le_compat_l; lra.
  Qed.
End Weight.

(** What [extract_tags] computes for a keyword is its exact weight up to a factor of 2^-51. *)
Theorem C105_weights :
  forall (lg : Z -> b64) (lower : str -> str) (H : hmm (numB lg)) (T : ptables (numB lg)) (ord : orders)
         (w : pworld) (x : tfidf (numB lg)) (s : str) (k : option Z) (allow : list str) (withFlag : bool)
         (ts occ : list term),
    log_ok lg -> words_for (numB lg) H T ord w allow s ts -> (Z.of_nat (length ts) <= 2 ^ 48)%Z ->
    counted lower (tf_stop x) allow withFlag ts occ -> idf_range x ->
    exists r : list (term * b64),
      snd (extract_tags lower H T ord w x s k true allow withFlag) = Ok (Items (numB lg) r) /\
      forall j y, In (j, y) r ->
        Rabs (B2R y - exact_weight x occ j) <= / 2 ^ 51 * exact_weight x occ j.
Proof.
  intros lg lower H T ord w x s k allow wf ts occ LO W L CT R.
  destruct (C38_best_keywords (numB lg) (orderB lg LO) (countB lg LO) lower H T ord w x s k allow wf ts occ W
              (idf_range_ok lg LO x R)) as (c & all & r & FO & BF & TP & E & _); auto.
  { cbn [c_lim countB]. lia. }
  exists r. split; auto. intros j y J.
  apply (top_part_In _ _ _ _ TP) in J. apply (best_first_In _ _ _ _ BF) in J.
  apply in_map_iff in J. destruct J as (i & Q & I).
  assert (i = j) by congruence. subst i. assert (Y : y = tfidf_weight x occ j) by congruence. clear Q. rewrite Y. clear y Y.
  apply FO in I. pose proof (counted_length _ _ _ _ _ _ CT) as LC.
  destruct (weight_near lg LO x occ j R ltac:(lia) I) as (FI & P & N1 & N2).
  cbn [o_val orderB] in N1, N2. rewrite bval_finite in N1, N2 by auto.
  apply Rabs_le. pose proof u64_eq as U. pose proof u64_small as US.
  set (e := exact_weight x occ j) in *. set (y := B2R (tfidf_weight x occ j : b64)) in *.
  assert (X : / 2 ^ 51 = 4 * u64) by (rewrite U; lra). rewrite X.
  assert (0 <= u64 * u64 * e <= u64 * e).
  { split; [apply Rmult_le_pos; nra|]. apply Rmult_le_compat_r; nra. }
  split; lra.
Qed.

(** If the exact weight of [j] is larger than that of [i] by more than a factor of 2^-50,
    [j] comes before [i] whenever [i] comes out at all. *)
Theorem C105_clear_order :
  forall (lg : Z -> b64) (lower : str -> str) (H : hmm (numB lg)) (T : ptables (numB lg)) (ord : orders)
         (w : pworld) (x : tfidf (numB lg)) (s : str) (k : option Z) (allow : list str) (withFlag : bool)
         (ts occ : list term),
    log_ok lg -> words_for (numB lg) H T ord w allow s ts -> (Z.of_nat (length ts) <= 2 ^ 48)%Z ->
    counted lower (tf_stop x) allow withFlag ts occ -> idf_range x ->
    exists r : list term,
      snd (extract_tags lower H T ord w x s k false allow withFlag) = Ok (Keys (numB lg) r) /\
      forall i j, In i r -> In j occ ->
        (1 + / 2 ^ 50) * exact_weight x occ i < exact_weight x occ j -> before r j i.
Proof.
  intros lg lower H T ord w x s k allow wf ts occ LO W L CT R.
  destruct (C38_best_keywords (numB lg) (orderB lg LO) (countB lg LO) lower H T ord w x s k allow wf ts occ W
              (idf_range_ok lg LO x R)) as (c & all & r & FO & BF & TP & _ & E); auto.
  { cbn [c_lim countB]. lia. }
  exists (map fst r). split; auto. intros i j I J X.
  apply in_map_iff in I. destruct I as ([i' y] & E1 & I). cbn in E1. subst i'.
  assert (IC := I). apply (top_part_In _ _ _ _ TP) in IC. apply (best_first_In _ _ _ _ BF) in IC.
  apply in_map_iff in IC. destruct IC as (i' & Q & IC).
  assert (i' = i) by congruence. subst i'. assert (Y : y = tfidf_weight x occ i) by congruence. clear Q. subst y.
  assert (IO : In i occ) by (apply FO; auto). pose proof (counted_length _ _ _ _ _ _ CT) as LC.
  destruct (weight_near lg LO x occ i R ltac:(lia) IO) as (FI & P & _ & N2).
  destruct (weight_near lg LO x occ j R ltac:(lia) J) as (FJ & PJ & N1 & _).
  assert (B : before r (j, tfidf_weight x occ j) (i, tfidf_weight x occ i)).
  { eapply clear_before; eauto.
    - apply FinFun.Injective_map_NoDup; [intros a b Q; congruence|apply FO].
    - apply (in_map (fun j => (j, tfidf_weight x occ j))). apply FO. auto.
    - cbn [snd]. eapply Rle_lt_trans; [exact N2|]. eapply Rlt_le_trans; [|exact N1].
      pose proof u64_eq as U. pose proof u64_small as US.
      set (e := exact_weight x occ i) in *. set (f := exact_weight x occ j) in *.
      assert (Y : / 2 ^ 50 = 8 * u64) by (rewrite U; lra). rewrite Y in X.
      apply Rle_lt_trans with ((1 - u64) * ((1 - u64) * ((1 + 8 * u64) * e))).
      + assert (0 <= u64 * e) by nra.
        assert (0 <= u64 * u64 * e <= / 1000 * (u64 * e)) by (split; [|rewrite Rmult_assoc]; nra).
        assert (0 <= u64 * u64 * u64 * e) by (apply Rmult_le_pos; nra). lra.
      + apply Rmult_lt_compat_l; [lra|]. apply Rmult_lt_compat_l; lra. }
  destruct B as (u & v & z & ->). exists (map fst u), (map fst v), (map fst z).
  rewrite !map_app. cbn. rewrite map_app. reflexivity.
Qed.

(** Keywords with the same IDF value come out with the more frequent ones first, and
    those as frequent in the order of their first occurrences. *)
Theorem C105_same_idf :
  forall (lg : Z -> b64) (lower : str -> str) (H : hmm (numB lg)) (T : ptables (numB lg)) (ord : orders)
         (w : pworld) (x : tfidf (numB lg)) (s : str) (k : option Z) (allow : list str) (withFlag : bool)
         (ts occ : list term),
    log_ok lg -> words_for (numB lg) H T ord w allow s ts -> (Z.of_nat (length ts) <= 2 ^ 48)%Z ->
    counted lower (tf_stop x) allow withFlag ts occ -> idf_range x ->
    exists r c : list term,
      snd (extract_tags lower H T ord w x s k false allow withFlag) = Ok (Keys (numB lg) r) /\
      first_occurrences occ c /\
      forall i j, before r j i -> idf_of x (term_word i) = idf_of x (term_word j) ->
        (count_occ term_eq_dec occ i < count_occ term_eq_dec occ j)%nat \/
        count_occ term_eq_dec occ i = count_occ term_eq_dec occ j /\ before c j i.
Proof.
  intros lg lower H T ord w x s k allow wf ts occ LO W L CT R.
  destruct (C105_clear_order lg lower H T ord w x s k allow wf ts occ LO W L CT R) as (r0 & E0 & CO).
  destruct (C38_best_keywords (numB lg) (orderB lg LO) (countB lg LO) lower H T ord w x s k allow wf ts occ W
              (idf_range_ok lg LO x R)) as (c & all & r & FO & BF & TP & _ & E); auto.
  { cbn [c_lim countB]. lia. }
  rewrite E0 in E. injection E as ->. exists (map fst r), c. split; auto. split; auto.
  pose proof (counted_length _ _ _ _ _ _ CT) as LC.
  intros i j B SI.
  assert (ND : NoDup (map fst r)).
  { destruct TP as (rest & EA & _).
    assert (NDA : NoDup (map fst all)).
    { apply (Permutation_NoDup (l := map fst (map (fun j => (j, tfidf_weight x occ j)) c))).
      - apply Permutation_map. apply BF.
      - rewrite map_map. cbn. rewrite map_id. apply FO. }
    rewrite EA, map_app in NDA. apply NoDup_app_l in NDA. auto. }
  destruct (before_In _ _ _ B) as [J I].
  assert (IN : forall z, In z (map fst r) -> In z occ).
  { intros z Z. apply in_map_iff in Z. destruct Z as ([z' y] & <- & Z). apply (top_part_In _ _ _ _ TP) in Z.
    apply (best_first_In _ _ _ _ BF) in Z. apply in_map_iff in Z. destruct Z as (i' & Q & Z). injection Q as -> _.
    apply FO. auto. }
  fold (times i occ). fold (times j occ).
  destruct (lt_eq_lt_dec (times i occ) (times j occ)) as [[LT|EQ]|GT]; auto.
  - right. split; auto. apply before_map in B. destruct B as ((j' & yj) & (i' & yi) & Q1 & Q2 & B).
    cbn in Q1, Q2. subst j' i'. destruct TP as (rest & EA & _).
    assert (BA : before all (j, yj) (i, yi)) by (rewrite EA; apply before_app; auto).
    destruct BF as [P BF].
    assert (WT : forall z y, In (z, y) all -> y = tfidf_weight x occ z).
    { intros z y Z. apply Permutation_sym in P. apply (Permutation_in _ P) in Z. apply in_map_iff in Z.
      destruct Z as (z' & Q & _). injection Q as -> <-. reflexivity. }
    destruct (before_In _ _ _ BA) as [BJ BI]. apply WT in BJ. apply WT in BI.
    destruct (BF _ _ BA) as [V|[_ BM]].
    + exfalso. cbn [snd] in V. rewrite BJ, BI in V. unfold tfidf_weight in V. rewrite SI, EQ in V. lra.
    + apply before_map in BM. destruct BM as (a & b & Q1 & Q2 & BM). injection Q1 as <- _. injection Q2 as <- _. auto.
  - exfalso. assert (X : before (map fst r) i j).
    { apply CO; auto. unfold exact_weight. rewrite SI.
      set (a := B2R (idf_of x (term_word j) : b64)).
      assert (A0 : 0 < a) by (pose proof (bpow_gt_0 radix2 (-300)); destruct (R (term_word j)); unfold a; lra).
      assert (N0 : (0 < length occ)%nat) by (apply IN in I; destruct occ; [destruct I|cbn; lia]).
      assert (N1 : 0 < / INR (length occ)) by (apply Rinv_0_lt_compat; change 0 with (INR 0); apply lt_INR; auto).
      pose proof (times_le j occ) as TL.
      assert (T1 : INR (times j occ) + 1 <= INR (times i occ)) by (rewrite <- S_INR; apply le_INR; auto).
      assert (T2 : INR (times j occ) <= 2 ^ 48).
      { rewrite INR_IZR_INZ. replace (2 ^ 48) with (IZR (2 ^ 48)) by (cbn; lra). apply IZR_le. lia. }
      assert (T3 : (1 + / 2 ^ 50) * INR (times j occ) < INR (times i occ)) by lra.
      unfold Rdiv. rewrite <- !Rmult_assoc. apply Rmult_lt_compat_r; auto. }
    clear - B X ND. destruct (in_dec term_eq_dec i (map fst r)) as [_|N]; [|apply before_In in X; tauto].
    revert B X ND. generalize (map fst r). intros l. induction l as [|z l IH]; intros B X ND.
    + apply before_nil in B. auto.
    + inversion ND; subst. apply before_cons in B. apply before_cons in X.
      destruct B as [[-> BI]|B], X as [[-> XI]|X]; auto.
      * apply before_In in X. tauto.
      * apply before_In in B. tauto.
Qed.

(** Within that margin the exact order need not be the one that comes out: three times a
    word with IDF 2.0833333333333335 is more than four times one with 1.5625, but comes
    after it. *)
Definition te_w : pworld := mkPW (build [([c_bei; c_jing], 7%Z); ([c_lai; c_dao], 5%Z)]) [].
Definition te_x (lg : Z -> b64) : tfidf (numB lg) :=
  @mkTfidf (numB lg) (@mkIdf (numB lg) [] [] (lit (numB lg) 0))
    [([c_bei; c_jing], b64_of (4691249611844267, -51)%Z : F (numB lg)); ([c_lai; c_dao], b64_of (25, -4)%Z : F (numB lg))]
    (b64_of (1, 0)%Z : F (numB lg)) [].
Definition te_parts : list str := repeat [c_bei; c_jing] 3 ++ repeat [c_lai; c_dao] 4.

Definition te_terms : list (list term) := repeat [TWord [c_bei; c_jing]] 3 ++ repeat [TWord [c_lai; c_dao]] 4.
Lemma te_words (lg : Z -> b64) (lower : str -> str) (H : hmm (numB lg)) (T : ptables (numB lg)) (ord : orders) :
  words_for (numB lg) H T ord te_w [] (join_with [32%N] te_parts) (joined [] 32%N te_terms) /\
  counted lower [] [] false (joined [] 32%N te_terms) (concat te_terms).
Proof.
  set (bj := [c_bei; c_jing]). set (ld := [c_lai; c_dao]).
  assert (W1 : forall z, z = bj \/ z = ld -> words_for (numB lg) H T ord te_w [] z [TWord z]).
  { intros z Z. left. split; auto. exists [z]. split; [destruct Z as [->| ->]; vm_compute; reflexivity|reflexivity]. }
  assert (C1 : forall z, z = bj \/ z = ld -> counted lower [] [] false [TWord z] [TWord z]).
  { intros z Z. apply (counted_yes lower [] [] false (TWord z)); [|constructor].
    split; [destruct Z as [->| ->]; vm_compute; lia|]. split; auto. }
  split.
  - apply words_joined; auto; try discriminate. apply Forall2_app; apply repeat_forall2; apply W1; auto.
  - apply counted_joined; try discriminate; auto. apply Forall2_app; apply repeat_forall2; apply C1; auto.
Qed.

Theorem C105_exact_order_refuted :
  forall (lg : Z -> b64) (lower : str -> str) (H : hmm (numB lg)) (T : ptables (numB lg)) (ord : orders),
    log_ok lg ->
    exists (w : pworld) (x : tfidf (numB lg)) (s : str) (ts occ : list term) (i j : term) (r : list term),
      words_for (numB lg) H T ord w [] s ts /\ counted lower (tf_stop x) [] false ts occ /\ idf_range x /\
      In i occ /\ In j occ /\ exact_weight x occ i < exact_weight x occ j /\
      snd (extract_tags lower H T ord w x s None false [] false) = Ok (Keys (numB lg) r) /\ before r i j.
Proof.
  intros lg lower H T ord LO. destruct (te_words lg lower H T ord) as (W & CT).
  set (bj := [c_bei; c_jing]). set (ld := [c_lai; c_dao]). set (tss := te_terms) in *.
  assert (R : idf_range (te_x lg)).
  { intros z. unfold idf_of.
    assert (G : forall a, In a [b64_of (4691249611844267, -51)%Z; b64_of (25, -4)%Z; b64_of (1, 0)%Z] ->
              bpow radix2 (-300) <= B2R a <= bpow radix2 300).
    { intros a A. assert (bpow radix2 (-300) <= 1) by (change 1 with (bpow radix2 0); apply bpow_le; lia).
      assert (4 <= bpow radix2 300) by (change 4 with (bpow radix2 2); apply bpow_le; lia).
      assert (1 <= B2R a <= 4); [|lra].
      repeat (destruct A as [<-|A]; [vm_compute; lra|]). destruct A. }
    apply G. cbn [tf_freq tf_median te_x]. unfold sget. cbn. destruct (str_eqb z _); cbn; auto. destruct (str_eqb z _); cbn; auto. }
  destruct (C38_best_keywords (numB lg) (orderB lg LO) (countB lg LO) lower H T ord te_w (te_x lg) _ None [] false _ (concat tss) W
              (idf_range_ok lg LO _ R)) as (c & all & r & FO & BF & TP & _ & E); auto.
  { vm_compute. reflexivity. }
  exists te_w, (te_x lg), (join_with [32%N] te_parts), (joined [] 32%N tss), (concat tss), (TWord ld), (TWord bj), (map fst r).
  assert (IB : In (TWord bj) (concat tss)) by (left; reflexivity).
  assert (IL : In (TWord ld) (concat tss)) by (cbn; auto 8).
  split; auto. split; auto. split; auto. split; auto. split; auto. split.
  { unfold exact_weight, Rdiv. apply Rmult_lt_compat_r; [apply Rinv_0_lt_compat; cbn; lra|]. vm_compute. lra. }
  split; auto.
  assert (B : before r (TWord ld, tfidf_weight (te_x lg) (concat tss) (TWord ld)) (TWord bj, tfidf_weight (te_x lg) (concat tss) (TWord bj))).
  { assert (A : r = all) by (apply (top_part_unique None all); auto; exists []; rewrite app_nil_r; auto).
    eapply clear_before; eauto.
    - apply FinFun.Injective_map_NoDup; [intros a b Q; congruence|apply FO].
    - apply (in_map (fun j => (j, tfidf_weight (te_x lg) (concat tss) j))). apply FO. auto.
    - rewrite A. eapply Permutation_in; [apply BF|]. apply (in_map (fun j => (j, tfidf_weight (te_x lg) (concat tss) j))). apply FO. auto.
    - cbn [snd o_val orderB]. vm_compute. lra. }
  destruct B as (u & v & z & ->). exists (map fst u), (map fst v), (map fst z).
  rewrite !map_app. cbn. rewrite map_app. reflexivity.
Qed.

(** ** TextRank: with weights that differ clearly, the order is the exact one *)
Theorem C105_textrank_clear_order :
  forall (lg : Z -> b64) (lower : str -> str) (H : hmm (numB lg)) (T : ptables (numB lg)) (ord : orders)
         (w : pworld) (x : textrank) (s : str) (k : option Z) (allow : list str) (withFlag : bool) (words : list tagged)
         (ls : list (term * term)) (nodes order : list term) (lo hi : R),
    log_ok lg -> snd (do_pop (numB lg) H T ord w (PCut 0 true s)) = PWords (gof words) ->
    (Z.of_nat (length words * tr_span x) < 2 ^ 40)%Z ->
    links_of lower (tr_stop x) allow (tr_span x) withFlag words ls -> nodes_of ls nodes -> word_order nodes order ->
    smallest ls nodes order lo -> largest ls nodes order hi ->
    exists r : list term,
      snd (textrank_tags lower H T ord w x s k false allow withFlag) = Ok (Keys (numB lg) r) /\
      forall i j, In i r -> In j nodes ->
        let margin := (INR (length words * tr_span x) + 1) / 2 ^ 42 in
        (1 + margin) * weight ls nodes order lo hi i < (1 - margin) * weight ls nodes order lo hi j -> before r j i.
Proof.
  intros lg lower H T ord w x s k allow wf words ls nodes order lo hi LO PW SZ LS NS WO SM LA.
  destruct (C73_binary64 lg lower x words allow wf ls nodes order lo hi LO SZ LS NS WO SM LA) as (d & E & K & N).
  assert (G2 : 2 * INR (length words * tr_span x) + 10 <= r_G (roundB lg LO)).
  { change (r_G (roundB lg LO)) with (IZR (2 ^ 48)). rewrite INR_IZR_INZ, <- mult_IZR, <- plus_IZR. apply IZR_le. lia. }
  destruct (C42_best_keywords (numB lg) (orderB lg LO) (roundB lg LO) lower H T ord w x s k allow wf words PW G2)
    as (d' & all & r & E' & ND & BF & TP & _ & E2).
  rewrite E in E'. injection E' as <-.
  destruct (C41_weights (numB lg) (orderB lg LO) (roundB lg LO) lower x words allow wf G2) as (d' & E' & FN & _).
  rewrite E in E'. injection E' as <-.
  exists (map fst r). split; auto. intros i j I J margin X.
  apply in_map_iff in I. destruct I as ([i' yi] & E1 & I). cbn in E1. subst i'.
  rewrite <- K in J. apply in_map_iff in J. destruct J as ([j' yj] & E1 & J). cbn in E1. subst j'.
  assert (ID : In (i, yi) d) by (apply (top_part_In _ _ _ _ TP) in I; apply (best_first_In _ _ _ _ BF) in I; auto).
  pose proof (N _ _ ID) as NI. pose proof (N _ _ J) as NJ. fold margin in NI, NJ.
  apply Rabs_le_inv in NI. apply Rabs_le_inv in NJ.
  assert (B : before r (j, yj) (i, yi)).
  { eapply clear_before; eauto.
    - eapply NoDup_map_inv. exact ND.
    - destruct (FN _ _ ID) as [FI _]. destruct (FN _ _ J) as [FJ _]. cbn [snd o_val o_fin orderB] in *.
      rewrite !bval_finite by auto. lra. }
  destruct B as (u & v & z & ->). exists (map fst u), (map fst v), (map fst z).
  rewrite !map_app. cbn. rewrite map_app. reflexivity.
Qed.

(** ** Cases *)

(** the text of the refutation, with the median for every word: 4 times beats 3 times *)
Definition te_y (lg : Z -> b64) : tfidf (numB lg) :=
  @mkTfidf (numB lg) (@mkIdf (numB lg) [] [] (lit (numB lg) 0)) [] (b64_of (1, 0)%Z : F (numB lg)) [].
Example C105_nonvacuous :
  forall (lg : Z -> b64) (lower : str -> str) (H : hmm (numB lg)) (T : ptables (numB lg)) (ord : orders),
    exists ts occ,
      words_for (numB lg) H T ord te_w [] (join_with [32%N] te_parts) ts /\ (Z.of_nat (length ts) <= 2 ^ 48)%Z /\
      counted lower (tf_stop (te_y lg)) [] false ts occ /\ idf_range (te_y lg) /\
      In (TWord [c_bei; c_jing]) occ /\ In (TWord [c_lai; c_dao]) occ /\
      (1 + / 2 ^ 50) * exact_weight (te_y lg) occ (TWord [c_bei; c_jing]) < exact_weight (te_y lg) occ (TWord [c_lai; c_dao]).
Proof.
  intros lg lower H T ord. destruct (te_words lg lower H T ord) as (W & CT).
  exists (joined [] 32%N te_terms), (concat te_terms). split; auto. split; [vm_compute; discriminate|]. split; auto.
  assert (B1 : B2R (b64_of (1, 0)%Z) = 1) by (vm_compute; lra).
  split.
  { intros z. unfold idf_of. cbn [tf_freq tf_median te_y sget dget]. rewrite B1.
    split; [change 1 with (bpow radix2 0); apply bpow_le; lia|change 1 with (bpow radix2 0); apply bpow_le; lia]. }
  split; [left; reflexivity|]. split; [cbn; auto 8|].
  unfold exact_weight, idf_of. cbn [tf_freq tf_median te_y sget dget]. rewrite B1.
  replace (times (TWord [c_bei; c_jing]) (concat te_terms)) with 3%nat by reflexivity.
  replace (times (TWord [c_lai; c_dao]) (concat te_terms)) with 4%nat by reflexivity.
  change (length (concat te_terms)) with 7%nat. cbn [INR]. lra.
Qed.

(** two linked words: 0.15 + 0.85 * w ten times from 1/2 on, in turn *)
Lemma two_iter k :
  let V := Nat.iter k (one_round [(wa, wb)] [wa; wb] [wa; wb]) (fun _ => 1 / INR (length [wa; wb])) in
  V wb = 1 - (85 / 100) ^ (2 * k) / 2.
Proof.
  induction k as [|k IH]; cbv zeta in *.
  - cbn. lra.
  - change (Nat.iter (S k) (one_round [(wa, wb)] [wa; wb] [wa; wb]) (fun _ => 1 / INR (length [wa; wb]))) with
      (one_round [(wa, wb)] [wa; wb] [wa; wb] (Nat.iter k (one_round [(wa, wb)] [wa; wb] [wa; wb]) (fun _ => 1 / INR (length [wa; wb])))).
    destruct (two_round (Nat.iter k (one_round [(wa, wb)] [wa; wb] [wa; wb]) (fun _ => 1 / INR (length [wa; wb])))) as [A B].
    rewrite B, A, IH. replace (2 * S k)%nat with (S (S (2 * k))) by lia. cbn [pow]. lra.
Qed.

Example C105_textrank_nonvacuous :
  exists lo hi,
    smallest [(wa, wb)] [wa; wb] [wa; wb] lo /\ largest [(wa, wb)] [wa; wb] [wa; wb] hi /\
    (1 + (INR (2 * 5) + 1) / 2 ^ 42) * weight [(wa, wb)] [wa; wb] [wa; wb] lo hi wa <
    (1 - (INR (2 * 5) + 1) / 2 ^ 42) * weight [(wa, wb)] [wa; wb] [wa; wb] lo hi wb.
Proof.
  destruct two_raw as (lo & hi & LT & SM & LA & WA & WB). exists lo, hi. split; auto. split; auto.
  assert (VA : lo = 1 - (85 / 100) ^ 19 / 2 /\ hi = 1 - (85 / 100) ^ 20 / 2).
  { rewrite <- WA, <- WB. unfold raw_weight.
    change (Nat.iter 10 (one_round [(wa, wb)] [wa; wb] [wa; wb]) (fun _ => 1 / INR (length [wa; wb]))) with
      (one_round [(wa, wb)] [wa; wb] [wa; wb] (Nat.iter 9 (one_round [(wa, wb)] [wa; wb] [wa; wb]) (fun _ => 1 / INR (length [wa; wb])))).
    destruct (two_round (Nat.iter 9 (one_round [(wa, wb)] [wa; wb] [wa; wb]) (fun _ => 1 / INR (length [wa; wb])))) as [A B].
    pose proof (two_iter 9) as I9. cbv zeta in I9. change (2 * 9)%nat with 18%nat in I9. rewrite B, A, I9. lra. }
  destruct VA as [-> ->]. unfold weight. rewrite WA, WB.
  replace (INR (2 * 5)) with 10 by (cbn; lra).
  assert (D : 0 < 1 - (85 / 100) ^ 20 / 2 - (1 - (85 / 100) ^ 19 / 2) / 10) by lra.
  set (z := 1 - (85 / 100) ^ 20 / 2 - (1 - (85 / 100) ^ 19 / 2) / 10) in *.
  assert (Y : forall p n, p * (n / z) = p * n * / z) by (intros; unfold Rdiv; ring). rewrite !Y.
  apply Rmult_lt_compat_r; [apply Rinv_0_lt_compat; auto|]. unfold z. lra.
Qed.

Print Assumptions C105_weights.
Print Assumptions C105_clear_order.
Print Assumptions C105_same_idf.
Print Assumptions C105_exact_order_refuted.
Print Assumptions C105_textrank_clear_order.
