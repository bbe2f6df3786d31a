(** * C117 in binary64: more stop words and more occurrences, with the rounding *)
From Coq Require Import Reals Lra Lia Permutation.
From Flocq Require Import Core BinarySingleNaN.
From Verif Require Import PyBase PyRegex PyNum SpecNum ModelFinalseg ModelSeg ModelDict ModelApi ModelPosseg ModelAnalyse
  SpecBase SpecSeg SpecTagging SpecAnalyse SpecTextrank InstR InstB64 InstB64Ext InstRound InstCount B64Lit Demo DemoPos
  ProofsBase ProofsSplit ProofsDemo ProofsKeywords ProofsTfidf PropsFull PropsPosseg PropsAnalyse PropsRepeat PropsTfidfErr PropsKeyOrder.
Local Open Scope R_scope.

(** the keywords as a ranking by the rounded weights *)
Lemma keys_binary64 (lg : Z -> b64) (LO : log_ok lg) lower (H : hmm (numB lg)) (T : ptables (numB lg)) ord w
      (x : tfidf (numB lg)) s k allow wf ts occ :
  words_for (numB lg) H T ord w allow s ts -> (Z.of_nat (length ts) <= 2 ^ 48)%Z ->
  counted lower (tf_stop x) allow wf ts occ -> idf_range x ->
  exists c ks r, first_occurrences occ c /\
    best_first (fun j => o_val (orderB lg LO) (tfidf_weight x occ j)) c ks /\
    top_part k (map (fun j => (j, tfidf_weight x occ j)) ks) r /\
    snd (extract_tags lower H T ord w x s k false allow wf) = Ok (Keys (numB lg) (map fst r)).
Proof.
  intros W L CT R.
  destruct (C38_best_keywords (numB lg) (orderB lg LO) (countB lg LO) lower H T ord w x s k allow wf ts occ W
              (idf_range_ok lg LO x R)) as (c & all & r & FO & BF & TP & _ & E); auto.
  { cbn [c_lim countB]. lia. }
  destruct (ranking_of_keys (fun j => tfidf_weight x occ j) (o_val (orderB lg LO)) c all (proj1 FO) BF) as (ks & -> & BK).
  exists c, ks, r. auto.
Qed.

(** ** More stop words *)

(** Two keywords whose exact weights lie apart by more than a factor of 2^-50 stand in the
    same order with more stop words. *)
Theorem C117_stop_words_binary64 :
  forall (lg : Z -> b64) (lower : str -> str) (H : hmm (numB lg)) (T : ptables (numB lg)) (ord : orders) (w : pworld)
         (x x' : tfidf (numB lg)) (s : str) (allow : list str) (withFlag : bool) (ts occ : list term),
    log_ok lg -> words_for (numB lg) H T ord w allow s ts -> (Z.of_nat (length ts) <= 2 ^ 48)%Z ->
    counted lower (tf_stop x) allow withFlag ts occ -> idf_range x ->
    tf_freq x' = tf_freq x -> tf_median x' = tf_median x -> (forall e, In e (tf_stop x) -> In e (tf_stop x')) ->
    exists r r' : list term,
      snd (extract_tags lower H T ord w x s None false allow withFlag) = Ok (Keys (numB lg) r) /\
      snd (extract_tags lower H T ord w x' s None false allow withFlag) = Ok (Keys (numB lg) r') /\
      Permutation r' (filter (fun j => negb (stopped lower (tf_stop x') j)) r) /\
      forall i j, In i r' -> In j r' ->
        (1 + / 2 ^ 50) * exact_weight x occ i < exact_weight x occ j -> before r j i /\ before r' j i.
Proof.
  intros lg lower H T ord w x x' s allow wf ts occ LO W L CT R EF EM S.
  set (keep := fun j => negb (stopped lower (tf_stop x') j)).
  pose proof (counted_more lower _ _ allow wf ts occ S CT) as CT'. fold keep in CT'.
  assert (EI : forall y, idf_of x' y = idf_of x y) by (intros y; unfold idf_of; rewrite EF, EM; reflexivity).
  assert (R' : idf_range x') by (intros y; rewrite EI; apply R).
  destruct (C105_clear_order lg lower H T ord w x s None allow wf ts occ LO W L CT R) as (r & E & B).
  destruct (C105_clear_order lg lower H T ord w x' s None allow wf ts _ LO W L CT' R') as (r' & E' & B').
  destruct (keys_binary64 lg LO lower H T ord w x s None allow wf ts occ W L CT R) as (c & ks & q & FO & BF & TP & Q).
  destruct (keys_binary64 lg LO lower H T ord w x' s None allow wf ts _ W L CT' R') as (c' & ks' & q' & FO' & BF' & TP' & Q').
  apply top_part_all in TP; [|left; auto]. apply top_part_all in TP'; [|left; auto]. subst q q'.
  rewrite map_map in Q, Q'. cbn [fst] in Q, Q'. rewrite map_id in Q, Q'.
  assert (r = ks) by congruence. assert (r' = ks') by congruence. subst r r'. clear Q Q'.
  exists ks, ks'. split; auto. split; auto.
  assert (EC : c' = filter keep c).
  { apply (first_occ_unique (filter keep occ)); auto. apply first_occ_filter; auto. }
  assert (PM : Permutation ks' (filter keep ks)).
  { eapply Permutation_trans; [apply Permutation_sym; apply BF'|]. rewrite EC. apply perm_filter. apply BF. }
  split; auto. intros i j I J X.
  assert (KI : keep i = true /\ In i ks) by (apply (Permutation_in _ PM) in I; apply filter_In in I; tauto).
  assert (KJ : keep j = true /\ In j ks) by (apply (Permutation_in _ PM) in J; apply filter_In in J; tauto).
  assert (OJ : In j occ) by (apply FO; eapply Permutation_in; [apply Permutation_sym; apply BF|tauto]).
  split; [apply B; auto; tauto|]. apply B'; auto.
  { apply filter_In. tauto. }
  assert (LP : 0 < INR (length occ)) by (apply lt_0_INR; destruct occ; [destruct OJ|cbn; lia]).
  assert (OJ' : In j (filter keep occ)) by (apply filter_In; tauto).
  assert (LP' : 0 < INR (length (filter keep occ))) by (apply lt_0_INR; destruct (filter keep occ); [destruct OJ'|cbn; lia]).
  unfold exact_weight in X |- *. rewrite !EI, !times_filter by tauto.
  apply Rmult_lt_compat_r with (r := INR (length occ) / INR (length (filter keep occ))) in X.
  - match type of X with ?a < ?b => match goal with |- ?c < ?d =>
      replace c with a by (field; lra); replace d with b by (field; lra) end end. exact X.
  - apply Rdiv_lt_0_compat; auto.
Qed.

(** ** One word more often *)

(** [j] at least as heavy as [i] by the rounded weights, and then counted once more at least, is the heavier *)
Lemma overtakes (u a b c n : R) (ea eb : R) :
  u = / 2 ^ 53 -> 0 < a -> 0 < eb -> 1 <= c <= 2 ^ 48 -> c + 1 <= n ->
  (1 - u) * ((1 - u) * ea) <= a -> a <= (1 + u) * ((1 + u) * (c * eb)) ->
  (1 + / 2 ^ 50) * ea < n * eb.
Proof.
  intros U A E C N L1 L2.
  apply Rlt_le_trans with ((c + 1) * eb); [|apply Rmult_le_compat_r; lra].
  assert (X : (1 - u) * ((1 - u) * ea) <= (1 + u) * ((1 + u) * (c * eb))) by lra.
  assert (W : (1 + / 2 ^ 50) * ((1 + u) * (1 + u) * c) < (1 - u) * (1 - u) * (c + 1)).
  { rewrite U. lra. }
  apply Rmult_lt_reg_l with ((1 - u) * (1 - u)); [rewrite U; lra|].
  apply Rle_lt_trans with ((1 + / 2 ^ 50) * ((1 + u) * ((1 + u) * (c * eb)))).
  - replace ((1 - u) * (1 - u) * ((1 + / 2 ^ 50) * ea)) with ((1 + / 2 ^ 50) * ((1 - u) * ((1 - u) * ea))) by ring.
    apply Rmult_le_compat_l; [lra|exact X].
  - replace ((1 + / 2 ^ 50) * ((1 + u) * ((1 + u) * (c * eb)))) with ((1 + / 2 ^ 50) * ((1 + u) * (1 + u) * c) * eb) by ring.
    replace ((1 - u) * (1 - u) * ((c + 1) * eb)) with ((1 - u) * (1 - u) * (c + 1) * eb) by ring.
    apply Rmult_lt_compat_r; auto.
Qed.

(** A keyword that occurs more often, while the others occur as often as before, is a keyword
    still: no rounding of the weights puts it out of the first [topK]. *)
Theorem C117_more_often_binary64 :
  forall (lg : Z -> b64) (lower : str -> str) (H : hmm (numB lg)) (T : ptables (numB lg)) (ord : orders) (w : pworld)
         (x : tfidf (numB lg)) (s s' : str) (k : option Z) (allow : list str) (withFlag : bool)
         (ts ts' occ occ' : list term) (j : term),
    log_ok lg -> words_for (numB lg) H T ord w allow s ts -> words_for (numB lg) H T ord w allow s' ts' ->
    (Z.of_nat (length ts) <= 2 ^ 48)%Z -> (Z.of_nat (length ts') <= 2 ^ 48)%Z -> idf_range x ->
    counted lower (tf_stop x) allow withFlag ts occ -> counted lower (tf_stop x) allow withFlag ts' occ' ->
    (forall i, i <> j -> times i occ' = times i occ) -> (times j occ < times j occ')%nat ->
    exists r r' : list term,
      snd (extract_tags lower H T ord w x s k false allow withFlag) = Ok (Keys (numB lg) r) /\
      snd (extract_tags lower H T ord w x s' k false allow withFlag) = Ok (Keys (numB lg) r') /\
      (In j r -> In j r') /\
      (forall i, before r j i -> In i r' -> before r' j i).
Proof.
  intros lg lower H T ord w x s s' k allow wf ts ts' occ occ' j LO W W' L L' R CT CT' OT MO.
  destruct (keys_binary64 lg LO lower H T ord w x s k allow wf ts occ W L CT R) as (c & ks & r & FO & BF & TP & E).
  destruct (keys_binary64 lg LO lower H T ord w x s' k allow wf ts' _ W' L' CT' R) as (c' & ks' & r' & FO' & BF' & TP' & E').
  exists (map fst r), (map fst r'). split; auto. split; auto.
  pose proof (top_keys (fun j => tfidf_weight x occ j) k ks r TP) as (n & ER & _ & EN).
  pose proof (top_keys (fun j => tfidf_weight x occ' j) k ks' r' TP') as (n' & ER' & _ & EN').
  assert (KS : forall i, In i ks <-> In i occ).
  { intros i. rewrite <- (proj1 (proj2 FO)). split; apply Permutation_in; [apply Permutation_sym|]; apply BF. }
  assert (KS' : forall i, In i ks' <-> In i occ').
  { intros i. rewrite <- (proj1 (proj2 FO')). split; apply Permutation_in; [apply Permutation_sym|]; apply BF'. }
  assert (ND : NoDup ks) by (eapply Permutation_NoDup; [apply BF|apply FO]).
  assert (ND' : NoDup ks') by (eapply Permutation_NoDup; [apply BF'|apply FO']).
  pose proof (counted_length _ _ _ _ _ _ CT) as LC. pose proof (counted_length _ _ _ _ _ _ CT') as LC'.
  assert (WIN : forall v, v <> j -> before ks j v -> In v ks' -> In j ks' ->
            o_val (orderB lg LO) (tfidf_weight x occ' v) < o_val (orderB lg LO) (tfidf_weight x occ' j)).
  { intros v NV BV IV IJ'. pose proof (before_In _ _ _ BV) as [IJ IV0]. rewrite KS in IJ, IV0. rewrite KS' in IV, IJ'.
    destruct (weight_near lg LO x occ v R ltac:(lia) IV0) as (_ & PV & V1 & _).
    destruct (weight_near lg LO x occ j R ltac:(lia) IJ) as (_ & PJ & _ & J2).
    destruct (weight_near lg LO x occ' v R ltac:(lia) IV) as (_ & PV' & _ & V2).
    destruct (weight_near lg LO x occ' j R ltac:(lia) IJ') as (_ & PJ' & J1 & _).
    assert (LE : o_val (orderB lg LO) (tfidf_weight x occ v) <= o_val (orderB lg LO) (tfidf_weight x occ j)).
    { destruct (proj2 BF _ _ BV) as [Q|[Q _]]; lra. }
    assert (LP : 0 < INR (length occ)) by (apply lt_0_INR; destruct occ; [destruct IJ|cbn; lia]).
    assert (LP' : 0 < INR (length occ')) by (apply lt_0_INR; destruct occ'; [destruct IJ'|cbn; lia]).
    pose proof u64_eq as U. pose proof u64_small as US.
    assert (X : (1 + / 2 ^ 50) * exact_weight x occ' v < exact_weight x occ' j).
    { destruct (R (term_word j)) as [RJ _]. pose proof (bpow_gt_0 radix2 (-300)) as B0.
      assert (C1 : 1 <= INR (times j occ)).
      { change 1 with (INR 1). apply le_INR. apply (count_occ_In term_eq_dec) in IJ. unfold times. lia. }
      assert (C2 : INR (times j occ) <= 2 ^ 48).
      { pose proof (times_le j occ). replace (2 ^ 48) with (IZR (2 ^ 48)) by (cbn; lra).
        rewrite INR_IZR_INZ. apply IZR_le. lia. }
      assert (C3 : INR (times j occ) + 1 <= INR (times j occ')).
      { rewrite <- S_INR. apply le_INR. lia. }
      set (g := B2R (idf_of x (term_word j) : b64)) in *.
      pose proof (overtakes u64 (o_val (orderB lg LO) (tfidf_weight x occ v)) 0 (INR (times j occ)) (INR (times j occ'))
                   (exact_weight x occ v) (g / INR (length occ)) U) as OV.
      assert (OV' : (1 + / 2 ^ 50) * exact_weight x occ v < INR (times j occ') * (g / INR (length occ))).
      { apply OV; auto.
        - apply Rlt_le_trans with (2 := V1). apply Rmult_lt_0_compat; [lra|]. apply Rmult_lt_0_compat; lra.
        - apply Rdiv_lt_0_compat; lra.
        - eapply Rle_trans; [exact LE|]. eapply Rle_trans; [exact J2|]. unfold exact_weight. fold g.
          apply Req_le. field. lra. }
      unfold exact_weight in OV' |- *. fold g. rewrite (OT v NV).
      apply Rmult_lt_compat_r with (r := INR (length occ) / INR (length occ')) in OV'; [|apply Rdiv_lt_0_compat; auto].
      match type of OV' with ?a < ?b => match goal with |- ?c < ?d =>
        replace c with a by (field; lra); replace d with b by (field; lra) end end. exact OV'. }
    eapply Rle_lt_trans; [exact V2|]. eapply Rlt_le_trans; [|exact J1].
    set (e := exact_weight x occ' v) in *. set (f := exact_weight x occ' j) in *.
    assert (Y : / 2 ^ 50 = 8 * u64) by (rewrite U; lra). rewrite Y in X.
    apply Rle_lt_trans with ((1 - u64) * ((1 - u64) * ((1 + 8 * u64) * e))).
    - assert (0 <= u64 * e) by nra.
      assert (0 <= u64 * u64 * e <= / 1000 * (u64 * e)) by (split; [|rewrite Rmult_assoc]; nra).
      assert (0 <= u64 * u64 * u64 * e) by (apply Rmult_le_pos; nra). lra.
    - apply Rmult_lt_compat_l; [lra|]. apply Rmult_lt_compat_l; lra. }
  assert (SAME : In j ks -> forall i, In i ks <-> In i ks').
  { intros IJ i. rewrite KS, KS'. destruct (term_eq_dec i j) as [->|NE].
    - split; intros _; [|apply KS; auto]. apply (count_occ_In term_eq_dec). unfold times in MO. lia.
    - rewrite !(count_occ_In term_eq_dec). unfold times in OT. rewrite OT by auto. reflexivity. }
  assert (SUB : forall i, In i (map fst r) -> In i ks).
  { intros i I. rewrite <- (firstn_skipn n ks). apply in_or_app. left. exact (eq_ind _ (fun l => In i l) I _ ER). }
  assert (TOP : In j (map fst r) -> In j (map fst r')).
  { intros I. pose proof (SUB j I) as IJ. pose proof (SAME IJ) as SM.
    assert (LEN : length ks' = length ks).
    { apply Nat.le_antisymm; apply NoDup_incl_length; auto; intros i K; apply SM; auto. }
    assert (n' = n) by (apply Nat2Z.inj; rewrite EN, EN', LEN; reflexivity). subst n'.
    assert (IJ' : In j ks') by (apply SM; auto).
    destruct (in_split _ _ IJ) as (a & b & EA). destruct (in_split _ _ IJ') as (a' & b' & EA').
    assert (LI : (length a < n)%nat) by (apply (firstn_In_pos n ks a b j ND EA); exact (eq_ind _ (fun l => In j l) I _ ER)).
    refine (eq_ind_r (fun l => In j l) _ ER'). apply (firstn_In_pos n ks' a' b' j ND' EA').
    assert (LA : (length a' <= length a)%nat); [|lia]. apply NoDup_incl_length.
    { rewrite EA' in ND'. apply NoDup_remove_1 in ND'. clear - ND'.
      induction a' as [|z a' IH]; constructor; cbn in ND'; inversion ND'; subst; auto.
      intros K. apply H1. apply in_or_app. auto. }
    intros v V. assert (VJ : v <> j) by (intros ->; rewrite EA' in ND'; apply NoDup_remove_2 in ND'; apply ND'; apply in_or_app; auto).
    assert (IV' : In v ks') by (rewrite EA'; apply in_or_app; auto).
    assert (IV : In v ks) by (apply SM; auto).
    rewrite EA in IV. apply in_app_or in IV. destruct IV as [IV|[IV|IV]]; auto; [congruence|]. exfalso.
    assert (B1 : before ks j v).
    { apply in_split in IV. destruct IV as (u & z & ->). exists a, u, z. auto. }
    assert (B2 : before ks' v j).
    { apply in_split in V. destruct V as (u & z & ->). exists u, z, b'. rewrite EA', <- app_assoc. reflexivity. }
    pose proof (WIN v VJ B1 IV' IJ') as Q. destruct (proj2 BF' _ _ B2) as [Z|[Z _]]; lra. }
  split; auto. intros i B I'.
  assert (PRE : exists rest, ks = map fst r ++ rest).
  { exists (skipn n ks). rewrite <- (firstn_skipn n ks) at 1. f_equal. symmetry. exact ER. }
  assert (PRE' : exists rest, ks' = map fst r' ++ rest).
  { exists (skipn n' ks'). rewrite <- (firstn_skipn n' ks') at 1. f_equal. symmetry. exact ER'. }
  destruct PRE as (rest & PRE). destruct PRE' as (rest' & PRE').
  assert (B1 : before ks j i).
  { destruct B as (u & v & z & EB). exists u, v, (z ++ rest). rewrite PRE.
    transitivity ((u ++ j :: v ++ i :: z) ++ rest); [f_equal; exact EB|].
    rewrite <- app_assoc. cbn. rewrite <- app_assoc. reflexivity. }
  assert (NE : i <> j).
  { intros ->. destruct B1 as (u & v & z & EB). rewrite EB in ND. apply NoDup_remove_2 in ND. apply ND.
    apply in_or_app. right. apply in_or_app. right. left. auto. }
  pose proof (before_In _ _ _ B) as [JR _]. pose proof (TOP JR) as JR'.
  assert (SUB' : forall i, In i (map fst r') -> In i ks').
  { intros z Z. rewrite PRE'. apply in_or_app. left. exact Z. }
  pose proof (WIN i NE B1 (SUB' _ I') (SUB' _ JR')) as Q.
  destruct (before_or (map fst r') j i JR' I') as [Z|Z]; [congruence|exact Z|]. exfalso.
  assert (B2 : before ks' i j).
  { destruct Z as (u & v & z & EB). exists u, v, (z ++ rest'). rewrite PRE'.
    transitivity ((u ++ i :: v ++ j :: z) ++ rest'); [f_equal; exact EB|].
    rewrite <- app_assoc. cbn. rewrite <- app_assoc. reflexivity. }
  destruct (proj2 BF' _ _ B2) as [Z'|[Z' _]]; lra.
Qed.

(** two other keywords whose exact weights lie apart by more than a factor of 2^-50 keep
    their order when the occurrences are appended *)
Theorem C117_others_stay_binary64 :
  forall (lg : Z -> b64) (lower : str -> str) (H : hmm (numB lg)) (T : ptables (numB lg)) (ord : orders) (w : pworld)
         (x : tfidf (numB lg)) (s s' : str) (allow : list str) (withFlag : bool) (ts us occ : list term) (j : term) (m : nat),
    log_ok lg -> words_for (numB lg) H T ord w allow s ts -> words_for (numB lg) H T ord w allow s' (ts ++ us) ->
    (Z.of_nat (length (ts ++ us)) <= 2 ^ 48)%Z -> idf_range x ->
    counted lower (tf_stop x) allow withFlag ts occ -> counted lower (tf_stop x) allow withFlag us (repeat j m) ->
    exists r r' : list term,
      snd (extract_tags lower H T ord w x s None false allow withFlag) = Ok (Keys (numB lg) r) /\
      snd (extract_tags lower H T ord w x s' None false allow withFlag) = Ok (Keys (numB lg) r') /\
      (forall i, i <> j -> In i r <-> In i r') /\
      forall i v, i <> j -> v <> j -> In i r -> In v r ->
        (1 + / 2 ^ 50) * exact_weight x occ i < exact_weight x occ v -> before r v i /\ before r' v i.
Proof.
  intros lg lower H T ord w x s s' allow wf ts us occ j m LO W W' L R CT CU.
  assert (CT' : counted lower (tf_stop x) allow wf (ts ++ us) (occ ++ repeat j m)).
  { clear W W' L. induction CT; cbn; auto; [apply counted_yes|apply counted_no]; auto. }
  assert (L0 : (Z.of_nat (length ts) <= 2 ^ 48)%Z) by (rewrite app_length in L; lia).
  destruct (C105_clear_order lg lower H T ord w x s None allow wf ts occ LO W L0 CT R) as (r & E & B).
  destruct (C105_clear_order lg lower H T ord w x s' None allow wf (ts ++ us) _ LO W' L CT' R) as (r' & E' & B').
  destruct (keys_binary64 lg LO lower H T ord w x s None allow wf ts occ W L0 CT R) as (c & ks & q & FO & BF & TP & Q).
  destruct (keys_binary64 lg LO lower H T ord w x s' None allow wf (ts ++ us) _ W' L CT' R) as (c' & ks' & q' & FO' & BF' & TP' & Q').
  apply top_part_all in TP; [|left; auto]. apply top_part_all in TP'; [|left; auto]. subst q q'.
  rewrite map_map in Q, Q'. cbn [fst] in Q, Q'. rewrite map_id in Q, Q'.
  assert (r = ks) by congruence. assert (r' = ks') by congruence. subst r r'. clear Q Q'.
  exists ks, ks'. split; auto. split; auto.
  assert (KS : forall i, In i ks <-> In i occ).
  { intros i. rewrite <- (proj1 (proj2 FO)). split; apply Permutation_in; [apply Permutation_sym|]; apply BF. }
  assert (KS' : forall i, In i ks' <-> In i (occ ++ repeat j m)).
  { intros i. rewrite <- (proj1 (proj2 FO')). split; apply Permutation_in; [apply Permutation_sym|]; apply BF'. }
  assert (SM : forall i, i <> j -> In i ks <-> In i ks').
  { intros i NE. rewrite KS, KS', in_app_iff. split; auto. intros [I|I]; auto. apply repeat_spec in I. congruence. }
  split; auto. intros i v NI NV I V X. split; [apply B; auto; apply KS; auto|].
  apply B'; [apply SM; auto|apply KS'; apply SM; auto|].
  assert (TI : forall i, i <> j -> times i (occ ++ repeat j m) = times i occ).
  { clear. intros i NE. unfold times. rewrite count_occ_app. replace (count_occ term_eq_dec (repeat j m) i) with 0%nat; [lia|].
    induction m; cbn; auto. destruct (term_eq_dec j i); congruence. }
  assert (OV : In v occ) by (apply KS; auto).
  assert (LP : 0 < INR (length occ)) by (apply lt_0_INR; destruct occ; [destruct OV|cbn; lia]).
  assert (LP' : 0 < INR (length (occ ++ repeat j m))) by (apply lt_0_INR; rewrite app_length; destruct occ; [destruct OV|cbn; lia]).
  unfold exact_weight in X |- *. rewrite !TI by auto.
  apply Rmult_lt_compat_r with (r := INR (length occ) / INR (length (occ ++ repeat j m))) in X.
  - match type of X with ?a < ?b => match goal with |- ?c < ?d =>
      replace c with a by (field; lra); replace d with b by (field; lra) end end. exact X.
  - apply Rdiv_lt_0_compat; auto.
Qed.

(** ** A case: 北京 three times and then four times, 来到 four times, 学生 twice and then a stop word *)
Definition kf_w : pworld := mkPW (build [([c_bei; c_jing], 7%Z); ([c_lai; c_dao], 5%Z); ([c_xue; c_sheng], 3%Z)]) [].
Definition kf_x (lg : Z -> b64) (stop : list str) : tfidf (numB lg) :=
  @mkTfidf (numB lg) (@mkIdf (numB lg) [] [] (lit (numB lg) 0)) [] (b64_of (1, 0)%Z : F (numB lg)) stop.
Definition kf_parts (n p : nat) : list str :=
  repeat [c_bei; c_jing] n ++ repeat [c_lai; c_dao] 4 ++ repeat [c_xue; c_sheng] p.
Definition kf_terms (n p : nat) : list (list term) :=
  repeat [TWord [c_bei; c_jing]] n ++ repeat [TWord [c_lai; c_dao]] 4 ++ repeat [TWord [c_xue; c_sheng]] p.

Lemma kf_words (lg : Z -> b64) (lower : str -> str) (H : hmm (numB lg)) (T : ptables (numB lg)) (ord : orders) (n p : nat) :
  words_for (numB lg) H T ord kf_w [] (join_with [32%N] (kf_parts n p)) (joined [] 32%N (kf_terms n p)) /\
  counted lower [] [] false (joined [] 32%N (kf_terms n p)) (concat (kf_terms n p)).
Proof.
  set (bj := [c_bei; c_jing]). set (ld := [c_lai; c_dao]). set (xs := [c_xue; c_sheng]).
  assert (W1 : forall z, z = bj \/ z = ld \/ z = xs -> words_for (numB lg) H T ord kf_w [] z [TWord z]).
  { intros z Z. left. split; auto. exists [z]. split; [destruct Z as [->|[->| ->]]; vm_compute; reflexivity|reflexivity]. }
  assert (C1 : forall z, z = bj \/ z = ld \/ z = xs -> counted lower [] [] false [TWord z] [TWord z]).
  { intros z Z. apply (counted_yes lower [] [] false (TWord z)); [|constructor].
    split; [destruct Z as [->|[->| ->]]; vm_compute; lia|]. split; auto. }
  split.
  - apply words_joined; auto; try discriminate.
    { destruct n; discriminate. }
    apply Forall2_app; [apply repeat_forall2; apply W1; auto|]. apply Forall2_app; apply repeat_forall2; apply W1; auto.
  - apply counted_joined; try discriminate; auto.
    apply Forall2_app; [apply repeat_forall2; apply C1; auto|]. apply Forall2_app; apply repeat_forall2; apply C1; auto.
Qed.

Example C117_nonvacuous_binary64 :
  forall (lg : Z -> b64) (H : hmm (numB lg)) (T : ptables (numB lg)) (ord : orders),
    let lower := fun s : str => s in
    let x := kf_x lg [] in
    let x' := kf_x lg [[c_xue; c_sheng]] in
    exists ts ts' occ occ',
      words_for (numB lg) H T ord kf_w [] (join_with [32%N] (kf_parts 3 2)) ts /\ (Z.of_nat (length ts) <= 2 ^ 48)%Z /\
      words_for (numB lg) H T ord kf_w [] (join_with [32%N] (kf_parts 4 2)) ts' /\ (Z.of_nat (length ts') <= 2 ^ 48)%Z /\
      counted lower (tf_stop x) [] false ts occ /\ counted lower (tf_stop x) [] false ts' occ' /\ idf_range x /\
      (forall i, i <> TWord [c_bei; c_jing] -> times i occ' = times i occ) /\
      (times (TWord [c_bei; c_jing]) occ < times (TWord [c_bei; c_jing]) occ')%nat /\
      tf_freq x' = tf_freq x /\ tf_median x' = tf_median x /\ (forall e, In e (tf_stop x) -> In e (tf_stop x')) /\
      stopped lower (tf_stop x') (TWord [c_bei; c_jing]) = false /\ stopped lower (tf_stop x') (TWord [c_lai; c_dao]) = false /\
      (1 + / 2 ^ 50) * exact_weight x occ (TWord [c_bei; c_jing]) < exact_weight x occ (TWord [c_lai; c_dao]).
Proof.
  intros lg H T ord lower x x'. destruct (kf_words lg lower H T ord 3 2) as (W & CT). destruct (kf_words lg lower H T ord 4 2) as (W' & CT').
  exists (joined [] 32%N (kf_terms 3 2)), (joined [] 32%N (kf_terms 4 2)), (concat (kf_terms 3 2)), (concat (kf_terms 4 2)).
  assert (B1 : B2R (b64_of (1, 0)%Z) = 1) by (vm_compute; lra).
  split; auto. split; [vm_compute; discriminate|]. split; auto. split; [vm_compute; discriminate|].
  split; auto. split; auto. split.
  { intros z. unfold idf_of, x, kf_x. cbn [tf_freq tf_median sget dget]. rewrite B1.
    split; change 1 with (bpow radix2 0); apply bpow_le; lia. }
  split.
  { intros i NE. unfold times. cbn [kf_terms repeat app concat count_occ].
    destruct (term_eq_dec (TWord [c_bei; c_jing]) i) as [E|_]; [congruence|reflexivity]. }
  split; [vm_compute; lia|]. split; auto. split; auto. split; [intros e []|].
  split; [reflexivity|]. split; [reflexivity|].
  unfold exact_weight, idf_of, x, kf_x. cbn [tf_freq tf_median sget dget]. rewrite B1.
  replace (times (TWord [c_bei; c_jing]) (concat (kf_terms 3 2))) with 3%nat by reflexivity.
  replace (times (TWord [c_lai; c_dao]) (concat (kf_terms 3 2))) with 4%nat by reflexivity.
  change (length (concat (kf_terms 3 2))) with 9%nat. cbn [INR]. lra.
Qed.

(** and 学生 a third time *)
Example C117_appended_binary64 :
  forall (lg : Z -> b64) (H : hmm (numB lg)) (T : ptables (numB lg)) (ord : orders),
    let lower := fun s : str => s in
    let x := kf_x lg [] in
    exists ts us occ,
      words_for (numB lg) H T ord kf_w [] (join_with [32%N] (kf_parts 3 2)) ts /\
      words_for (numB lg) H T ord kf_w [] (join_with [32%N] (kf_parts 3 3)) (ts ++ us) /\
      (Z.of_nat (length (ts ++ us)) <= 2 ^ 48)%Z /\ counted lower (tf_stop x) [] false ts occ /\
      counted lower (tf_stop x) [] false us (repeat (TWord [c_xue; c_sheng]) 1) /\
      (1 + / 2 ^ 50) * exact_weight x occ (TWord [c_bei; c_jing]) < exact_weight x occ (TWord [c_lai; c_dao]).
Proof.
  intros lg H T ord lower x. destruct (kf_words lg lower H T ord 3 2) as (W & CT). destruct (kf_words lg lower H T ord 3 3) as (W' & CT').
  exists (joined [] 32%N (kf_terms 3 2)), [TWord [32%N]; TWord [c_xue; c_sheng]], (concat (kf_terms 3 2)).
  split; auto. split; [exact W'|]. split; [vm_compute; discriminate|]. split; auto. split.
  { pose proof (counted_keys lower [] [] false [TWord [32%N]; TWord [c_xue; c_sheng]]) as K. vm_compute in K. vm_compute. exact K. }
  assert (B1 : B2R (b64_of (1, 0)%Z) = 1) by (vm_compute; lra).
  unfold exact_weight, idf_of, x, kf_x. cbn [tf_freq tf_median sget dget]. rewrite B1.
  replace (times (TWord [c_bei; c_jing]) (concat (kf_terms 3 2))) with 3%nat by reflexivity.
  replace (times (TWord [c_lai; c_dao]) (concat (kf_terms 3 2))) with 4%nat by reflexivity.
  change (length (concat (kf_terms 3 2))) with 9%nat. cbn [INR]. lra.
Qed.

Print Assumptions C117_stop_words_binary64.
Print Assumptions C117_more_often_binary64.
Print Assumptions C117_others_stay_binary64.
