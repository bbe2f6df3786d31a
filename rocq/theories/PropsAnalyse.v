(** * Properties of keyword extraction *)
From Coq Require Import Reals Lra Permutation.
From Flocq Require Import BinarySingleNaN.
From Verif Require Import PyBase PyNum SpecNum SpecBase SpecSeg SpecDict SpecHealth ProofsBase ProofsHealth ProofsDemo
  ModelFinalseg ModelSeg ModelDict ModelApi ModelPosseg ModelAnalyse SpecAnalyse SpecPosseg DataPossegOk
  InstR InstB64 InstQ InstExt InstB64Ext InstCount InstRound
  ProofsRank ProofsTfidf ProofsKeywords ProofsIdf ProofsPosLocal PropsCut PropsPosseg Demo DemoPos.

(** every text can be extracted from: the words exist, and there are no more of
    them than characters *)
Lemma concat_length_le {A} (l : list (list A)) : ~ In [] l -> length l <= length (concat l).
Proof.
  induction l as [|x l IH]; cbn; intros N; [lia|]. rewrite app_length.
  destruct x as [|a x]; [exfalso; auto|]. cbn. assert (length l <= length (concat l)) by (apply IH; tauto). lia.
Qed.

Theorem C38_words_exist :
  forall (num : Num) (NI : NumInf num) (H : hmm num) (v : pvalues num) (ord : orders) (w : pworld)
         (allow : list str) (s : str),
    values_ok NI v -> fair_order ord -> sane (sget (d_freq (pw_d w))) (d_total (pw_d w)) ->
    pw_tabs w <> [] -> i_lim NI (2 * length s) ->
    exists ts, words_for num H (shipped num v) ord w allow s ts /\ length ts <= length s.
Proof.
  intros num NI H v ord w allow s V FO SA NE LIM. destruct allow as [|a allow].
  - destruct (C01_accurate_lossless num H true (d_freq (pw_d w)) (d_total (pw_d w)) (d_force (pw_d w)) s SA) as (ws & E & C).
    exists (map TWord ws). split.
    + left. split; auto. exists ws. auto.
    + rewrite map_length, <- C. apply concat_length_le.
      pose proof (C02_no_empty_word num H true (d_freq (pw_d w)) (d_total (pw_d w)) (d_force (pw_d w)) s) as N.
      rewrite E in N. exact N.
  - assert (L : 0 < length (pw_tabs w)) by (destruct (pw_tabs w); [congruence|cbn; lia]).
    destruct (C33_shipped_tables num NI v ord true (nth 0 (pw_tabs (makesure_userdict_loaded w 0)) [])
                (d_freq (pw_d w)) (d_total (pw_d w)) s V FO SA LIM) as (ps & E & C & N).
    exists (map (fun p => TPair (fst p) (snd p)) ps). split.
    + right. split; [discriminate|]. exists ps. split; auto. rewrite pop_cut by auto. rewrite E. auto.
    + rewrite map_length, <- C, <- (map_length fst). apply concat_length_le.
      rewrite Forall_forall in N. intros I. apply in_map_iff in I. destruct I as (p & E' & I).
      apply (N _ I). auto.
Qed.

(** ** C38: the best keywords, in order *)
Theorem C38_best_keywords :
  forall (num : Num) (O : NumOrder num) (C : NumCount num O) (lower : str -> str) (H : hmm num)
         (T : ptables num) (ord : orders) (w : pworld) (x : tfidf num) (s : str) (k : option Z)
         (allow : list str) (withFlag : bool) (ts occ : list term),
    words_for num H T ord w allow s ts -> idf_ok C x -> c_lim C (Z.of_nat (length ts)) ->
    counted lower (tf_stop x) allow withFlag ts occ ->
    exists c all r,
      first_occurrences occ c /\
      best_first (fun jy => o_val O (snd jy)) (map (fun j => (j, tfidf_weight x occ j)) c) all /\
      top_part k all r /\
      snd (extract_tags lower H T ord w x s k true allow withFlag) = Ok (Items num r) /\
      snd (extract_tags lower H T ord w x s k false allow withFlag) = Ok (Keys num (map fst r)).
Proof. exact tfidf_result. Qed.

(** the same in the words of the claim *)
Theorem C38_at_most_k :
  forall (num : Num) (O : NumOrder num) (C : NumCount num O) (lower : str -> str) (H : hmm num)
         (T : ptables num) (ord : orders) (w : pworld) (x : tfidf num) (s : str) (k : Z)
         (allow : list str) (withFlag : bool) (ts occ : list term),
    words_for num H T ord w allow s ts -> idf_ok C x -> c_lim C (Z.of_nat (length ts)) ->
    counted lower (tf_stop x) allow withFlag ts occ -> (0 < k)%Z ->
    exists r,
      snd (extract_tags lower H T ord w x s (Some k) true allow withFlag) = Ok (Items num r) /\
      (Z.of_nat (length r) <= k)%Z /\ NoDup (map fst r) /\
      (forall a b, before r a b -> (o_val O (snd b) <= o_val O (snd a))%R) /\
      (forall j a, In j occ -> ~ In j (map fst r) -> In a r ->
         (o_val O (tfidf_weight x occ j) <= o_val O (snd a))%R) /\
      ((Z.of_nat (length r) < k)%Z -> forall j, In j occ -> In j (map fst r)).
Proof.
  intros num O C lower H T ord w x s k allow withFlag ts occ W I L CT K.
  destruct (tfidf_result num O C lower H T ord w x s (Some k) allow withFlag ts occ W I L CT)
    as (c & all & r & FO & BF & TP & E & _).
  exists r. split; auto. split; [eapply top_part_le; eauto|].
  assert (ND : NoDup (map fst (map (fun j => (j, tfidf_weight x occ j)) c))).
  { rewrite map_map. cbn. rewrite map_id. apply FO. }
  assert (M : forall j, In j occ -> In (j, tfidf_weight x occ j) all).
  { intros j J. apply (best_first_In _ _ _ _ BF). apply in_map_iff. exists j. split; auto. apply FO. auto. }
  split; [|split; [|split]].
  - eapply top_part_nodup; eauto. eapply best_first_nodup; eauto.
  - intros a b B. destruct TP as (rest & -> & _). destruct BF as [_ BF].
    destruct (BF a b) as [LT|[EQ _]]; try lra.
    destruct B as (u & v & z & ->). exists u, v, (z ++ rest). rewrite <- app_assoc. cbn. rewrite <- app_assoc. auto.
  - intros j a J NJ A. pose proof (M j J) as MJ.
    assert (NR : ~ In (j, tfidf_weight x occ j) r) by (intros Q; apply (in_map fst) in Q; auto).
    pose proof (top_part_before _ _ _ _ _ TP A MJ NR) as B. destruct BF as [_ BF].
    destruct (BF _ _ B) as [LT|[EQ _]]; cbn in *; lra.
  - intros LT j J. pose proof (M j J) as MJ. destruct TP as (rest & -> & LE).
    destruct (Z.eqb_spec k 0); [lia|]. rewrite (proj2 (Z.ltb_lt 0 k) K) in LE. rewrite app_length in LE.
    destruct rest; [|cbn in LE; lia]. rewrite app_nil_r in MJ. apply (in_map fst) in MJ. exact MJ.
Qed.

(** with binary64 numbers and the tables that come with jieba *)
Theorem C38_binary64 :
  forall (lg : Z -> b64) (LO : log_ok lg) (lower : str -> str) (H : hmm (numB lg)) (v : pvalues (numB lg))
         (ord : orders) (w : pworld) (x : tfidf (numB lg)) (s : str) (k : option Z)
         (allow : list str) (withFlag : bool),
    values_ok (infB lg) v -> fair_order ord -> sane (sget (d_freq (pw_d w))) (d_total (pw_d w)) ->
    pw_tabs w <> [] -> (Z.of_nat (length s) <= 2 ^ 49)%Z ->
    (forall y, not_nan (idf_of x y : b64)) ->
    exists ts occ c all r,
      words_for (numB lg) H (shipped (numB lg) v) ord w allow s ts /\
      counted lower (tf_stop x) allow withFlag ts occ /\
      first_occurrences occ c /\
      best_first (fun jy => bval (snd jy : b64)) (map (fun j => (j, tfidf_weight x occ j)) c) all /\
      top_part k all r /\
      snd (extract_tags lower H (shipped (numB lg) v) ord w x s k true allow withFlag) = Ok (Items (numB lg) r) /\
      snd (extract_tags lower H (shipped (numB lg) v) ord w x s k false allow withFlag) = Ok (Keys (numB lg) (map fst r)).
Proof.
  intros lg LO lower H v ord w x s k allow withFlag V FO SA NE LIM NN.
  destruct (C38_words_exist (numB lg) (infB lg) H v ord w allow s V FO SA NE) as (ts & W & L).
  { cbn [i_lim infB]. unfold blim. lia. }
  destruct (counted_ex lower (tf_stop x) allow withFlag ts) as (occ & CT).
  destruct (tfidf_result (numB lg) (orderB lg LO) (countB lg LO) lower H (shipped (numB lg) v) ord w x s k allow withFlag ts occ W)
    as (c & all & r & Q); auto.
  { cbn [c_lim countB]. lia. }
  exists ts, occ, c, all, r. auto.
Qed.

(** ** C39: which words are candidates *)
Theorem C39_candidates :
  forall (num : Num) (O : NumOrder num) (C : NumCount num O) (lower : str -> str) (H : hmm num)
         (T : ptables num) (ord : orders) (w : pworld) (x : tfidf num) (s : str)
         (allow : list str) (withFlag : bool) (ts : list term),
    words_for num H T ord w allow s ts -> idf_ok C x -> c_lim C (Z.of_nat (length ts)) ->
    exists l,
      snd (extract_tags lower H T ord w x s None false allow withFlag) = Ok (Keys num l) /\ NoDup l /\
      forall j, In j l <->
        exists t, In t ts /\ j = named allow withFlag t /\
          2 <= length (filter (fun c => negb (is_space c)) (term_word t)) /\
          ~ In (lower (term_word t)) (tf_stop x) /\
          (allow = [] \/ exists word flag, t = TPair word flag /\ In flag allow).
Proof.
  intros num O C lower H T ord w x s allow withFlag ts W I L.
  destruct (counted_ex lower (tf_stop x) allow withFlag ts) as (occ & CT).
  destruct (tfidf_result num O C lower H T ord w x s None allow withFlag ts occ W I L CT)
    as (c & all & r & FO & BF & TP & _ & E).
  exists (map fst r). split; auto. apply top_part_all in TP; auto. subst r.
  assert (K : forall j, In j (map fst all) <-> In j c).
  { intros j. transitivity (In j (map fst (map (fun j => (j, tfidf_weight x occ j)) c))).
    - rewrite !in_map_iff. split; intros (a & E1 & E2); exists a; (split; auto); apply (best_first_In _ _ _ _ BF); auto.
    - rewrite map_map. cbn. rewrite map_id. tauto. }
  split.
  - eapply best_first_nodup; eauto. rewrite map_map. cbn. rewrite map_id. apply FO.
  - intros j. rewrite K. destruct FO as (_ & FO & _). rewrite FO.
    rewrite (counted_In lower (tf_stop x) allow withFlag ts occ j CT). unfold counts, two_chars.
    split; intros (t & Q); exists t; tauto.
Qed.

(** ** C40: the weights *)
Theorem C40_weights :
  forall (num : Num) (O : NumOrder num) (C : NumCount num O) (lower : str -> str) (H : hmm num)
         (T : ptables num) (ord : orders) (w : pworld) (x : tfidf num) (s : str) (k : option Z)
         (allow : list str) (withFlag : bool) (ts occ : list term),
    words_for num H T ord w allow s ts -> idf_ok C x -> c_lim C (Z.of_nat (length ts)) ->
    counted lower (tf_stop x) allow withFlag ts occ ->
    exists r, snd (extract_tags lower H T ord w x s k true allow withFlag) = Ok (Items num r) /\
      forall j y, In (j, y) r ->
        y = f_mul num (lit num (Z.of_nat (count_occ term_eq_dec occ j)))
              (f_div num (match sget (tf_freq x) (term_word j) with Some v => v | None => tf_median x end)
                         (lit num (Z.of_nat (length occ)))).
Proof.
  intros num O C lower H T ord w x s k allow withFlag ts occ W I L CT.
  destruct (tfidf_result num O C lower H T ord w x s k allow withFlag ts occ W I L CT)
    as (c & all & r & FO & BF & TP & E & _).
  exists r. split; auto. intros j y J. apply (top_part_In _ _ _ _ TP) in J.
  apply (best_first_In _ _ _ _ BF) in J. apply in_map_iff in J. destruct J as (i & Q & _).
  injection Q as -> <-. reflexivity.
Qed.

(** in exact arithmetic *)
Theorem C40_exact :
  forall (lower : str -> str) (H : hmm numX) (T : ptables numX) (ord : orders) (w : pworld)
         (x : tfidf numX) (idf : str -> R) (s : str) (k : option Z)
         (allow : list str) (withFlag : bool) (ts occ : list term),
    words_for numX H T ord w allow s ts ->
    (forall y, match sget (tf_freq x) y with Some v => v | None => tf_median x end = Some (idf y)) ->
    counted lower (tf_stop x) allow withFlag ts occ ->
    exists r, snd (extract_tags lower H T ord w x s k true allow withFlag) = Ok (Items numX r) /\
      forall j y, In (j, y) r ->
        y = Some (INR (count_occ term_eq_dec occ j) * idf (term_word j) / INR (length occ))%R.
Proof.
  intros lower H T ord w x idf s k allow withFlag ts occ W D CT.
  destruct (C40_weights numX orderX countX lower H T ord w x s k allow withFlag ts occ W) as (r & E & A); auto.
  - intros y. unfold idf_of. rewrite D. exact I.
  - exact I.
  - exists r. split; auto. intros j y J. rewrite (A _ _ J), D. cbn. f_equal.
    rewrite !INR_IZR_INZ. unfold Rdiv. ring.
Qed.

(** a text, a dictionary with tags, and an IDF table for the examples:
    来到北京大学生，北京THE AB来到北京 *)
Definition lowerA (s : str) : str :=
  map (fun c => if ((65 <=? c) && (c <=? 90))%N then (c + 32)%N else c) s.
Definition hmmE : hmm numE := @mkHmm numE (fun _ => None) (fun _ _ => None) (fun _ _ => None).
Definition ana_w : pworld := mkPW demo [demo_tab].
Definition q (z : Z) : F numE := Some (QArith_base.inject_Z z).
Definition ana_x : tfidf numE :=
  @mkTfidf numE (@mkIdf numE [] [] (q 0))
    [([c_bei; c_jing], q 2); ([c_da; c_xue; c_sheng], q 3)] (q 2) stop_words_default.
Definition ana_text : str :=
  [c_lai; c_dao; c_bei; c_jing; c_da; c_xue; c_sheng; c_comma; c_bei; c_jing;
   84; 72; 69; 32; 65; 66; c_lai; c_dao; c_bei; c_jing]%N.
Definition countE : NumCount numE orderE := ext_count numQ orderQ (fun _ => I) countQ (fun n => ltac:(discriminate)).
Definition ana_words : list (list N) :=
  [[c_lai; c_dao]; [c_bei; c_jing]; [c_da; c_xue; c_sheng]; [c_comma]; [c_bei; c_jing];
   [84; 72; 69]; [32]; [65; 66]; [c_lai; c_dao]; [c_bei; c_jing]]%N.
Definition ana_tags : list str :=
  [[118]; s_ns; [120]; [120]; s_ns; [101; 110; 103]; [120]; [101; 110; 103]; [118]; s_ns]%N.

Lemma ana_idf_ok : idf_ok countE ana_x.
Proof.
  intros y. unfold idf_of, ana_x, q. cbn -[QArith_base.inject_Z str_eqb].
  destruct (str_eqb y [c_bei; c_jing]); [exact I|]. destruct (str_eqb y [c_da; c_xue; c_sheng]); exact I.
Qed.

(** the items of a result *)
Definition shown (r : res (tags numE)) : option (list (term * option QArith_base.Q)) :=
  match r with Ok (Items _ l) => Some l | _ => None end.

Example C38_nonvacuous :
  words_for numE hmmE demo_T demo_ord ana_w [] ana_text (map TWord ana_words) /\
  idf_ok countE ana_x /\ c_lim countE (Z.of_nat (length ana_words)) /\
  shown (snd (extract_tags lowerA hmmE demo_T demo_ord ana_w ana_x ana_text (Some 3%Z) true [] false)) =
    Some [(TWord [c_bei; c_jing], Some (QArith_base.Qmake 6 7));
          (TWord [c_lai; c_dao], Some (QArith_base.Qmake 4 7));
          (TWord [c_da; c_xue; c_sheng], Some (QArith_base.Qmake 3 7))].
Proof.
  split; [|split; [|split]].
  - left. split; [reflexivity|]. exists ana_words. split; [vm_compute; reflexivity|reflexivity].
  - exact ana_idf_ok.
  - exact I.
  - vm_compute. reflexivity.
Qed.

Example C39_nonvacuous :
  let allow := [s_ns; s_n; [118]%N] in
  words_for numE hmmE demo_T demo_ord ana_w allow ana_text
    (map (fun p => TPair (fst p) (snd p)) (combine ana_words ana_tags)) /\
  shown (snd (extract_tags lowerA hmmE demo_T demo_ord ana_w ana_x ana_text None true allow true)) =
    Some [(TPair [c_bei; c_jing] s_ns, Some (QArith_base.Qmake 6 5));
          (TPair [c_lai; c_dao] [118]%N, Some (QArith_base.Qmake 4 5))].
Proof.
  intros allow. split; [|vm_compute; reflexivity].
  right. split; [discriminate|]. exists (combine ana_words ana_tags). split; [vm_compute; reflexivity|reflexivity].
Qed.

Example C40_nonvacuous :
  counted lowerA (tf_stop ana_x) [] false (map TWord ana_words)
    (map TWord [[c_lai; c_dao]; [c_bei; c_jing]; [c_da; c_xue; c_sheng]; [c_bei; c_jing];
                [65; 66]; [c_lai; c_dao]; [c_bei; c_jing]]%N).
Proof.
  pose proof (counted_keys lowerA (tf_stop ana_x) [] false (map TWord ana_words)) as K.
  vm_compute in K. vm_compute. exact K.
Qed.

(** ** C41-C43: TextRank

    The size condition is about rounding: in exact arithmetic there is none, in
    binary64 the number of words times the span may be up to 2^46. *)
Theorem C41_weights :
  forall (num : Num) (O : NumOrder num) (Q : NumRound num O) (lower : str -> str)
         (x : textrank) (words : list tagged) (allow : list str) (withFlag : bool),
    (2 * INR (length words * tr_span x) + 10 <= r_G Q)%R ->
    exists d, textrank_words num lower x words allow withFlag = Ok d /\
      (forall n y, In (n, y) d -> o_fin O y /\ (0 < o_val O y <= 1)%R) /\
      (d <> [] -> exists n y, In (n, y) d /\ o_val O y = 1%R).
Proof.
  intros num O Q lower x words allow wf B. destruct (words_rank num O Q lower x words allow wf B) as (d & E & _ & _ & R1 & R2).
  exists d. auto.
Qed.

Lemma any_range (r : R) : exists G, (100 <= G)%R /\ (r <= G)%R.
Proof. exists (Rmax 100 r). split; [apply Rmax_l|apply Rmax_r]. Qed.

(** [Some y]: not minus infinity *)
Theorem C41_exact :
  forall (lower : str -> str) (x : textrank) (words : list tagged) (allow : list str) (withFlag : bool),
    exists d : list (term * option R), textrank_words numX lower x words allow withFlag = Ok d /\
      (forall n v, In (n, v) d -> exists y, v = Some y /\ (0 < y <= 1)%R) /\
      (d <> [] -> exists n, In (n, Some 1%R) d).
Proof.
  intros lower x words allow wf.
  destruct (any_range (2 * INR (length words * tr_span x) + 10)) as (G & G1 & G2).
  destruct (C41_weights numX orderX (roundX G G1) lower x words allow wf G2) as (d & E & R1 & R2).
  exists d. split; auto. split.
  - intros n v I. destruct (R1 _ _ I) as [FI B]. destruct v as [y|]; [|cbn in FI; congruence]. exists y. auto.
  - intros NE. destruct (R2 NE) as (n & v & I & V). destruct (R1 _ _ I) as [FI B].
    destruct v as [y|]; [|cbn in FI; congruence]. cbn in V. subst y. exists n. auto.
Qed.

Theorem C41_binary64 :
  forall (lg : Z -> b64) (lower : str -> str) (x : textrank) (words : list tagged)
         (allow : list str) (withFlag : bool),
    log_ok lg -> (Z.of_nat (length words * tr_span x) <= 2 ^ 46)%Z ->
    exists d : list (term * b64), textrank_words (numB lg) lower x words allow withFlag = Ok d /\
      (forall n y, In (n, y) d -> is_finite y = true /\ (0 < B2R y <= 1)%R) /\
      (d <> [] -> exists n y, In (n, y) d /\ B2R y = 1%R).
Proof.
  intros lg lower x words allow wf LO L.
  destruct (C41_weights (numB lg) (orderB lg LO) (roundB lg LO) lower x words allow wf) as (d & E & R1 & R2).
  - change (r_G (roundB lg LO)) with (IZR (2 ^ 48)). rewrite INR_IZR_INZ, <- mult_IZR, <- plus_IZR.
    apply IZR_le. lia.
  - exists d. split; auto. split.
    + intros n y I. destruct (R1 _ _ I) as [FI B]. split; auto. cbn [o_val orderB] in B.
      rewrite bval_finite in B; auto.
    + intros NE. destruct (R2 NE) as (n & y & I & V). destruct (R1 _ _ I) as [FI B]. exists n, y. split; auto.
      cbn [o_val orderB] in V. rewrite bval_finite in V; auto.
Qed.

Theorem C42_best_keywords :
  forall (num : Num) (O : NumOrder num) (Q : NumRound num O) (lower : str -> str) (H : hmm num)
         (T : ptables num) (ord : orders) (w : pworld) (x : textrank) (s : str) (k : option Z)
         (allow : list str) (withFlag : bool) (words : list tagged),
    snd (do_pop num H T ord w (PCut 0 true s)) = PWords (gof words) ->
    (2 * INR (length words * tr_span x) + 10 <= r_G Q)%R ->
    exists d all r, textrank_words num lower x words allow withFlag = Ok d /\ NoDup (map fst d) /\
      best_first (fun jy => o_val O (snd jy)) d all /\ top_part k all r /\
      snd (textrank_tags lower H T ord w x s k true allow withFlag) = Ok (Items num r) /\
      snd (textrank_tags lower H T ord w x s k false allow withFlag) = Ok (Keys num (map fst r)).
Proof.
  intros num O Q lower H T ord w x s k allow wf words W B.
  destruct (textrank_result num O Q lower H T ord w x s k allow wf words W B)
    as (d & all & r & ND & _ & _ & _ & BF & TP & E & E1 & E2).
  exists d, all, r. auto 8.
Qed.

(** with binary64 numbers and the tables that come with jieba *)
Theorem C42_binary64 :
  forall (lg : Z -> b64) (LO : log_ok lg) (lower : str -> str) (H : hmm (numB lg)) (v : pvalues (numB lg))
         (ord : orders) (w : pworld) (x : textrank) (s : str) (k : Z) (allow : list str) (withFlag : bool),
    values_ok (infB lg) v -> fair_order ord -> sane (sget (d_freq (pw_d w))) (d_total (pw_d w)) ->
    pw_tabs w <> [] -> (Z.of_nat (length s) * Z.of_nat (tr_span x) <= 2 ^ 46)%Z ->
    (Z.of_nat (length s) <= 2 ^ 49)%Z -> (0 < k)%Z ->
    exists words (d r : list (term * b64)),
      snd (do_pop (numB lg) H (shipped (numB lg) v) ord w (PCut 0 true s)) = PWords (gof words) /\
      textrank_words (numB lg) lower x words allow withFlag = Ok d /\
      snd (textrank_tags lower H (shipped (numB lg) v) ord w x s (Some k) true allow withFlag) = Ok (Items (numB lg) r) /\
      snd (textrank_tags lower H (shipped (numB lg) v) ord w x s (Some k) false allow withFlag) = Ok (Keys (numB lg) (map fst r)) /\
      (Z.of_nat (length r) <= k)%Z /\ NoDup (map fst r) /\ (forall a, In a r -> In a d) /\
      (forall a b, before r a b -> (B2R (snd b) <= B2R (snd a))%R) /\
      (forall a b, In a r -> In b d -> ~ In b r -> (B2R (snd b) <= B2R (snd a))%R) /\
      ((Z.of_nat (length r) < k)%Z -> forall a, In a d -> In a r).
Proof.
  intros lg LO lower H v ord w x s k allow wf V FO SA NE LIM LIM2 K.
  destruct (C38_words_exist (numB lg) (infB lg) H v ord w [[]] s V FO SA NE) as (ts & W & L).
  { cbn [i_lim infB]. unfold blim. lia. }
  destruct W as [[? _]|[_ (words & W & ->)]]; [discriminate|]. rewrite map_length in L.
  destruct (textrank_result (numB lg) (orderB lg LO) (roundB lg LO) lower H (shipped (numB lg) v) ord w x s (Some k) allow wf words W)
    as (d & all & r & ND & _ & R1 & _ & BF & TP & E & E1 & E2).
  { change (r_G (roundB lg LO)) with (IZR (2 ^ 48)). rewrite INR_IZR_INZ, <- mult_IZR, <- plus_IZR.
    apply IZR_le. rewrite Nat2Z.inj_mul.
    assert (Z.of_nat (length words) * Z.of_nat (tr_span x) <= Z.of_nat (length s) * Z.of_nat (tr_span x))%Z
      by (apply Z.mul_le_mono_nonneg_r; [apply Nat2Z.is_nonneg|apply Nat2Z.inj_le; exact L]).
    lia. }
  exists words, d, r. split; auto. split; auto. split; auto. split; auto.
  assert (FIN : forall a, In a all -> is_finite (snd a : b64) = true).
  { intros [n y] I. apply (best_first_In _ _ _ _ BF) in I. apply (R1 _ _ I). }
  assert (LE : forall a b, before all a b -> (B2R (snd b : b64) <= B2R (snd a : b64))%R).
  { intros a b B. assert (IA : In a all /\ In b all).
    { destruct B as (u & m & z & ->). split; apply in_or_app; right; [left; auto|].
      right. apply in_or_app. right. left. auto. }
    destruct IA as [IA IB]. destruct BF as [_ BF]. specialize (BF _ _ B). cbn [o_val orderB] in BF.
    rewrite !bval_finite in BF by auto. destruct BF as [?|[? _]]; lra. }
  split; [eapply top_part_le; eauto|]. split; [|split; [|split; [|split]]].
  - eapply top_part_nodup; eauto. eapply best_first_nodup; eauto.
  - intros a I. apply (best_first_In _ _ _ _ BF). eapply top_part_In; eauto.
  - intros a b B. apply LE. destruct TP as (rest & -> & _).
    destruct B as (u & m & z & ->). exists u, m, (z ++ rest). rewrite <- app_assoc. cbn. rewrite <- app_assoc. auto.
  - intros a b A B NB. apply LE. eapply top_part_before; eauto. apply (best_first_In _ _ _ _ BF). auto.
  - intros LT a A. apply (best_first_In _ _ _ _ BF) in A. destruct TP as (rest & -> & LL).
    destruct (Z.eqb_spec k 0); [lia|]. rewrite (proj2 (Z.ltb_lt 0 k) K) in LL. rewrite app_length in LL.
    destruct rest; [|cbn in LL; lia]. rewrite app_nil_r in A. exact A.
Qed.

Theorem C43_candidates :
  forall (num : Num) (O : NumOrder num) (Q : NumRound num O) (lower : str -> str) (H : hmm num)
         (T : ptables num) (ord : orders) (w : pworld) (x : textrank) (s : str)
         (allow : list str) (withFlag : bool) (words : list tagged),
    snd (do_pop num H T ord w (PCut 0 true s)) = PWords (gof words) ->
    (2 * INR (length words * tr_span x) + 10 <= r_G Q)%R ->
    exists l, snd (textrank_tags lower H T ord w x s None false allow withFlag) = Ok (Keys num l) /\
      NoDup l /\
      forall n, In n l <->
        exists i j p q, nth_error words i = Some p /\ nth_error words j = Some q /\ i < j < i + tr_span x /\
          passes lower (tr_stop x) allow p /\ passes lower (tr_stop x) allow q /\
          (n = ranked_as allow withFlag p \/ n = ranked_as allow withFlag q).
Proof.
  intros num O Q lower H T ord w x s allow wf words W B.
  destruct (textrank_result num O Q lower H T ord w x s None allow wf words W B)
    as (d & all & r & ND & K & _ & _ & BF & TP & _ & _ & E).
  apply top_part_all in TP; auto. subst r. exists (map fst all). split; auto. split.
  - eapply best_first_nodup; eauto.
  - intros n. fold (ranked lower (tr_stop x) allow (tr_span x) wf words n). rewrite <- K.
    rewrite !in_map_iff. split; intros (a & E1 & E2); exists a; (split; auto); apply (best_first_In _ _ _ _ BF); auto.
Qed.

Example C41_C43_nonvacuous :
  let allow := [s_ns; s_n; [118]%N] in
  snd (do_pop numE hmmE demo_T demo_ord ana_w (PCut 0 true ana_text)) = PWords (gof (combine ana_words ana_tags)) /\
  passes lowerA (tr_stop textrank_init) allow ([c_bei; c_jing], s_ns) /\
  shown (snd (textrank_tags lowerA hmmE demo_T demo_ord ana_w textrank_init ana_text None true allow true)) =
    Some [(TPair [c_bei; c_jing] s_ns, Some (QArith_base.Qmake 1 1));
          (TPair [c_lai; c_dao] [118]%N, Some (QArith_base.Qmake 733174938688564759797333 1085075213391266843285263))].
Proof.
  split; [vm_compute; reflexivity|]. split; [|vm_compute; reflexivity].
  split; [cbn; auto|]. split; [unfold two_chars; vm_compute; lia|]. vm_compute. intuition discriminate.
Qed.

(** ** C53: loading an IDF table *)
Theorem C53_idf_table :
  forall (num : Num) (O : NumOrder num) (float_of : str -> option (F num)) (x : tfidf num) (path : str)
         (b : bytes) (text : str) (es : list (str * F num)),
    il_path (tf_loader x) <> path -> utf8_decode b = Some text ->
    Forall2 (idf_line float_of) (splitlines text) es -> es <> [] -> Forall (fun e => o_dom O (snd e)) es ->
    exists x', set_idf_path float_of x path (Some b) = (x', None) /\
      (forall w v, sget (tf_freq x') w = Some v <-> last_value es w v) /\
      (exists vs, word_values es vs /\ upper_median (o_val O) vs (tf_median x')) /\
      tf_stop x' = tf_stop x.
Proof.
  intros num O float_of x path b text es P D F2 NE DOM.
  assert (VS : Forall (o_dom O) (map snd (table num es []))).
  { rewrite Forall_forall. intros v I. apply in_map_iff in I. destruct I as ([w y] & <- & I). cbn.
    apply (In_dget _ str_eqb_eq _ _ _ (proj1 (table_keys num es))) in I. apply table_get in I.
    destruct I as (a & r & -> & _). rewrite Forall_app in DOM. destruct DOM as [_ DOM]. inversion DOM; auto. }
  assert (TN : table num es [] <> []).
  { intros E. apply NE. eapply word_values_nil; [apply table_values|]. rewrite E. auto. }
  destruct (median_ok num O _ TN VS) as (m & E & UM).
  exists (@mkTfidf num (@mkIdf num path (table num es []) m) (table num es []) m (tf_stop x)).
  split; [|split; [|split]].
  - unfold set_idf_path, set_new_path. rewrite (proj2 (str_eqb_neq _ _) P), D.
    rewrite (idf_lines_ok num float_of _ es [] F2), E. reflexivity.
  - intros w v. apply table_get.
  - exists (map snd (table num es [])). split; auto. apply table_values.
  - reflexivity.
Qed.

Theorem C53_empty_file :
  forall (num : Num) (float_of : str -> option (F num)) (x : tfidf num) (path : str),
    il_path (tf_loader x) <> path ->
    snd (set_idf_path float_of x path (Some [])) = Some IndexError.
Proof.
  intros num float_of x path P. unfold set_idf_path, set_new_path. rewrite (proj2 (str_eqb_neq _ _) P). reflexivity.
Qed.

Theorem C53_malformed_file :
  forall (num : Num) (float_of : str -> option (F num)) (x : tfidf num) (path : str) (b : bytes),
    il_path (tf_loader x) <> path ->
    (forall text es, utf8_decode b = Some text -> ~ Forall2 (idf_line float_of) (splitlines text) es) ->
    snd (set_idf_path float_of x path (Some b)) = Some ValueError.
Proof.
  intros num float_of x path b P M. unfold set_idf_path, set_new_path. rewrite (proj2 (str_eqb_neq _ _) P).
  destruct (utf8_decode b) as [text|]; [|reflexivity].
  destruct (idf_lines_bad num float_of (splitlines text) []) as [(es & F2)|(pre & line & post & es & _ & _ & _ & ->)].
  - destruct (M text es eq_refl F2).
  - reflexivity.
Qed.

(** "北京 3\n大学 5\n北京 4\n" with whole numbers *)
Definition digit_of (s : str) : option (F numE) :=
  match s with [c] => if ((48 <=? c) && (c <=? 57))%N then Some (q (Z.of_N (c - 48))) else None | _ => None end.
Definition idf_bytes : bytes :=
  [0xE5; 0x8C; 0x97; 0xE4; 0xBA; 0xAC; 32; 51; 10; 0xE5; 0xA4; 0xA7; 0xE5; 0xAD; 0xA6; 32; 53; 10;
   0xE5; 0x8C; 0x97; 0xE4; 0xBA; 0xAC; 32; 52; 10]%N.
Example C53_nonvacuous :
  exists text,
    utf8_decode idf_bytes = Some text /\
    Forall2 (idf_line digit_of) (splitlines text)
      [([c_bei; c_jing], q 3); ([c_da; c_xue], q 5); ([c_bei; c_jing], q 4)] /\
    let x' := fst (set_idf_path digit_of ana_x [97]%N (Some idf_bytes)) in
    tf_freq x' = [([c_bei; c_jing], q 4); ([c_da; c_xue], q 5)] /\ tf_median x' = q 5.
Proof.
  exists [c_bei; c_jing; 32; 51; 10; c_da; c_xue; 32; 53; 10; c_bei; c_jing; 32; 52; 10]%N.
  split; [vm_compute; reflexivity|]. split; [|split; vm_compute; reflexivity].
  change (splitlines _) with [[c_bei; c_jing; 32; 51]; [c_da; c_xue; 32; 53]; [c_bei; c_jing; 32; 52]]%N.
  repeat constructor; apply idf_line_split; eexists; (split; [vm_compute; reflexivity|reflexivity]).
Qed.

(** ** C65: an IDF file that cannot be loaded

    The call raises and extraction goes on as before.  But the path counts as
    loaded: calling again with it reads nothing, whatever the file has become, and
    installs the entries before the malformed line with the old default. *)
Theorem C65_failed_load_changes_nothing :
  forall (num : Num) (float_of : str -> option (F num)) (x : tfidf num) (path : str) (content : option bytes),
    snd (set_idf_path float_of x path content) <> None ->
    let x1 := fst (set_idf_path float_of x path content) in
    forall lower H T ord w s k withWeight allow withFlag,
      extract_tags lower H T ord w x1 s k withWeight allow withFlag =
      extract_tags lower H T ord w x s k withWeight allow withFlag.
Proof.
  intros num float_of x path content N x1 lower H T ord w s k ww allow wf.
  assert (E : tf_freq x1 = tf_freq x /\ tf_median x1 = tf_median x /\ tf_stop x1 = tf_stop x).
  { unfold x1 in *. unfold set_idf_path in *. destruct content as [b|]; [|auto].
    destruct (set_new_path float_of (tf_loader x) path (Some b)) as [L [e|]]; cbn in *; [auto|congruence]. }
  destruct E as (E1 & E2 & E3). unfold extract_tags. destruct (tfidf_words H T ord w allow s) as [w' g].
  f_equal. destruct (g_list g) as [ts|]; cbn; auto. unfold tfidf_weights. rewrite E3.
  assert (SC : forall total freq, tfidf_scale x1 total freq = tfidf_scale x total freq).
  { intros total. induction freq as [|[j n] freq IH]; cbn; auto. rewrite E1, E2, IH. auto. }
  rewrite SC. auto.
Qed.

Theorem C65_second_call_reads_nothing :
  forall (num : Num) (float_of : str -> option (F num)) (x : tfidf num) (path : str) (b b2 : bytes)
         (text : str) (pre post : list str) (line : str) (es : list (str * F num)),
    il_path (tf_loader x) <> path -> utf8_decode b = Some text ->
    splitlines text = pre ++ line :: post -> Forall2 (idf_line float_of) pre es ->
    (forall e, ~ idf_line float_of line e) ->
    let x1 := fst (set_idf_path float_of x path (Some b)) in
    snd (set_idf_path float_of x path (Some b)) = Some ValueError /\
    exists x2, set_idf_path float_of x1 path (Some b2) = (x2, None) /\
      (forall w v, sget (tf_freq x2) w = Some v <-> last_value es w v) /\
      tf_median x2 = il_median (tf_loader x).
Proof.
  intros num float_of x path b b2 text pre post line es P D SL F2 BAD.
  destruct (idf_lines_bad num float_of (splitlines text) []) as [(es' & F2')|(pre' & line' & post' & es' & SL' & F2' & BAD' & E)].
  - exfalso. rewrite SL in F2'. apply Forall2_app_inv_l in F2'. destruct F2' as (l1 & l2 & _ & F2' & _).
    inversion F2'; subst. eapply BAD; eauto.
  - assert (SAME : es' = es).
    { rewrite SL in SL'. clear -SL' F2 F2' BAD BAD'. revert pre' es es' SL' F2 F2'.
      induction pre as [|l pre IH]; intros [|l' pre'] es es' SL' F2 F2'; cbn in SL'; injection SL' as <- SL'.
      - inversion F2; inversion F2'; auto.
      - inversion F2'; subst. destruct (BAD y); auto.
      - inversion F2; subst. destruct (BAD' y); auto.
      - inversion F2 as [|? e1 ? es1 A1 B1]; inversion F2' as [|? e2 ? es2 A2 B2]; subst. f_equal.
        + apply idf_line_split in A1. apply idf_line_split in A2.
          destruct A1 as (f1 & S1 & V1), A2 as (f2 & S2 & V2). rewrite S1 in S2. injection S2 as E1 ->.
          destruct e1, e2. cbn in *. congruence.
        + eapply IH; eauto. }
    subst es'. unfold set_idf_path, set_new_path. rewrite (proj2 (str_eqb_neq _ _) P), D, E.
    cbn [snd fst tf_loader il_path]. rewrite str_eqb_refl. split; auto.
    eexists. split; [reflexivity|]. split; [|reflexivity]. intros w v. apply table_get.
Qed.

Example C65_nonvacuous :
  let bad := [97; 32; 51; 10; 98; 10; 99; 32; 53]%N in     (* "a 3\nb\nc 5" *)
  let '(x1, e) := set_idf_path digit_of ana_x [97]%N (Some bad) in
  let '(x2, e2) := set_idf_path digit_of x1 [97]%N (Some idf_bytes) in
  e = Some ValueError /\ tf_freq x1 = tf_freq ana_x /\ e2 = None /\ tf_freq x2 = [([97]%N, q 3)].
Proof. vm_compute. auto. Qed.

(** ** C66: stop words

    The lines of the file are added as they are to both extractors; words are looked
    up in lower case, so an entry that is not in lower case has no effect. *)
Theorem C66_stop_words :
  forall (num : Num) (lower : str -> str) (x : tfidf num) (y : textrank) (b : bytes) (text : str),
    utf8_decode b = Some text ->
    exists x' y', mod_set_stop_words x y (Some b) = (x', y', None) /\
      tf_freq x' = tf_freq x /\ tf_median x' = tf_median x /\ tr_span y' = tr_span y /\
      (forall allow t, counts lower (tf_stop x') allow t <->
         counts lower (tf_stop x) allow t /\ ~ In (lower (term_word t)) (splitlines text)) /\
      (forall allow p, passes lower (tr_stop y') allow p <->
         passes lower (tr_stop y) allow p /\ ~ In (lower (fst p)) (splitlines text)).
Proof.
  intros num lower x y b text D. unfold mod_set_stop_words, set_stop_words. rewrite D.
  eexists _, _. split; [reflexivity|]. split; [reflexivity|]. split; [reflexivity|]. split; [reflexivity|].
  assert (A : forall ls st w, In w (fold_left set_add ls st) <-> In w st \/ In w ls).
  { induction ls as [|l ls IH]; cbn; intros st w; [tauto|]. rewrite IH.
    unfold set_add. destruct (str_in l st) eqn:E.
    - apply str_in_In in E. split; [tauto|]. intros [?|[<-|?]]; auto.
    - rewrite in_app_iff. cbn. tauto. }
  split.
  - intros allow t. unfold counts. cbn [tf_stop]. rewrite A. tauto.
  - intros allow p. unfold passes. cbn [tr_stop]. rewrite A. tauto.
Qed.

Theorem C66_failure_changes_nothing :
  forall (num : Num) (x : tfidf num) (y : textrank) (content : option bytes),
    content = None \/ (exists b, content = Some b /\ utf8_decode b = None) ->
    exists e, mod_set_stop_words x y content = (x, y, Some e).
Proof.
  intros num x y content [->|(b & -> & D)]; unfold mod_set_stop_words, set_stop_words; rewrite ?D; destruct x; eauto.
Qed.

Theorem C66_upper_case_entries_are_ignored :
  forall (lower : str -> str) (stop allow : list str) (e : str) (t : term),
    lower (lower (term_word t)) = lower (term_word t) -> lower e <> e ->
    (counts lower (e :: stop) allow t <-> counts lower stop allow t).
Proof.
  intros lower stop allow e t ID NE. unfold counts. cbn [In].
  assert (e <> lower (term_word t)) by (intros ->; congruence). tauto.
Qed.

Example C66_nonvacuous :
  let r := mod_set_stop_words ana_x textrank_init (Some [66; 89; 10; 97; 98]%N) in   (* "BY\nab" *)
  let st := tf_stop (fst (fst r)) in
  snd r = None /\ In [66; 89]%N st /\ In [97; 98]%N (tr_stop (snd (fst r))) /\
  lowerA [66; 89]%N <> [66; 89]%N /\
  ~ counts lowerA st [] (TWord [65; 66]%N) /\ counts lowerA (tf_stop ana_x) [] (TWord [65; 66]%N).
Proof.
  intros r st. split; [vm_compute; reflexivity|]. split; [vm_compute; tauto|]. split; [vm_compute; tauto|].
  split; [discriminate|]. split.
  - intros (_ & N & _). apply N. vm_compute. tauto.
  - split; [unfold two_chars; vm_compute; lia|]. split; auto. vm_compute. intuition discriminate.
Qed.

(** ** C67: no tags are allowed

    For the TF-IDF extractor an empty [allowPOS] means no filter (C39); for the TextRank
    extractor it means that nothing is returned. *)
Theorem C67_textrank_without_tags :
  forall (num : Num) (lower : str -> str) (H : hmm num) (T : ptables num) (ord : orders) (w : pworld)
         (x : textrank) (s : str) (k : option Z) (withFlag : bool) (words : list tagged),
    snd (do_pop num H T ord w (PCut 0 true s)) = PWords (gof words) ->
    snd (textrank_tags lower H T ord w x s k true [] withFlag) = Ok (Items num []) /\
    snd (textrank_tags lower H T ord w x s k false [] withFlag) = Ok (Keys num []).
Proof.
  intros num lower H T ord w x s k wf words W. unfold textrank_tags.
  destruct (do_pop num H T ord w (PCut 0 true s)) as [w' o]. cbn in W. subst o. cbn [snd g_list gof fst rbind].
  assert (E : textrank_words num lower x words [] wf = Ok []).
  { unfold textrank_words. assert (C : forall cm, cooccur lower x [] wf words cm = cm).
    { induction words as [|p words IH]; cbn; auto. }
    rewrite C. reflexivity. }
  assert (N : forall A, take_top k (@nil A) = []).
  { intros A. unfold take_top, slice_to. destruct k as [k|]; auto.
    destruct (k =? 0)%Z; auto. destruct (k <? 0)%Z; apply firstn_nil. }
  rewrite E. cbn [rbind best_tags sorted_desc map]. rewrite !N. auto.
Qed.

Theorem C67_refuted :
  ~ (forall num lower H T ord w x y s withFlag,
       (exists l, snd (extract_tags (num := num) lower H T ord w x s None false [] withFlag) = Ok (Keys num l) /\ l <> []) ->
       snd (textrank_tags (num := num) lower H T ord w y s None false [] withFlag) <> Ok (Keys num [])).
Proof.
  intros A.
  assert (W : snd (do_pop numE hmmE demo_T demo_ord ana_w (PCut 0 true ana_text)) = PWords (gof (combine ana_words ana_tags)))
    by (vm_compute; reflexivity).
  apply (A numE lowerA hmmE demo_T demo_ord ana_w ana_x textrank_init ana_text false).
  - destruct (C39_candidates numE orderE countE lowerA hmmE demo_T demo_ord ana_w ana_x ana_text [] false
                (map TWord ana_words)) as (l & E & _ & M).
    + left. split; auto. exists ana_words. split; [vm_compute; reflexivity|reflexivity].
    + exact ana_idf_ok.
    + exact I.
    + exists l. split; auto. intros ->. destruct (M (TWord [c_bei; c_jing])) as [_ C]. destruct C.
      exists (TWord [c_bei; c_jing]). split; [cbn; tauto|]. split; auto. split; [vm_compute; lia|]. split; auto.
      vm_compute. intuition discriminate.
  - eapply C67_textrank_without_tags. exact W.
Qed.

Print Assumptions C38_words_exist.
Print Assumptions C38_best_keywords.
Print Assumptions C38_at_most_k.
Print Assumptions C38_binary64.
Print Assumptions C39_candidates.
Print Assumptions C40_weights.
Print Assumptions C40_exact.
Print Assumptions C41_weights.
Print Assumptions C41_exact.
Print Assumptions C41_binary64.
Print Assumptions C42_best_keywords.
Print Assumptions C42_binary64.
Print Assumptions C43_candidates.
Print Assumptions C53_idf_table.
Print Assumptions C53_empty_file.
Print Assumptions C53_malformed_file.
Print Assumptions C65_failed_load_changes_nothing.
Print Assumptions C65_second_call_reads_nothing.
Print Assumptions C66_stop_words.
Print Assumptions C66_failure_changes_nothing.
Print Assumptions C66_upper_case_entries_are_ignored.
Print Assumptions C67_textrank_without_tags.
Print Assumptions C67_refuted.
