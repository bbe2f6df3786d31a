(** * What the extractors return *)
From Coq Require Import Reals Lra Permutation.
From Verif Require Import PyBase PyNum SpecNum ProofsBase ModelFinalseg ModelSeg ModelDict ModelApi
  ModelPosseg ModelAnalyse SpecAnalyse ProofsRank ProofsTfidf ProofsGraph ProofsTextrank.

(** ** Consequences of a ranking *)

Lemma top_part_In {A} k (all r : list A) x : top_part k all r -> In x r -> In x all.
Proof. intros (rest & -> & _) I. apply in_or_app. auto. Qed.

Lemma top_part_before {A} k (all r : list A) x y : top_part k all r -> In x r -> In y all -> ~ In y r ->
  before all x y.
Proof.
  intros (rest & -> & _) IX IY NY. apply in_app_or in IY. destruct IY as [IY|IY]; [contradiction|].
  apply in_split in IX. destruct IX as (a & b & ->). apply in_split in IY. destruct IY as (c & d & ->).
  exists a, (b ++ c), d. rewrite <- !app_assoc. reflexivity.
Qed.

Lemma top_part_le {A} k (all r : list A) : top_part (Some k) all r -> (0 < k)%Z -> (Z.of_nat (length r) <= k)%Z.
Proof.
  intros (rest & _ & E) P. destruct (Z.eqb_spec k 0); [lia|].
  rewrite (proj2 (Z.ltb_lt 0 k) P) in E. lia.
Qed.

Lemma top_part_all {A} k (all r : list A) : top_part k all r -> k = None \/ k = Some 0%Z -> r = all.
Proof.
  intros (rest & -> & E) K.
  assert (L : length r = length (r ++ rest)) by (destruct K as [-> | ->]; cbn in E; lia).
  rewrite app_length in L. destruct rest; [rewrite app_nil_r; auto|cbn in L; lia].
Qed.

Lemma NoDup_app_l {A} (l r : list A) : NoDup (l ++ r) -> NoDup l.
Proof.
  induction l as [|x l IH]; cbn; intros ND; [constructor|]. inversion ND; subst.
  constructor; auto. rewrite in_app_iff in *. tauto.
Qed.

Lemma top_part_nodup {A B} (f : A -> B) k (all r : list A) : top_part k all r -> NoDup (map f all) ->
  NoDup (map f r).
Proof. intros (rest & -> & _) ND. rewrite map_app in ND. eapply NoDup_app_l; eauto. Qed.

Lemma best_first_In {A} val (l r : list A) x : best_first val l r -> (In x l <-> In x r).
Proof.
  intros [P _]. split; intros I; [eapply Permutation_in; eauto|].
  eapply Permutation_in; [apply Permutation_sym|]; eauto.
Qed.

Lemma best_first_nodup {A B} (f : A -> B) val (l r : list A) : best_first val l r -> NoDup (map f l) -> NoDup (map f r).
Proof. intros [P _] ND. eapply Permutation_NoDup; [apply Permutation_map|]; eauto. Qed.

(** ** TextRank *)

Section Textrank.
  Variable num : Num.
  Variable O : NumOrder num.
  Variable Q : NumRound num O.
  Variable lower : str -> str.

  Lemma items_of (d : kdict (F num)) : NoDup (map fst d) ->
    d = map (fun k => (k, kfloat num d k)) (map fst d).
  Proof.
    intros ND. rewrite map_map. rewrite <- (map_id d) at 1. apply map_ext_in. intros [k v] I. cbn.
    unfold kfloat, kget. rewrite (In_dget _ term_eqb_eq _ _ _ ND I). auto.
  Qed.

  Lemma words_rank (x : textrank) words allow wf :
    (2 * INR (length words * tr_span x) + 10 <= r_G Q)%R ->
    exists d, textrank_words num lower x words allow wf = Ok d /\
      NoDup (map fst d) /\
      (forall n, In n (map fst d) <-> ranked lower (tr_stop x) allow (tr_span x) wf words n) /\
      (forall n y, In (n, y) d -> o_fin O y /\ (0 < o_val O y <= 1)%R) /\
      (d <> [] -> exists n y, In (n, y) d /\ o_val O y = 1%R).
  Proof.
    intros B. unfold textrank_words. rewrite cooccur_pairs.
    set (ps := pairs lower x allow wf words).
    destruct (bumps_ok ps [] (Forall_nil _)) as (POS & SUM & KEYS). cbn in SUM.
    set (cm := fold_left bump ps []) in *.
    destruct (graph_of_ok cm POS) as [GO NODES].
    destruct (rank_ok num O Q _ _ GO) as (d & E & K & R1 & R2).
    { rewrite SUM. pose proof (pairs_length lower x allow wf words) as PL. fold ps in PL.
      rewrite INR_IZR_INZ in B. rewrite mult_IZR.
      assert (IZR (Z.of_nat (length ps)) <= IZR (Z.of_nat (length words * tr_span x)))%R by (apply IZR_le; lia).
      lra. }
    exists d. split; auto. split; [rewrite K; apply (g_nodup _ _ GO)|]. split; auto.
    intros n. rewrite K, NODES. unfold ranked. split.
    - intros (a & b & I & AB). apply KEYS in I. destruct I as [[]|I]. apply pairs_In in I.
      destruct I as (i & j & p & q & E1 & E2 & L & P1 & P2 & -> & ->).
      apply pairfilter_passes in P1. apply pairfilter_passes in P2. rewrite !tr_key_named in AB.
      exists i, j, p, q. auto 7.
    - intros (i & j & p & q & E1 & E2 & L & P1 & P2 & AB).
      exists (ranked_as allow wf p), (ranked_as allow wf q). split; auto. apply KEYS. right.
      apply pairs_In. exists i, j, p, q. rewrite <- !tr_key_named. apply pairfilter_passes in P1.
      apply pairfilter_passes in P2. auto 8.
  Qed.

  Variable H : hmm num.
  Variable T : ptables num.
  Variable ord : orders.

  Theorem textrank_result w (x : textrank) s k allow wf words :
    snd (do_pop num H T ord w (PCut 0 true s)) = PWords (gof words) ->
    (2 * INR (length words * tr_span x) + 10 <= r_G Q)%R ->
    exists d all r,
      NoDup (map fst d) /\
      (forall n, In n (map fst d) <-> ranked lower (tr_stop x) allow (tr_span x) wf words n) /\
      (forall n y, In (n, y) d -> o_fin O y /\ (0 < o_val O y <= 1)%R) /\
      (d <> [] -> exists n y, In (n, y) d /\ o_val O y = 1%R) /\
      best_first (fun kx => o_val O (snd kx)) d all /\
      top_part k all r /\
      textrank_words num lower x words allow wf = Ok d /\
      snd (textrank_tags lower H T ord w x s k true allow wf) = Ok (Items num r) /\
      snd (textrank_tags lower H T ord w x s k false allow wf) = Ok (Keys num (map fst r)).
  Proof.
    intros W B. destruct (words_rank x words allow wf B) as (d & E & ND & K & R1 & R2).
    destruct (best_tags_ok num O (kfloat num d) (map fst d) k) as (all & r & BF & TP & E1 & E2).
    { rewrite Forall_forall. intros j J. apply in_map_iff in J. destruct J as ([j' y] & <- & J).
      cbn [fst]. unfold kfloat, kget. rewrite (In_dget _ term_eqb_eq _ _ _ ND J).
      apply (o_fin_dom num O), (R1 _ _ J). }
    rewrite <- items_of in BF, E1, E2 by auto.
    exists d, all, r. do 7 (split; [assumption|]).
    unfold textrank_tags. destruct (do_pop num H T ord w (PCut 0 true s)) as [w' o]. cbn in W. subst o.
    cbn [snd g_list gof fst rbind]. rewrite E. cbn [rbind]. rewrite E1, E2. auto.
  Qed.
End Textrank.
