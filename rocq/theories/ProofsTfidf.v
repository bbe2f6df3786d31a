(** * TF-IDF: the weights and their order *)
From Coq Require Import Reals Lra Permutation.
From Verif Require Import PyBase PyNum SpecNum ProofsBase ModelFinalseg ModelSeg ModelDict ModelApi
  ModelPosseg ModelAnalyse SpecAnalyse ProofsRank ProofsPosLocal.

Lemma counts_key lower stop allow wf t :
  match tfidf_key lower stop allow wf t with
  | Some k => counts lower stop allow t /\ k = named allow wf t
  | None => ~ counts lower stop allow t
  end.
Proof.
  unfold tfidf_key, counts, named.
  destruct (kept lower stop (term_word t)) eqn:K.
  - apply kept_counts in K. destruct K as [K1 K2]. destruct allow as [|a allow]; [auto 6|].
    destruct t as [w|w f].
    + intros (_ & _ & [E|(w' & f & E & _)]); discriminate.
    + destruct (str_in f (a :: allow)) eqn:I.
      * apply str_in_In in I. split; [|destruct wf; auto]. split; auto. split; auto.
        right. exists w, f. auto.
      * intros (_ & _ & [E|(w' & f' & E & I')]); [discriminate|]. inversion E; subst.
        apply str_in_In in I'. congruence.
  - assert (NK : ~ (two_chars (term_word t) /\ ~ In (lower (term_word t)) stop)).
    { intros C. apply kept_counts in C. congruence. }
    destruct allow as [|a allow]; [tauto|]. destruct t as [w|w f]; [tauto|].
    destruct (str_in f (a :: allow)); tauto.
Qed.

Section Tfidf.
  Variable num : Num.
  Variable O : NumOrder num.
  Variable C : NumCount num O.
  Variable lower : str -> str.

  Lemma counted_ex stop allow wf ts : exists occ, counted lower stop allow wf ts occ.
  Proof.
    induction ts as [|t ts (occ & IH)]; [eexists; constructor|].
    pose proof (counts_key lower stop allow wf t) as K.
    destruct (tfidf_key lower stop allow wf t).
    - destruct K as [K _]. eexists. eapply counted_yes; eauto.
    - eexists. eapply counted_no; eauto.
  Qed.

  Lemma counted_keys stop allow wf ts :
    counted lower stop allow wf ts
      (flat_map (fun t => match tfidf_key lower stop allow wf t with Some k => [k] | None => [] end) ts).
  Proof.
    induction ts as [|t ts IH]; cbn; [constructor|].
    pose proof (counts_key lower stop allow wf t) as K. destruct (tfidf_key lower stop allow wf t).
    - destruct K as [K ->]. cbn. constructor; auto.
    - apply counted_no; auto.
  Qed.

  Lemma counted_In stop allow wf ts occ k : counted lower stop allow wf ts occ ->
    (In k occ <-> exists t, In t ts /\ counts lower stop allow t /\ k = named allow wf t).
  Proof.
    induction 1 as [|t ts occ CT _ IH|t ts occ CT _ IH]; cbn.
    - split; [tauto|]. intros (? & [] & _).
    - rewrite IH. split.
      + intros [<-|(u & I & Q)]; [exists t; auto|exists u; intuition].
      + intros (u & [<-|I] & Q & E); auto. right. exists u. auto.
    - rewrite IH. split.
      + intros (u & I & Q). exists u. intuition.
      + intros (u & [<-|I] & Q & E); [contradiction|]. exists u. auto.
  Qed.

  Lemma counted_length stop allow wf ts occ :
    counted lower stop allow wf ts occ -> length occ <= length ts.
  Proof. induction 1; cbn; lia. Qed.

  Lemma count_fold stop allow wf ts occ : counted lower stop allow wf ts occ ->
    tfidf_count num lower stop allow wf ts =
    fold_left (fun freq k => kset freq k (f_add num (kfloat num freq k) (lit num 1))) occ [].
  Proof.
    unfold tfidf_count. generalize (@nil (term * F num)) as d. intros d CT. revert d.
    induction CT as [|t ts occ CT _ IH|t ts occ CT _ IH]; cbn; intros d; auto;
      pose proof (counts_key lower stop allow wf t) as K;
      destruct (tfidf_key lower stop allow wf t); try tauto.
    - destruct K as [_ ->]. apply IH.
    - apply IH.
  Qed.

  Notation floats := (map (fun kn : term * Z => (fst kn, lit num (snd kn)))).

  Lemma kget_floats d k : kget (floats d) k = option_map (lit num) (kget d k).
  Proof.
    unfold kget. induction d as [|[j n] d IH]; cbn; auto. destruct (term_eqb k j); auto.
  Qed.
  Lemma kset_floats d k n : kset (floats d) k (lit num n) = floats (kset d k n).
  Proof.
    unfold kset. induction d as [|[j m] d IH]; cbn; auto. destruct (term_eqb k j); cbn; auto.
    rewrite IH. auto.
  Qed.

  Lemma count_tally occ : c_lim C (Z.of_nat (length occ)) ->
    fold_left (fun freq k => kset freq k (f_add num (kfloat num freq k) (lit num 1))) occ [] =
    floats (tally occ).
  Proof.
    induction occ as [|k occ IH] using rev_ind; auto. intros L.
    rewrite app_length in L. cbn in L.
    rewrite fold_left_app, IH, tally_snoc by (eapply c_lim_le; [|exact L]; lia).
    cbn [fold_left]. rewrite <- kset_floats. f_equal.
    unfold kfloat. rewrite kget_floats.
    assert (E : kz (tally occ) k = Z.of_nat (times k occ)) by apply tally_times.
    pose proof (times_le k occ) as LE.
    transitivity (f_add num (lit num (kz (tally occ) k)) (lit num 1)).
    - f_equal. unfold kz. destruct (kget (tally occ) k); cbn; auto.
      rewrite (c_zero _ _ C). auto.
    - apply (c_add _ _ C); try lia. rewrite E. eapply c_lim_le; [|exact L]. lia.
  Qed.

  Lemma sum_floats d a : (0 <= a)%Z -> Forall (fun kn => (0 <= snd kn)%Z) d ->
    c_lim C (a + ksum d) ->
    fold_left (f_add num) (map snd (floats d)) (lit num a) = lit num (a + ksum d).
  Proof.
    revert a. induction d as [|[k n] d IH]; cbn [map fold_left ksum fold_right snd fst]; intros a A FA L.
    - rewrite Z.add_0_r. auto.
    - fold (ksum d) in *. inversion FA as [|? ? N FA']; subst. cbn in N.
      assert (P : (0 <= ksum d)%Z).
      { clear -FA'. induction FA' as [|[k n] d N _ IH]; cbn [ksum fold_right snd]; [lia|].
        fold (ksum d). cbn in N. lia. }
      rewrite (c_add _ _ C); auto; [|eapply c_lim_le; [|exact L]; lia].
      rewrite IH; auto; try lia; [f_equal; lia|]. eapply c_lim_le; [|exact L]; lia.
  Qed.

  Lemma scale_floats (x : tfidf num) t d : (0 < t)%Z -> c_lim C t ->
    tfidf_scale x (lit num t) (floats d) =
    Ok (map (fun kn => (fst kn, f_mul num (lit num (snd kn)) (f_div num (idf_of x (term_word (fst kn))) (lit num t)))) d).
  Proof.
    intros P L. induction d as [|[k n] d IH]; cbn; auto.
    unfold py_div. rewrite (c_nz _ _ C) by auto. cbn. rewrite IH. auto.
  Qed.

  (** the weights, in order of first occurrence *)
  Lemma weights_ok (x : tfidf num) allow wf ts occ :
    counted lower (tf_stop x) allow wf ts occ -> c_lim C (Z.of_nat (length ts)) ->
    exists c, first_occurrences occ c /\
      tfidf_weights lower x allow wf ts = Ok (map (fun k => (k, tfidf_weight x occ k)) c).
  Proof.
    intros CT L. exists (map fst (tally occ)). split; [apply tally_firsts|].
    assert (LO : c_lim C (Z.of_nat (length occ))).
    { eapply c_lim_le; [|exact L]. pose proof (counted_length _ _ _ _ _ CT). lia. }
    unfold tfidf_weights. rewrite (count_fold _ _ _ _ _ CT), count_tally; auto.
    rewrite <- (c_zero _ _ C), sum_floats; try lia.
    - rewrite Z.add_0_l, tally_sum. destruct occ as [|k occ']; [reflexivity|].
      set (occ := k :: occ') in *. rewrite scale_floats; auto; [|cbn; lia].
      f_equal. rewrite tally_items. rewrite !map_map. cbn [fst snd]. apply map_ext. intros [k' n]. reflexivity.
    - rewrite tally_items. rewrite Forall_map. apply Forall_forall. intros. cbn. lia.
    - rewrite Z.add_0_l, tally_sum. auto.
  Qed.

  Lemma kfloat_items (f : term -> F num) c k : In k c ->
    kfloat num (map (fun k => (k, f k)) c) k = f k.
  Proof.
    intros I. unfold kfloat, kget. induction c as [|j c IH]; [contradiction|].
    cbn. destruct (term_eqb k j) eqn:E.
    - apply term_eqb_eq in E. subst. auto.
    - destruct I as [->|I]; auto. assert (term_eqb k k = true) by (apply term_eqb_eq; auto). congruence.
  Qed.

  (** both forms of the result *)
  Lemma best_tags_ok (f : term -> F num) c k : Forall (fun j => o_dom O (f j)) c ->
    let d := map (fun j => (j, f j)) c in
    exists all r, best_first (fun kx => o_val O (snd kx)) d all /\ top_part k all r /\
      best_tags num true k d = Items num r /\ best_tags num false k d = Keys num (map fst r).
  Proof.
    intros D d. set (lt := fun a b : term * F num => f_lt num (snd a) (snd b)).
    exists (sorted_desc lt d), (take_top k (sorted_desc lt d)).
    split; [|split; [apply take_top_part|]].
    - apply sorted_desc_best with (dom := fun kx => o_dom O (snd kx)).
      + intros a b A B. apply (o_lt num O); auto.
      + unfold d. rewrite Forall_map. exact D.
    - split; [reflexivity|]. unfold best_tags. f_equal. rewrite <- take_top_map. f_equal.
      rewrite (sorted_desc_map fst lt); auto.
      intros a b A B. unfold lt. unfold d in A, B. apply in_map_iff in A. apply in_map_iff in B.
      destruct A as (j & <- & A). destruct B as (j' & <- & B). cbn [fst snd].
      unfold d. rewrite !kfloat_items; auto.
  Qed.

  Variable H : hmm num.
  Variable T : ptables num.
  Variable ord : orders.

  Lemma words_ok w allow s ts : words_for num H T ord w allow s ts ->
    snd (tfidf_words H T ord w allow s) = gof ts.
  Proof.
    intros [[-> (ws & E & ->)]|[N (ps & E & ->)]].
    - unfold tfidf_words, do_pop, do_op. rewrite E. reflexivity.
    - unfold tfidf_words. destruct allow as [|a allow]; [contradiction|].
      destruct (do_pop num H T ord w (PCut 0 true s)) as [w' o]. cbn in E. subst o. reflexivity.
  Qed.

  Theorem tfidf_result w x s k allow wf ts occ :
    words_for num H T ord w allow s ts -> idf_ok C x -> c_lim C (Z.of_nat (length ts)) ->
    counted lower (tf_stop x) allow wf ts occ ->
    exists c all r,
      first_occurrences occ c /\
      best_first (fun kx => o_val O (snd kx)) (map (fun j => (j, tfidf_weight x occ j)) c) all /\
      top_part k all r /\
      snd (extract_tags lower H T ord w x s k true allow wf) = Ok (Items num r) /\
      snd (extract_tags lower H T ord w x s k false allow wf) = Ok (Keys num (map fst r)).
  Proof.
    intros W I L CT. destruct (weights_ok x allow wf ts occ CT L) as (c & FO & E).
    destruct (best_tags_ok (tfidf_weight x occ) c k) as (all & r & BF & TP & E1 & E2).
    - rewrite Forall_forall. intros j J. apply (proj1 (proj2 FO)) in J.
      apply (c_dom _ _ C); [apply I| |].
      + pose proof (times_pos j occ J). pose proof (times_le j occ). lia.
      + eapply c_lim_le; [|exact L]. pose proof (counted_length _ _ _ _ _ CT). lia.
    - exists c, all, r. split; auto. split; auto. split; auto.
      apply words_ok in W. unfold extract_tags.
      destruct (tfidf_words H T ord w allow s) as [w' g]. cbn in W. subst g. cbn [snd g_list gof fst rbind].
      rewrite E. cbn [rbind]. rewrite E1, E2. auto.
  Qed.
End Tfidf.
