(** * Search mode and tokenize *)
From Verif Require Import PyBase PyRegex PyNum ModelFinalseg ModelSeg SpecBase SpecSeg
  ProofsBase ProofsRegex ProofsSplit ProofsDag ProofsFinalseg ProofsSeg.
Set Implicit Arguments.

Lemma freq_true_wordb fr w : freq_true fr w = wordb (sget fr) w.
Proof. reflexivity. Qed.

Lemma wordb_is_word D w : wordb D w = true <-> is_word D w.
Proof.
  unfold wordb, is_word. destruct (D w) as [n|].
  - rewrite negb_true_iff, Z.eqb_neq. split; [eauto|]. intros [m [[= ->] HM]]. auto.
  - split; [discriminate|]. intros [m [HH _]]. discriminate.
Qed.

Lemma slice_sub w i n : slice w i (i + n) = sub w i n.
Proof. unfold slice, sub. f_equal. lia. Qed.

Lemma flat_map_filter {A B} (p : A -> bool) (h : A -> B) l :
  flat_map (fun i => if p i then [h i] else []) l = map h (filter p l).
Proof. induction l as [|x l IH]; simpl; auto. destruct (p x); simpl; congruence. Qed.

Lemma dict_grams_eq fr n w :
  n <> 0 ->
  dict_grams fr n w = map (fun i => (sub w i n, i)) (inner_words (sget fr) n w).
Proof.
  intros N0. unfold dict_grams, inner_words. destruct (n <? length w) eqn:E; auto.
  apply Nat.ltb_lt in E. rewrite <- flat_map_filter.
  replace (length w - (n - 1)) with (length w - n + 1) by lia.
  apply flat_map_ext. intros i. rewrite slice_sub, freq_true_wordb. reflexivity.
Qed.

Section Search.
  Variable num : Num.
  Variable H : hmm num.

  Lemma cut_for_search_eq HMM fr total force s :
    let g := cut num H (mode_of false HMM) fr total force s in
    cut_for_search num H HMM fr total force s = (flat_map (expand (sget fr)) (fst g), snd g).
  Proof.
    intros g. unfold cut_for_search. fold g. unfold gbind.
    rewrite (@gfor_ext _ _ (fst g) _ (fun w => gof (expand (sget fr) w))).
    - rewrite gfor_gof. unfold gapp; simpl. rewrite app_nil_r. reflexivity.
    - intros w _. unfold expand. rewrite !dict_grams_eq, !map_map by lia. reflexivity.
  Qed.

  Lemma tokenize_default_spec ws a :
    tiles a (a + length (concat ws)) (tokenize_default ws a)
    /\ map (fun t => fst (fst t)) (tokenize_default ws a) = ws.
  Proof.
    revert a. induction ws as [|w ws IH]; intros a; simpl.
    - split; auto.
    - destruct (IH (a + length w)) as [I1 I2]. rewrite app_length. split.
      + split; auto. split; auto. rewrite Nat.add_assoc. exact I1.
      + f_equal. exact I2.
  Qed.

  Lemma located_app_r s v t : located s t -> located (s ++ v) t.
  Proof.
    destruct t as [[w x] y]. intros [a [b [-> [E1 E2]]]]. exists a, (b ++ v).
    rewrite <- !app_assoc. auto.
  Qed.

  Lemma located_sub u w v i n :
    i + n <= length w -> located (u ++ w ++ v) (sub w i n, length u + i, length u + i + n).
  Proof.
    intros L. exists (u ++ firstn i w), (skipn (i + n) w ++ v). split; [|split].
    - unfold sub. rewrite <- app_assoc. f_equal.
      rewrite <- (firstn_skipn i w) at 1. rewrite <- !app_assoc. f_equal.
      rewrite <- (firstn_skipn n (skipn i w)) at 1. rewrite <- app_assoc, skipn_skipn.
      rewrite (Nat.add_comm n i). reflexivity.
    - rewrite app_length, firstn_length. lia.
    - unfold sub. rewrite firstn_length, skipn_length. lia.
  Qed.

  Lemma inner_words_range D n w i : In i (inner_words D n w) -> i + n <= length w.
  Proof.
    unfold inner_words. destruct (n <? length w) eqn:E; [|contradiction].
    apply Nat.ltb_lt in E. rewrite filter_In, in_seq. lia.
  Qed.

  Lemma tokenize_search_spec fr ws u v :
    Forall (located (u ++ concat ws ++ v)) (tokenize_search fr ws (length u))
    /\ map (fun t => fst (fst t)) (tokenize_search fr ws (length u)) = flat_map (expand (sget fr)) ws.
  Proof.
    revert u. induction ws as [|w ws IH]; intros u; simpl.
    - split; auto.
    - destruct (IH (u ++ w)) as [I1 I2]. rewrite app_length in I1, I2. split.
      + rewrite !Forall_app. rewrite <- app_assoc. split; [|split].
        * rewrite dict_grams_eq, map_map by lia. apply Forall_map. apply Forall_forall.
          intros i HI. simpl. apply inner_words_range in HI. apply located_sub; auto.
        * rewrite dict_grams_eq, map_map by lia. apply Forall_map. apply Forall_forall.
          intros i HI. simpl. apply inner_words_range in HI. apply located_sub; auto.
        * constructor.
          -- exists u, (concat ws ++ v). auto.
          -- rewrite <- app_assoc in I1. exact I1.
      + rewrite !map_app, !map_map. simpl. rewrite I2. unfold expand.
        rewrite !dict_grams_eq, !map_map by lia. simpl. rewrite <- !app_assoc. reflexivity.
  Qed.
End Search.
