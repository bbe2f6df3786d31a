(** * Segmentation depends on what occurs in the text only *)
From Verif Require Import PyBase PyRegex PyNum ModelFinalseg ModelSeg ModelPosseg SpecBase SpecSeg SpecExt
  ProofsBase ProofsRegex ProofsDag ProofsFinalseg ProofsSeg ProofsFull.

Set Implicit Arguments.

Lemma freq_true_of fr fr' w : freq_of (sget fr) w = freq_of (sget fr') w -> freq_true fr w = freq_true fr' w.
Proof.
  unfold freq_of, freq_true. destruct (sget fr w) as [n|], (sget fr' w) as [n'|]; intros E; subst; auto.
Qed.
Lemma freq_or1_of fr fr' w : freq_of (sget fr) w = freq_of (sget fr') w -> freq_or1 fr w = freq_or1 fr' w.
Proof.
  unfold freq_of, freq_or1. destruct (sget fr w) as [n|], (sget fr' w) as [n'|]; intros E; subst; auto.
Qed.

Lemma substring_refl (s : str) : substring s s.
Proof. exists 0, [], []. rewrite app_nil_r. auto. Qed.
Lemma substring_app (u a b : str) : substring u (a ++ u ++ b).
Proof. exists (length a), a, b. auto. Qed.
Lemma substring_trans (u v s : str) : substring u v -> substring v s -> substring u s.
Proof.
  intros [k [a [b [-> _]]]] [k' [c [d [-> _]]]].
  exists (length (c ++ a)), (c ++ a), (b ++ d). rewrite !app_assoc. auto.
Qed.
Lemma substring_nil (s : str) : substring [] s.
Proof. exists 0, [], s. auto. Qed.
Lemma substring_concat (w : str) ws s : concat ws = s -> In w ws -> substring w s.
Proof.
  intros <- HI. apply in_split in HI. destruct HI as [l1 [l2 ->]].
  rewrite concat_app. simpl. apply substring_app.
Qed.
Lemma substring_char (c : char) s : In c s -> substring [c] s.
Proof. intros HI. apply in_split in HI. destruct HI as [a [b ->]]. apply (@substring_app [c] a b). Qed.
Lemma substring_slice (s : str) a b : substring (slice s a b) s.
Proof.
  destruct (Nat.le_gt_cases a b) as [L|L].
  - destruct (Nat.le_gt_cases b (length s)) as [L'|L'].
    + apply slice_substring; auto.
    + assert (E : slice s a b = slice s a (Nat.max a (length s))).
      { unfold slice. destruct (Nat.le_gt_cases a (length s)).
        - rewrite Nat.max_r by auto. rewrite !firstn_all2; auto; rewrite skipn_length; lia.
        - rewrite skipn_all2 by lia. rewrite !firstn_nil. auto. }
      rewrite E. destruct (Nat.le_gt_cases a (length s)).
      * rewrite Nat.max_r by auto. apply slice_substring; auto.
      * rewrite Nat.max_l by lia. unfold slice. rewrite Nat.sub_diag. apply substring_nil.
  - unfold slice. replace (b - a) with 0 by lia. apply substring_nil.
Qed.
Lemma substring_split r (s x : str) : In x (re_split r s) -> substring x s.
Proof. intros HI. eapply substring_concat; eauto. apply re_split_concat. Qed.

Lemma same_in_sub s t D D' : substring t s -> same_in s D D' -> same_in t D D'.
Proof. intros S A u U. apply A. eapply substring_trans; eauto. Qed.
Lemma same_members_sub s t l l' : substring t s -> same_members s l l' -> same_members t l l'.
Proof. intros S A u U. apply A. eapply substring_trans; eauto. Qed.
Lemma same_tags_sub s t T T' : substring t s -> same_tags s T T' -> same_tags t T T'.
Proof. intros S A u U. apply A. eapply substring_trans; eauto. Qed.

Lemma filter_ext_all {A} (p q : A -> bool) l : (forall x, p x = q x) -> filter p l = filter q l.
Proof. intros E. induction l as [|x l IH]; simpl; auto. rewrite E, IH. auto. Qed.

(** ** The word graph and the route *)
Lemma get_DAG_same fr fr' s :
  prefix_closed (sget fr) -> prefix_closed (sget fr') -> same_in s (sget fr) (sget fr') ->
  get_DAG fr s = get_DAG fr' s.
Proof.
  intros P P' A. unfold get_DAG. apply map_ext. intros k.
  assert (EQ : dag_words fr s k = dag_words fr' s k).
  { rewrite !dag_words_exact by auto. apply filter_ext_all. intros j. apply freq_true_of, A, substring_slice. }
  rewrite !dag_at_words, EQ. auto.
Qed.

Section Ext.
  Variable num : Num.

  Lemma calc_cands_same fr fr' lt s idx route xs :
    same_in s (sget fr) (sget fr') ->
    calc_cands num fr lt s idx route xs = calc_cands num fr' lt s idx route xs.
  Proof.
    intros A. induction xs as [|x xs IH]; simpl; auto.
    rewrite (@freq_or1_of fr fr' (slice s idx (x + 1))) by (apply A, substring_slice).
    rewrite IH. auto.
  Qed.
  Lemma calc_loop_same fr fr' lt s dag n route :
    same_in s (sget fr) (sget fr') ->
    calc_loop num fr lt s dag n route = calc_loop num fr' lt s dag n route.
  Proof.
    intros A. revert route. induction n as [|n IH]; intros route; simpl; auto.
    destruct (nth_error dag n) as [xs|]; auto.
    rewrite (@calc_cands_same fr fr' lt s n route xs A).
    destruct (calc_cands num fr' lt s n route xs) as [cs|]; cbn [rbind]; auto.
    destruct (py_max (route_gt num) cs); cbn [rbind]; auto.
  Qed.
  Lemma calc_same fr fr' total s dag :
    same_in s (sget fr) (sget fr') -> calc num fr total s dag = calc num fr' total s dag.
  Proof.
    intros A. unfold calc. destruct (py_log num total); cbn [rbind]; auto. apply calc_loop_same; auto.
  Qed.

  Variable H : hmm num.

  Lemma str_in_same s force force' u : same_members s force force' -> substring u s -> str_in u force = str_in u force'.
  Proof.
    intros A U. specialize (A u U). destruct (str_in u force) eqn:E, (str_in u force') eqn:E'; auto.
    - apply str_in_In in E. apply A in E. apply str_in_In in E. congruence.
    - apply str_in_In in E'. apply A in E'. apply str_in_In in E'. congruence.
  Qed.

  Lemma fs_cut_same force force' s : same_members s force force' -> fs_cut num H force s = fs_cut num H force' s.
  Proof.
    intros A. unfold fs_cut. apply gfor_ext. intros blk HB. apply substring_split in HB.
    pose proof (same_members_sub HB A) as AB. unfold fs_cut_block.
    destruct (re_matches fs_re_han blk) eqn:E; auto.
    destruct blk as [|c blk]; [discriminate E|].
    destruct (@fs_cut_han_ok num H (c :: blk)) as [ls [ws [EW [[P _] _]]]]; [discriminate|].
    rewrite EW. unfold gbind. cbn [fst snd gof]. f_equal.
    apply gfor_ext. intros w HW.
    rewrite (str_in_same AB (@substring_concat w ws (c :: blk) P HW)). auto.
  Qed.

  Lemma cut_buf_same fr fr' force force' buf :
    same_in buf (sget fr) (sget fr') -> same_members buf force force' ->
    cut_buf num H fr force buf = cut_buf num H fr' force' buf.
  Proof.
    intros A B. unfold cut_buf. rewrite (@freq_true_of fr fr' buf) by (apply A, substring_refl).
    rewrite (fs_cut_same B). auto.
  Qed.

  Lemma slice_grow (s : str) b x : b <= x -> slice s b x ++ slice s x (x + 1) = slice s b (x + 1).
  Proof.
    intros L. unfold slice.
    replace (x + 1 - b) with ((x - b) + (x + 1 - x)) by lia.
    assert (G : forall (l : str) n m, firstn (n + m) l = firstn n l ++ firstn m (skipn n l)).
    { induction l as [|c l IH]; intros [|n] m; simpl; auto.
      - rewrite !firstn_nil. auto.
      - rewrite IH. auto. }
    rewrite G, skipn_skipn. replace (x - b + b) with x by lia. auto.
  Qed.

  Lemma cut_hmm_loop_same fr fr' force force' s route fuel x b :
    same_in s (sget fr) (sget fr') -> same_members s force force' -> b <= x ->
    cut_hmm_loop num H fuel fr force s route x (slice s b x) = cut_hmm_loop num H fuel fr' force' s route x (slice s b x).
  Proof.
    intros A B. revert x b. induction fuel as [|fuel IH]; intros x b L; simpl; auto.
    assert (EB : cut_buf num H fr force (slice s b x) = cut_buf num H fr' force' (slice s b x)).
    { apply cut_buf_same; [eapply same_in_sub|eapply same_members_sub]; eauto using substring_slice. }
    rewrite EB. destruct (x <? length s); auto. destruct (nth_error route x) as [r|]; auto.
    destruct (snd r + 1 - x =? 1) eqn:E.
    - apply Nat.eqb_eq in E. replace (snd r + 1) with (x + 1) by lia. rewrite slice_grow by auto. apply IH. lia.
    - f_equal. f_equal.
      assert (Z : @nil char = slice s (snd r + 1) (snd r + 1)) by (unfold slice; rewrite Nat.sub_diag; auto).
      rewrite Z. apply IH. auto.
  Qed.

  Lemma cut_block_same m fr fr' total force force' blk :
    prefix_closed (sget fr) -> prefix_closed (sget fr') ->
    same_in blk (sget fr) (sget fr') -> (m = WithHMM -> same_members blk force force') ->
    cut_block num H m fr total force blk = cut_block num H m fr' total force' blk.
  Proof.
    intros P P' A B. destruct m; simpl; unfold cut_all_block, cut_hmm_block, cut_nohmm_block; rewrite (get_DAG_same P P' A); auto.
    - rewrite (@calc_same fr fr' total blk (get_DAG fr' blk) A). destruct (calc num fr' total blk (get_DAG fr' blk)); auto.
      change (@nil char) with (slice blk 0 0). apply cut_hmm_loop_same; auto.
    - rewrite (@calc_same fr fr' total blk (get_DAG fr' blk) A). auto.
  Qed.

  Lemma cut_same m fr fr' total force force' s :
    prefix_closed (sget fr) -> prefix_closed (sget fr') ->
    same_in s (sget fr) (sget fr') -> (m = WithHMM -> same_members s force force') ->
    cut num H m fr total force s = cut num H m fr' total force' s.
  Proof.
    intros P P' A B. unfold cut. apply gfor_ext. intros blk HB. apply substring_split in HB.
    destruct blk as [|c blk]; auto. destruct (re_matches re_han_default (c :: blk)); auto.
    apply cut_block_same; auto.
    - eapply same_in_sub; eauto.
    - intros E. eapply same_members_sub; eauto.
  Qed.

  Lemma dict_grams_same fr fr' n w :
    same_in w (sget fr) (sget fr') -> dict_grams fr n w = dict_grams fr' n w.
  Proof.
    intros A. unfold dict_grams. destruct (n <? length w); auto.
    apply flat_map_ext. intros i. rewrite (@freq_true_of fr fr' (slice w i (i + n))); auto. apply A, substring_slice.
  Qed.

  (** the words cut yields are stretches of the text *)
  Lemma cut_words_substring m fr total force s w :
    is_full m = false -> In w (fst (cut num H m fr total force s)) -> substring w s.
  Proof.
    intros Hm HI. destruct (@cut_prefix num H m fr total force s Hm) as [u [[P _] [[t ->] _]]].
    eapply substring_trans; [eapply substring_concat; [exact P|exact HI]|].
    exists 0, [], t. auto.
  Qed.

  Lemma gbind_same {A B} (g : gen A) (f f' : A -> gen B) :
    (forall x, In x (fst g) -> f x = f' x) -> gbind g f = gbind g f'.
  Proof. intros E. unfold gbind. rewrite (@gfor_ext _ _ (fst g) f f'); auto. Qed.

  Lemma cut_for_search_same hmm fr fr' total force force' s :
    prefix_closed (sget fr) -> prefix_closed (sget fr') ->
    same_in s (sget fr) (sget fr') -> (hmm = true -> same_members s force force') ->
    cut_for_search num H hmm fr total force s = cut_for_search num H hmm fr' total force' s.
  Proof.
    intros P P' A B. unfold cut_for_search.
    rewrite <- (@cut_same (mode_of false hmm) fr fr' total force force' s P P' A)
      by (destruct hmm; [intros _; apply B; auto|discriminate]).
    apply gbind_same. intros w HW.
    assert (S : same_in w (sget fr) (sget fr')).
    { eapply same_in_sub; [|exact A]. eapply cut_words_substring; [|exact HW]. destruct hmm; auto. }
    rewrite (@dict_grams_same fr fr' 2 w S), (@dict_grams_same fr fr' 3 w S). auto.
  Qed.

  Lemma tokenize_search_same fr fr' ws start :
    (forall w, In w ws -> same_in w (sget fr) (sget fr')) ->
    tokenize_search fr ws start = tokenize_search fr' ws start.
  Proof.
    revert start. induction ws as [|w ws IH]; intros start E; simpl; auto.
    rewrite (@dict_grams_same fr fr' 2 w), (@dict_grams_same fr fr' 3 w) by (apply E; left; auto).
    rewrite IH by (intros; apply E; right; auto). auto.
  Qed.

  Lemma tokenize_same tm hmm fr fr' total force force' s :
    prefix_closed (sget fr) -> prefix_closed (sget fr') ->
    same_in s (sget fr) (sget fr') -> (hmm = true -> same_members s force force') ->
    tokenize num H tm hmm fr total force s = tokenize num H tm hmm fr' total force' s.
  Proof.
    intros P P' A B. unfold tokenize.
    rewrite <- (@cut_same (mode_of false hmm) fr fr' total force force' s P P' A)
      by (destruct hmm; [intros _; apply B; auto|discriminate]).
    destruct tm; auto. f_equal. apply tokenize_search_same. intros w HW.
    eapply same_in_sub; [|exact A]. eapply cut_words_substring; [|exact HW]. destruct hmm; auto.
  Qed.

  (** ** The tagger *)
  Variable T : ptables num.
  Variable ord : orders.

  Lemma tag_get_same s tab tab' u : same_tags s (sget tab) (sget tab') -> substring u s -> tag_get tab u = tag_get tab' u.
  Proof. intros A U. exact (A u U). Qed.

  Lemma ps_nohmm_loop_same tab tab' s route fuel x buf :
    same_tags s (sget tab) (sget tab') ->
    ps_nohmm_loop num fuel tab s route x buf = ps_nohmm_loop num fuel tab' s route x buf.
  Proof.
    intros A. revert x buf. induction fuel as [|fuel IH]; intros x buf; simpl; auto.
    destruct (x <? length s); auto. destruct (nth_error route x) as [r|]; auto.
    rewrite !IH. rewrite (@tag_get_same s tab tab') by (auto using substring_slice). auto.
  Qed.

  Lemma ps_buf_same tab tab' fr fr' buf :
    same_tags buf (sget tab) (sget tab') -> same_in buf (sget fr) (sget fr') ->
    ps_buf T ord tab fr buf = ps_buf T ord tab' fr' buf.
  Proof.
    intros A B. unfold ps_buf. rewrite (@freq_true_of fr fr' buf) by (apply B, substring_refl).
    rewrite (@tag_get_same buf tab tab' buf) by (auto using substring_refl).
    destruct (length buf =? 1); auto. destruct (negb (freq_true fr' buf)); auto.
    f_equal. apply map_ext_in. intros c HC. f_equal. apply (@tag_get_same buf tab tab'); auto. apply substring_char; auto.
  Qed.

  Lemma ps_hmm_loop_same tab tab' fr fr' s route fuel x b :
    same_tags s (sget tab) (sget tab') -> same_in s (sget fr) (sget fr') -> b <= x ->
    ps_hmm_loop T ord fuel tab fr s route x (slice s b x) = ps_hmm_loop T ord fuel tab' fr' s route x (slice s b x).
  Proof.
    intros A B. revert x b. induction fuel as [|fuel IH]; intros x b L; simpl; auto.
    assert (EB : ps_buf T ord tab fr (slice s b x) = ps_buf T ord tab' fr' (slice s b x)).
    { apply ps_buf_same; [eapply same_tags_sub|eapply same_in_sub]; eauto using substring_slice. }
    rewrite EB. destruct (x <? length s); auto. destruct (nth_error route x) as [r|]; auto.
    destruct (snd r + 1 - x =? 1) eqn:E.
    - apply Nat.eqb_eq in E. replace (snd r + 1) with (x + 1) by lia. rewrite slice_grow by auto. apply IH. lia.
    - rewrite (@tag_get_same s tab tab') by (auto using substring_slice). f_equal. f_equal.
      assert (Z : @nil char = slice s (snd r + 1) (snd r + 1)) by (unfold slice; rewrite Nat.sub_diag; auto).
      rewrite Z. apply IH. auto.
  Qed.

  Lemma ps_cut_same hmm tab tab' fr fr' total s :
    prefix_closed (sget fr) -> prefix_closed (sget fr') ->
    same_tags s (sget tab) (sget tab') -> same_in s (sget fr) (sget fr') ->
    ps_cut T ord hmm tab fr total s = ps_cut T ord hmm tab' fr' total s.
  Proof.
    intros P P' A B. unfold ps_cut. apply gfor_ext. intros blk HB. apply substring_split in HB.
    pose proof (same_tags_sub HB A) as A1. pose proof (same_in_sub HB B) as B1.
    destruct (re_matches ps_re_han_internal blk); auto.
    unfold ps_hmm_block, ps_nohmm_block. rewrite (get_DAG_same P P' B1).
    rewrite (@calc_same fr fr' total blk (get_DAG fr' blk) B1).
    destruct hmm, (calc num fr' total blk (get_DAG fr' blk)); auto.
    - change (@nil char) with (slice blk 0 0). apply ps_hmm_loop_same; auto.
    - apply ps_nohmm_loop_same; auto.
  Qed.
End Ext.
