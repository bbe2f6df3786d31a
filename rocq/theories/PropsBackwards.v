(** * C115: TextRank and the order of the words *)
From Coq Require Import Reals Lra Lia Permutation FunctionalExtensionality.
From Verif Require Import PyBase PyNum SpecNum SpecBase SpecSeg SpecDict SpecHealth ProofsBase
  ModelFinalseg ModelSeg ModelDict ModelApi ModelPosseg ModelAnalyse SpecAnalyse SpecTextrank
  InstR InstQ InstExt InstCount InstRound PropsPosseg ProofsPvit ProofsRank ProofsGraph ProofsKeywords ProofsTextrank ProofsRankSpec Demo DemoPos PropsTextrank PropsRepeat.

(** ** The weights depend on the number of links between two words only *)
Lemma link_pos ls a b : (link ls a b <> 0)%R <-> In (a, b) ls \/ In (b, a) ls.
Proof.
  unfold link. rewrite !(count_occ_In link_eq_dec). split.
  - intros N. destruct (count_occ link_eq_dec ls (a, b)) eqn:E1; [|left; lia].
    destruct (count_occ link_eq_dec ls (b, a)) eqn:E2; [|right; lia]. exfalso. apply N. reflexivity.
  - intros L E. change 0%R with (INR 0) in E. apply INR_eq in E. lia.
Qed.

Lemma nodes_links ls nodes n : nodes_of ls nodes -> In n nodes <-> exists b, (link ls n b <> 0)%R.
Proof.
  intros (_ & S & _). rewrite S, in_flat_map. split.
  - intros ([a b] & I & [<- | [<- | []]]); [exists b|exists a]; apply link_pos; auto.
  - intros (b & L). apply link_pos in L. destruct L as [L|L]; [exists (n, b)|exists (b, n)]; cbn; auto.
Qed.

Lemma nodup_term_words (l : list term) : Forall (fun t => exists w, t = TWord w) l -> forall a b, In a l -> In b l -> term_word a = term_word b -> a = b.
Proof. intros F a b A B. rewrite Forall_forall in F. destruct (F a A) as [u ->], (F b B) as [v ->]. cbn. congruence. Qed.

Lemma sum_over_perm l l' f : Permutation l l' -> sum_over l f = sum_over l' f.
Proof. unfold sum_over. induction 1; cbn [fold_right]; lra. Qed.

Lemma links_words lower stop allow span words ls : links_of lower stop allow span false words ls ->
  Forall (fun ab => (exists w, fst ab = TWord w) /\ exists w, snd ab = TWord w) ls.
Proof.
  intros (l & _ & F). induction F as [|ij ab l ls (p & q & _ & _ & ->) F IH]; constructor; auto.
  cbn. split; eexists; reflexivity.
Qed.

Lemma weights_same lower x allow words words' ls ls' :
  links_of lower (tr_stop x) allow (tr_span x) false words ls ->
  links_of lower (tr_stop x) allow (tr_span x) false words' ls' ->
  (forall a b, link ls' a b = link ls a b) ->
  exists d d', textrank_words numX lower x words allow false = Ok d /\
    textrank_words numX lower x words' allow false = Ok d' /\ Permutation d d'.
Proof.
  intros LS LS' EQ.
  destruct (spec_exists lower (tr_stop x) allow (tr_span x) false words) as (ls0 & nodes & order & L0 & NS & WO & EX).
  pose proof (links_unique _ _ _ _ _ _ _ _ L0 LS) as ->. clear L0.
  destruct (spec_exists lower (tr_stop x) allow (tr_span x) false words') as (ls0 & nodes' & order' & L0 & NS' & WO' & EX').
  pose proof (links_unique _ _ _ _ _ _ _ _ L0 LS') as ->. clear L0.
  assert (LF : link ls' = link ls) by (extensionality a; extensionality b; apply EQ).
  destruct ls as [|ab ls0].
  { assert (ls' = []).
    { destruct ls' as [|[a b] l]; auto. exfalso. assert (N : (link ((a, b) :: l) a b <> 0)%R) by (apply link_pos; left; left; auto).
      rewrite EQ in N. apply N. reflexivity. }
    subst ls'. exists [], []. rewrite (C73_no_links numX lower x words allow false LS), (C73_no_links numX lower x words' allow false LS'). auto. }
  set (ls := ab :: ls0) in *.
  assert (NE' : ls' <> []).
  { intros ->. assert (N : (link ls (fst ab) (snd ab) <> 0)%R) by (apply link_pos; left; left; destruct ab; auto).
    rewrite <- EQ in N. apply N. reflexivity. }
  destruct (EX ltac:(discriminate)) as (lo & hi & LO & HI). clear EX EX'.
  assert (PN : Permutation nodes nodes').
  { apply NoDup_Permutation; [apply NS|apply NS'|]. intros n. rewrite (nodes_links ls nodes n NS), (nodes_links ls' nodes' n NS'), LF. reflexivity. }
  assert (TW : Forall (fun t => exists w, t = TWord w) nodes).
  { apply Forall_forall. intros n I. destruct NS as (_ & S & _). apply S, in_flat_map in I. destruct I as (q & I & K).
    pose proof (links_words _ _ _ _ _ _ LS) as F. rewrite Forall_forall in F. destruct (F q I) as [F1 F2].
    destruct K as [<- | [<- | []]]; auto. }
  assert (EO : order' = order).
  { destruct WO as [P B], WO' as [P' B'].
    assert (ND : NoDup order) by (eapply Permutation_NoDup; [exact P|apply NS]).
    assert (ND' : NoDup order') by (eapply Permutation_NoDup; [exact P'|apply NS']).
    assert (IN : forall z, In z order' <-> In z order).
    { intros z. split; intros I.
      - eapply Permutation_in; [exact P|]. eapply Permutation_in; [apply Permutation_sym; exact PN|]. eapply Permutation_in; [apply Permutation_sym; exact P'|exact I].
      - eapply Permutation_in; [exact P'|]. eapply Permutation_in; [exact PN|]. eapply Permutation_in; [apply Permutation_sym; exact P|exact I]. }
    apply PropsRepeat.order_unique; auto. intros a b B1 B2.
    assert (NEQ : term_word a <> term_word b).
    { intros E. pose proof (PropsRepeat.before_In _ _ _ B2) as [I1 I2].
      assert (a = b). { apply (nodup_term_words nodes TW); auto; eapply Permutation_in; try (apply Permutation_sym; exact P); auto. }
      subst b. destruct B2 as (u & v & t & ->). clear - ND. apply NoDup_remove_2 in ND. apply ND. rewrite !in_app_iff. right. right. left. auto. }
    destruct (B' a b B1) as [S1 | [S1 _]]; [|contradiction]. destruct (B b a B2) as [S2 | [S2 _]]; [|symmetry in S2; contradiction].
    pose proof (str_ltb_trans _ _ _ S1 S2) as S3. rewrite str_ltb_irrefl in S3. discriminate S3. }
  subst order'.
  assert (DG : degree ls' nodes' = degree ls nodes).
  { extensionality a. unfold degree. rewrite LF. symmetry. apply sum_over_perm. exact PN. }
  assert (CO : collected ls' nodes' = collected ls nodes).
  { extensionality W. extensionality n. unfold collected. rewrite LF, DG. f_equal. f_equal. symmetry. apply sum_over_perm. exact PN. }
  assert (RW : raw_weight ls' nodes' order = raw_weight ls nodes order).
  { unfold raw_weight. rewrite <- (Permutation_length PN). unfold one_round. rewrite CO. reflexivity. }
  assert (LO' : smallest ls' nodes' order lo).
  { destruct LO as [(n & I & E) A]. unfold smallest. rewrite RW. split.
    - exists n. split; auto. eapply Permutation_in; eauto.
    - intros m M. apply A. eapply Permutation_in; [apply Permutation_sym; exact PN|exact M]. }
  assert (HI' : largest ls' nodes' order hi).
  { destruct HI as [(n & I & E) A]. unfold largest. rewrite RW. split.
    - exists n. split; auto. eapply Permutation_in; eauto.
    - intros m M. apply A. eapply Permutation_in; [apply Permutation_sym; exact PN|exact M]. }
  eexists _, _. split; [eapply (C73_exact lower x words allow false ls nodes order lo hi); eauto|].
  split; [eapply (C73_exact lower x words' allow false ls' nodes' order lo hi); eauto|].
  unfold weight. rewrite RW. apply Permutation_map. exact PN.
Qed.

Lemma link_perm ls ls' : Permutation ls ls' -> forall a b, link ls' a b = link ls a b.
Proof. intros P a b. unfold link. rewrite !(proj1 (Permutation_count_occ link_eq_dec _ _) P). reflexivity. Qed.

Definition swap (ab : term * term) : term * term := (snd ab, fst ab).
Lemma link_swap ls : forall a b, link (map swap ls) a b = link ls a b.
Proof.
  assert (C : forall a b, count_occ link_eq_dec (map swap ls) (a, b) = count_occ link_eq_dec ls (b, a)).
  { intros a b. induction ls as [|[c d] l IH]; [reflexivity|]. cbn [map count_occ]. rewrite IH. unfold swap. cbn [fst snd].
    destruct (link_eq_dec (d, c) (a, b)) as [E|N], (link_eq_dec (c, d) (b, a)) as [E'|N']; auto; exfalso.
    - injection E as -> ->. apply N'. reflexivity.
    - injection E' as -> ->. apply N. reflexivity. }
  intros a b. unfold link. rewrite !C. f_equal. apply Nat.add_comm.
Qed.

Section Pairs.
  Variables (lower : str -> str) (x : textrank) (allow : list str).
  Notation pf := (pairfilter lower x allow).
  Notation key := (tr_key allow false).
  Notation prs := (pairs lower x allow false).
  Notation k := (tr_span x - 1).

  Definition lastn {A} (n : nat) (l : list A) : list A := skipn (length l - n) l.

  Lemma filter_perm {A} (f : A -> bool) l l' : Permutation l l' -> Permutation (filter f l) (filter f l').
  Proof.
    induction 1 as [|z l l' P IH|y z l|l1 l2 l3 P1 IH1 P2 IH2]; cbn [filter]; auto.
    - destruct (f z); auto.
    - destruct (f y), (f z); auto. apply perm_swap.
    - eapply Permutation_trans; eauto.
  Qed.

  Lemma pairs_snoc q ws : Permutation (prs (ws ++ [q]))
    (prs ws ++ (if pf q then map (fun p => (key p, key q)) (filter pf (lastn k ws)) else [])).
  Proof.
    induction ws as [|a ws IH].
    - cbn [app pairs]. rewrite firstn_nil. cbn. destruct (pf q); reflexivity.
    - cbn [app pairs]. rewrite firstn_app.
      destruct (Nat.lt_ge_cases (length ws) k) as [L|L].
      + rewrite (firstn_all2 ws) by lia.
        replace (firstn (k - length ws) [q]) with [q] by (destruct (k - length ws) eqn:E; [lia|cbn; rewrite firstn_nil; reflexivity]).
        assert (LA : lastn k (a :: ws) = a :: ws) by (unfold lastn; replace (length (a :: ws) - k) with 0 by (cbn [length]; lia); reflexivity).
        assert (LB : lastn k ws = ws) by (unfold lastn; replace (length ws - k) with 0 by lia; reflexivity).
        rewrite LA. rewrite LB in IH. rewrite filter_app. cbn [filter]. destruct (pf a) eqn:EA.
        * rewrite map_app, <- !app_assoc. apply Permutation_app_head. destruct (pf q).
          -- cbn [map app]. eapply Permutation_trans; [apply perm_skip; exact IH|]. apply Permutation_middle.
          -- cbn [map app]. rewrite app_nil_r in *. exact IH.
        * cbn [app]. exact IH.
      + replace (k - length ws) with 0 by lia. cbn [firstn]. rewrite app_nil_r.
        assert (LA : lastn k (a :: ws) = lastn k ws) by (unfold lastn; replace (length (a :: ws) - k) with (S (length ws - k)) by (cbn [length]; lia); reflexivity).
        rewrite LA, <- app_assoc. apply Permutation_app_head. exact IH.
  Qed.

  Lemma pairs_rev ws : Permutation (prs (rev ws)) (map swap (prs ws)).
  Proof.
    induction ws as [|p ws IH]; [reflexivity|]. cbn [rev pairs].
    eapply Permutation_trans; [apply pairs_snoc|]. rewrite map_app.
    eapply Permutation_trans; [apply Permutation_app_comm|]. apply Permutation_app; [|exact IH].
    destruct (pf p); [|reflexivity]. rewrite map_map. unfold swap. cbn [fst snd].
    apply Permutation_map, filter_perm. unfold lastn. rewrite skipn_rev.
    replace (firstn (length ws - (length (rev ws) - k)) ws) with (firstn k ws).
    - apply Permutation_sym, Permutation_rev.
    - rewrite rev_length. destruct (Nat.le_gt_cases k (length ws)) as [L|L].
      + f_equal. lia.
      + rewrite !firstn_all2 by lia. reflexivity.
  Qed.

  Lemma pairs_parts sep b : Forall (fun p => pf p = false) sep -> k <= length sep ->
    forall a, prs (a ++ sep ++ b) = prs a ++ prs b.
  Proof.
    intros F L. assert (SB : prs (sep ++ b) = prs b).
    { clear L. induction F as [|p sep E F IH]; [reflexivity|]. cbn [app pairs]. rewrite E. exact IH. }
    induction a as [|p a IH]; [exact SB|]. cbn [app pairs]. rewrite IH, <- app_assoc. f_equal.
    destruct (pf p); [|reflexivity]. f_equal. rewrite firstn_app, filter_app.
    replace (filter pf (firstn (k - length a) (sep ++ b))) with (@nil tagged); [apply app_nil_r|].
    rewrite firstn_app. replace (k - length a - length sep) with 0 by lia. cbn [firstn]. rewrite app_nil_r.
    symmetry. assert (F2 : Forall (fun p => pf p = false) (firstn (k - length a) sep)).
    { rewrite <- (firstn_skipn (k - length a) sep) in F. apply Forall_app in F. apply F. }
    induction F2 as [|q l E F2 IH2]; [reflexivity|]. cbn [filter]. rewrite E. exact IH2.
  Qed.

  Lemma pairs_all_parts sep : Forall (fun p => pf p = false) sep -> k <= length sep ->
    forall parts, prs (flat_map (fun a => a ++ sep) parts) = flat_map prs parts.
  Proof.
    intros F L. induction parts as [|a parts IH]; [reflexivity|]. cbn [flat_map]. rewrite <- app_assoc, pairs_parts by auto.
    rewrite IH. reflexivity.
  Qed.
End Pairs.

(** ** C115: reading backwards

    The words with their weights are the same (only the order of equal weights may
    change), without tags in the result and in exact arithmetic. *)
Theorem C115_backwards :
  forall (lower : str -> str) (x : textrank) (words : list tagged) (allow : list str),
    exists d d', textrank_words numX lower x words allow false = Ok d /\
      textrank_words numX lower x (rev words) allow false = Ok d' /\ Permutation d d'.
Proof.
  intros lower x words allow.
  eapply weights_same; [apply pairs_links|apply pairs_links|].
  intros a b. rewrite (link_perm _ _ (Permutation_sym (pairs_rev lower x allow words))). apply link_swap.
Qed.

(** ** Parts that are far enough apart, in any order *)
Theorem C115_parts_in_any_order :
  forall (lower : str -> str) (x : textrank) (allow : list str) (sep : list tagged) (parts parts' : list (list tagged)),
    Forall (fun p => ~ passes lower (tr_stop x) allow p) sep -> tr_span x <= S (length sep) ->
    Permutation parts parts' ->
    exists d d',
      textrank_words numX lower x (flat_map (fun part => part ++ sep) parts) allow false = Ok d /\
      textrank_words numX lower x (flat_map (fun part => part ++ sep) parts') allow false = Ok d' /\ Permutation d d'.
Proof.
  intros lower x allow sep parts parts' F L P.
  assert (F' : Forall (fun p => pairfilter lower x allow p = false) sep).
  { eapply Forall_impl; [|exact F]. intros p N. destruct (pairfilter lower x allow p) eqn:E; auto. apply pairfilter_passes in E. contradiction. }
  eapply weights_same; [apply pairs_links|apply pairs_links|].
  apply link_perm. rewrite !pairs_all_parts by (auto; lia).
  apply Permutation_flat_map. exact P.
Qed.

(** ** Neither holds for tagged terms, nor for any other order of the words

    With [withFlag] set a word under two tags is two terms, and [sorted] leaves terms of one word
    as they came (jieba/analyse/textrank.py:34, jieba/posseg/__init__.py:65-66).  So the reading
    order decides which of the two is recomputed first in each round. *)
Notation w_a := [c_bei; c_jing] (only parsing).
Notation w_b := [c_da; c_xue; c_sheng] (only parsing).
Notation w_c := [c_xue; c_sheng] (only parsing).
Definition s_vn : str := [118; 110]%N.
Definition near : textrank := mkTr stop_words_default 2.
Definition mixed_words : list tagged := [(w_a, s_n); (w_a, s_vn); (w_b, s_n)].
Definition plain_words : list tagged := [(w_a, s_n); (w_b, s_n); (w_c, s_n)].

Definition differ (d d' : kdict (F numE)) : Prop :=
  exists t a b, In (t, Some a) d /\ In (t, Some b) d' /\ ~ QArith_base.Qeq a b.

Theorem C115_flags_refuted :
  ~ forall (x : textrank) (words : list tagged) (allow : list str) d d',
      textrank_words numE (fun s => s) x words allow true = Ok d ->
      textrank_words numE (fun s => s) x (rev words) allow true = Ok d' -> ~ differ d d'.
Proof.
  intros H.
  destruct (textrank_words numE (fun s => s) near mixed_words [s_n; s_vn] true) as [d|] eqn:E;
    [|vm_compute in E; discriminate E].
  destruct (textrank_words numE (fun s => s) near (rev mixed_words) [s_n; s_vn] true) as [d'|] eqn:E';
    [|vm_compute in E'; discriminate E'].
  apply (H near mixed_words [s_n; s_vn] d d' E E').
  vm_compute in E, E'. injection E as <-. injection E' as <-.
  eexists (TPair w_a s_n), _, _. split; [left; reflexivity|]. split; [right; right; left; reflexivity|].
  intros Q. apply QArith_base.Qeq_bool_iff in Q. vm_compute in Q. discriminate Q.
Qed.

Theorem C115_any_order_refuted :
  ~ forall (x : textrank) (words words' : list tagged) (allow : list str) d d',
      Permutation words words' ->
      textrank_words numE (fun s => s) x words allow false = Ok d ->
      textrank_words numE (fun s => s) x words' allow false = Ok d' -> ~ differ d d'.
Proof.
  intros H.
  destruct (textrank_words numE (fun s => s) near plain_words [s_n] false) as [d|] eqn:E;
    [|vm_compute in E; discriminate E].
  set (other := [(w_a, s_n); (w_c, s_n); (w_b, s_n)] : list tagged).
  destruct (textrank_words numE (fun s => s) near other [s_n] false) as [d'|] eqn:E';
    [|vm_compute in E'; discriminate E'].
  refine (H near plain_words other [s_n] d d' _ E E' _).
  { apply perm_skip, perm_swap. }
  vm_compute in E, E'. injection E as <-. injection E' as <-.
  eexists (TWord w_b), _, _. split; [right; left; reflexivity|]. split; [right; right; left; reflexivity|].
  intros Q. apply QArith_base.Qeq_bool_iff in Q. vm_compute in Q. discriminate Q.
Qed.

(** ** A case: two links, one inside each part; the parts are separated by four words that do not
    pass, as the shipped span of five asks for *)
Definition gap : list tagged := repeat ([c_da], s_n) 4.
Definition part1 : list tagged := [(w_a, s_n); (w_b, s_n)].
Definition part2 : list tagged := [(w_a, s_n); (w_c, s_n)].

Example C115_nonvacuous :
  Forall (fun p => ~ passes (fun s => s) (tr_stop textrank_init) [s_n] p) gap /\
  tr_span textrank_init <= S (length gap) /\ Permutation [part1; part2] [part2; part1] /\
  (exists d d', textrank_words numX (fun s => s) textrank_init (flat_map (fun part => part ++ gap) [part1; part2]) [s_n] false = Ok d /\
     textrank_words numX (fun s => s) textrank_init (flat_map (fun part => part ++ gap) [part2; part1]) [s_n] false = Ok d' /\
     Permutation d d') /\
  cooccur (fun s => s) textrank_init [s_n] false (flat_map (fun part => part ++ gap) [part1; part2]) [] =
    [((TWord w_a, TWord w_b), 1%Z); ((TWord w_a, TWord w_c), 1%Z)].
Proof.
  assert (F : Forall (fun p => ~ passes (fun s => s) (tr_stop textrank_init) [s_n] p) gap).
  { apply Forall_forall. intros p I. apply repeat_spec in I. subst p. intros (_ & L & _). vm_compute in L. lia. }
  assert (P : Permutation [part1; part2] [part2; part1]) by apply perm_swap.
  assert (L : tr_span textrank_init <= S (length gap)) by (vm_compute; lia).
  split; auto. split; auto. split; auto. split; [exact (C115_parts_in_any_order (fun s => s) textrank_init [s_n] gap _ _ F L P)|].
  vm_compute. reflexivity.
Qed.

Print Assumptions C115_backwards.
Print Assumptions C115_parts_in_any_order.
Print Assumptions C115_flags_refuted.
Print Assumptions C115_any_order_refuted.
