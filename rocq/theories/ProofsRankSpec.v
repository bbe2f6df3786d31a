(** * The graph the code builds and the links between words *)
From Coq Require Import Reals Lra Lia Permutation.
From Verif Require Import PyBase PyNum SpecNum ProofsBase ModelFinalseg ModelSeg ModelDict ModelApi
  ModelPosseg ModelAnalyse SpecAnalyse SpecTextrank ProofsRank ProofsGraph ProofsTextrank ProofsPvit ProofsRankNear.
Local Open Scope R_scope.

(** ** Sums *)

Definition is (a b : term) : R := if term_eq_dec a b then 1 else 0.

Lemma sum_over_plus l f g : sum_over l (fun x => f x + g x) = sum_over l f + sum_over l g.
Proof. induction l as [|a l IH]; cbn [sum_over fold_right]; [lra|]. unfold sum_over in *. lra. Qed.
Lemma sum_over_ext l f g : (forall x, In x l -> f x = g x) -> sum_over l f = sum_over l g.
Proof.
  induction l as [|a l IH]; intros E; cbn; auto. rewrite E by (left; auto). unfold sum_over in IH.
  rewrite IH; auto. intros; apply E; right; auto.
Qed.
Lemma sum_over_0 l f : (forall x, In x l -> f x = 0) -> sum_over l f = 0.
Proof.
  induction l as [|a l IH]; intros E; cbn; auto. rewrite E by (left; auto). unfold sum_over in IH.
  rewrite IH; [lra|]. intros; apply E; right; auto.
Qed.
Lemma sum_over_is l m h : NoDup l -> In m l -> sum_over l (fun b => is b m * h b) = h m.
Proof.
  induction l as [|a l IH]; intros N I; [contradiction|]. inversion N; subst. cbn [sum_over fold_right].
  fold (sum_over l (fun b => is b m * h b)). unfold is at 1. destruct (term_eq_dec a m) as [->|NE].
  - rewrite sum_over_0; [lra|]. intros b J. unfold is. destruct (term_eq_dec b m); [congruence|lra].
  - rewrite IH; auto; [lra|]. destruct I; congruence.
Qed.

(** ** Edges *)

Definition esum (h : term -> R) (es : list edge) : R := fold_right (fun e a => IZR (snd e) * h (snd (fst e)) + a) 0 es.
Lemma esum_app h a b : esum h (a ++ b) = esum h a + esum h b.
Proof. unfold esum. induction a as [|e a IH]; cbn [app fold_right]; lra. Qed.

Definition ends (h : term -> R) (n : term) (ab : term * term) : R := is n (fst ab) * h (snd ab) + is n (snd ab) * h (fst ab).
Definition gsum (h : term -> R) (n : term) (cm : list (term * term * Z)) : R :=
  fold_right (fun e a => IZR (snd e) * ends h n (fst e) + a) 0 cm.

Lemma graph_esum h n cm : esum h (edges (graph_of cm) n) = gsum h n cm.
Proof.
  unfold graph_of. enough (H : forall g, esum h (edges (fold_left (fun g kw => add_edge g (fst (fst kw)) (snd (fst kw)) (snd kw)) cm g) n)
    = esum h (edges g n) + gsum h n cm).
  { rewrite H. cbn. lra. }
  induction cm as [|[[a b] w] cm IH]; intros g; cbn [fold_left gsum fold_right]; [lra|].
  rewrite IH. fold (gsum h n cm). unfold add_edge, ends, is. cbn [fst snd]. rewrite !push_edges.
  destruct (term_eq_dec n b), (term_eq_dec n a); rewrite ?esum_app; cbn [esum fold_right fst snd]; lra.
Qed.

Lemma bump_gsum h n cm k : gsum h n (bump cm k) = gsum h n cm + ends h n k.
Proof.
  unfold bump. induction cm as [|[j w] cm IH]; cbn [dset dget gsum fold_right fst snd].
  - cbn. lra.
  - destruct (pair_eqb k j) eqn:E.
    + apply pair_eqb_eq in E. subst j. cbn [gsum fold_right fst snd]. rewrite plus_IZR. lra.
    + cbn [gsum fold_right fst snd]. fold (gsum h n cm).
      fold (gsum h n (dset pair_eqb cm k ((match dget pair_eqb cm k with Some n => n | None => 0%Z end) + 1)%Z)).
      rewrite IH. lra.
Qed.

Definition psum (h : term -> R) (n : term) (ps : list (term * term)) : R := fold_right (fun p a => ends h n p + a) 0 ps.
Lemma bumps_gsum h n ps cm : gsum h n (fold_left bump ps cm) = gsum h n cm + psum h n ps.
Proof.
  revert cm. induction ps as [|p ps IH]; intros cm; cbn [fold_left psum fold_right]; [lra|].
  rewrite IH, bump_gsum. unfold psum. lra.
Qed.

Lemma psum_links h n ps nodes : NoDup nodes -> (forall a b, In (a, b) ps -> In a nodes /\ In b nodes) ->
  psum h n ps = sum_over nodes (fun b => link ps n b * h b).
Proof.
  intros N. induction ps as [|[a b] ps IH]; intros P.
  - rewrite sum_over_0; auto. intros x _. unfold link. cbn. lra.
  - cbn [psum fold_right]. fold (psum h n ps). rewrite IH by (intros; apply P; right; auto).
    destruct (P a b) as [IA IB]; [left; auto|]. unfold ends. cbn [fst snd].
    rewrite <- (sum_over_is nodes b h N IB), <- (sum_over_is nodes a h N IA).
    rewrite (sum_over_ext nodes (fun x => link ((a, b) :: ps) n x * h x)
      (fun x => is n a * (is x b * h x) + is n b * (is x a * h x) + link ps n x * h x)).
    + rewrite !sum_over_plus. f_equal. f_equal.
      * clear. induction nodes as [|m l IH]; cbn; [lra|]. unfold sum_over in IH. lra.
      * clear. induction nodes as [|m l IH]; cbn; [lra|]. unfold sum_over in IH. lra.
    + intros x _. unfold link. cbn [count_occ].
      rewrite !plus_INR.
      assert (E : forall p q : term * term, INR (if link_eq_dec p q then S (count_occ link_eq_dec ps q) else count_occ link_eq_dec ps q)
        = is (fst q) (fst p) * is (snd q) (snd p) + INR (count_occ link_eq_dec ps q)).
      { intros [p1 p2] [q1 q2]. cbn [fst snd]. unfold is. destruct (link_eq_dec (p1, p2) (q1, q2)) as [EQ|NE].
        - inversion EQ; subst. rewrite S_INR. destruct (term_eq_dec q1 q1), (term_eq_dec q2 q2); try congruence. lra.
        - destruct (term_eq_dec q1 p1), (term_eq_dec q2 p2); try lra. congruence. }
      rewrite !E. cbn [fst snd]. lra.
Qed.

(** ** Nodes *)

Definition addk {A} (dec : forall a b : A, {a = b} + {a <> b}) (l : list A) (k : A) : list A :=
  if in_dec dec k l then l else l ++ [k].
Notation flat := (flat_map (fun ab : term * term => [fst ab; snd ab])).

Lemma kset_addk {V} (d : kdict V) k x : map fst (kset d k x) = addk term_eq_dec (map fst d) k.
Proof.
  unfold kset. rewrite dset_keys. unfold addk, dmem. fold (kget d k).
  destruct (kget d k) eqn:E; destruct (in_dec term_eq_dec k (map fst d)) as [I|N]; auto.
  - apply kget_In in N. congruence.
  - apply kget_In in E. contradiction.
Qed.

Lemma graph_addk cm : map fst (graph_of cm) = fold_left (addk term_eq_dec) (flat (map fst cm)) [].
Proof.
  unfold graph_of. enough (H : forall g : graph, map fst (fold_left (fun g kw => add_edge g (fst (fst kw)) (snd (fst kw)) (snd kw)) cm g)
    = fold_left (addk term_eq_dec) (flat (map fst cm)) (map fst g)) by apply H.
  induction cm as [|[[a b] w] cm IH]; intros g; cbn [fold_left map flat_map fst snd app]; auto.
  rewrite IH. f_equal. unfold add_edge, push. rewrite !kset_addk. auto.
Qed.

Lemma addk_In {A} dec (l : list A) k x : In x (addk dec l k) <-> In x l \/ x = k.
Proof.
  unfold addk. destruct (in_dec dec k l).
  - split; auto. intros [I| ->]; auto.
  - rewrite in_app_iff. cbn. intuition.
Qed.
Lemma addk_have {A} dec (l : list A) k : In k l -> addk dec l k = l.
Proof. intros I. unfold addk. destruct (in_dec dec k l); tauto. Qed.
Lemma addks_In {A} dec (ks l : list A) x : In x (fold_left (addk dec) ks l) <-> In x l \/ In x ks.
Proof.
  revert l. induction ks as [|k ks IH]; intros l; cbn; [tauto|]. rewrite IH, addk_In. intuition.
Qed.

Lemma bumps_addk ps : map fst (fold_left bump ps []) = fold_left (addk link_eq_dec) ps [].
Proof.
  enough (H : forall cm, map fst (fold_left bump ps cm) = fold_left (addk link_eq_dec) ps (map fst cm)) by apply H.
  induction ps as [|p ps IH]; intros cm; cbn [fold_left]; auto. rewrite IH. f_equal.
  unfold bump. rewrite dset_keys. unfold addk, dmem.
  destruct (dget pair_eqb cm p) eqn:E; destruct (in_dec link_eq_dec p (map fst cm)) as [I|N]; auto.
  - exfalso. apply N. apply dget_In in E; [|apply pair_eqb_eq]. apply in_map_iff. eexists (_, _). split; [|exact E]. auto.
  - apply (dget_None _ pair_eqb_eq) in E. contradiction.
Qed.

Lemma flat_addk ps : fold_left (addk term_eq_dec) (flat (fold_left (addk link_eq_dec) ps [])) [] =
  fold_left (addk term_eq_dec) (flat ps) [].
Proof.
  induction ps as [|p ps IH] using rev_ind; auto.
  rewrite !fold_left_app, flat_map_app, fold_left_app, <- IH. cbn [fold_left flat_map app].
  set (l := fold_left (addk link_eq_dec) ps []) in *. unfold addk at 2.
  destruct (in_dec link_eq_dec p l) as [I|N].
  - rewrite (addk_have _ _ (fst p)), (addk_have _ _ (snd p)); auto.
    + apply addks_In. right. apply in_flat_map. exists p. cbn. auto.
    + apply addks_In. right. apply in_flat_map. exists p. cbn. auto.
  - rewrite flat_map_app, fold_left_app. auto.
Qed.

Lemma tally_addk l : map fst (tally l) = fold_left (addk term_eq_dec) l [].
Proof.
  induction l as [|k l IH] using rev_ind; auto. rewrite tally_snoc, fold_left_app, kset_addk, IH. auto.
Qed.

(** the nodes of the graph *)
Lemma graph_nodes ps : nodes_of ps (map fst (graph_of (fold_left bump ps []))).
Proof.
  unfold nodes_of. rewrite graph_addk, bumps_addk, flat_addk, <- tally_addk. apply tally_firsts.
Qed.

(** ** The order *)

Lemma word_sorted l : word_order l (sorted_asc term_ltb l).
Proof.
  split; [apply keys_sorted|]. induction l as [|x l IH]; intros a b B; [apply before_nil in B; contradiction|].
  change (sorted_asc term_ltb (x :: l)) with (insert_asc term_ltb x (sorted_asc term_ltb l)) in B.
  set (r := sorted_asc term_ltb l) in *.
  assert (IHw : forall a b, before r a b -> str_ltb (term_word b) (term_word a) = false).
  { intros u w C. destruct (IH u w C) as [L|[L _]].
    - destruct (str_ltb (term_word w) (term_word u)) eqn:E; auto. pose proof (str_ltb_trans _ _ _ L E) as T.
      rewrite str_ltb_irrefl in T. discriminate.
    - rewrite L. apply str_ltb_irrefl. }
  assert (PIN : forall y, In y r -> In y l) by (intros y; apply Permutation_in, Permutation_sym, keys_sorted).
  assert (SPLIT : exists l1 l2, r = l1 ++ l2 /\ insert_asc term_ltb x r = l1 ++ x :: l2 /\
    Forall (fun y => str_ltb (term_word y) (term_word x) = true) l1 /\
    Forall (fun y => str_ltb (term_word y) (term_word x) = false) l2).
  { clear - IHw. induction r as [|y r IH]; cbn [insert_asc].
    - exists [], []. auto.
    - unfold term_ltb at 1. destruct (str_ltb (term_word y) (term_word x)) eqn:E.
      + destruct IH as (l1 & l2 & -> & -> & F1 & F2); [intros; apply IHw, before_cons; auto|].
        exists (y :: l1), l2. auto.
      + exists [], (y :: r). split; auto. split; auto. split; auto. constructor; auto. apply Forall_forall.
        intros z I. destruct (str_ltb (term_word z) (term_word x)) eqn:E2; auto.
        assert (NB : str_ltb (term_word z) (term_word y) = false) by (apply IHw, before_cons; auto).
        destruct (str_ltb_total (term_word y) (term_word z)) as [L|[L|L]]; try congruence.
        * pose proof (str_ltb_trans _ _ _ L E2). congruence. }
  destruct SPLIT as (l1 & l2 & ER & EI & F1 & F2). rewrite EI in B. rewrite Forall_forall in F1, F2.
  assert (LIFT : before r a b -> str_ltb (term_word a) (term_word b) = true \/ term_word a = term_word b /\ before (x :: l) a b).
  { intros C. destruct (IH a b C) as [L|[L M]]; auto. right. split; auto. apply before_cons. auto. }
  apply before_app in B. rewrite before_cons in B. cbn [In] in B.
  destruct B as [B|[[[-> I]|B]|[I [<-|J]]]].
  - apply LIFT. rewrite ER. apply before_app. auto.
  - specialize (F2 b I). destruct (str_ltb_total (term_word x) (term_word b)) as [L|[L|L]]; auto; try congruence.
    right. split; auto. apply before_cons. left. split; auto. apply PIN. rewrite ER. apply in_or_app. auto.
  - apply LIFT. rewrite ER. apply before_app. auto.
  - left. apply F1. auto.
  - apply LIFT. rewrite ER. apply before_app. auto.
Qed.

(** ** Lists in order are unique *)

Lemma ordered_unique {A} (lt : A -> A -> Prop) (l l' : list A) :
  (forall a b, lt a b -> lt b a -> False) -> (forall a b, before l a b -> lt a b) -> (forall a b, before l' a b -> lt a b) ->
  (forall x, In x l <-> In x l') -> l = l'.
Proof.
  intros AS. revert l'. induction l as [|x l IH]; intros l' B B' S.
  - destruct l' as [|y l']; auto. exfalso. apply (S y). left. auto.
  - destruct l' as [|y l']; [exfalso; apply (S x); left; auto|].
    assert (IR : forall a, ~ lt a a) by (intros a L; eauto).
    assert (NX : ~ In x l) by (intros I; apply (IR x), B, before_cons; auto).
    assert (NY : ~ In y l') by (intros I; apply (IR y), B', before_cons; auto).
    assert (E : x = y).
    { destruct (proj1 (S x)) as [E|I]; [left; auto|auto|]. destruct (proj2 (S y)) as [E|J]; [left; auto|auto|].
      exfalso. apply (AS x y); [apply B|apply B']; apply before_cons; auto. }
    subst y. f_equal. apply IH.
    + intros a b C. apply B, before_cons. auto.
    + intros a b C. apply B', before_cons. auto.
    + intros z. split; intros I.
      * destruct (proj1 (S z)) as [->|]; [right; auto|contradiction|auto].
      * destruct (proj2 (S z)) as [->|]; [right; auto|contradiction|auto].
Qed.

Lemma firsts_unique {A} (l c c' : list A) : first_occurrences l c -> first_occurrences l c' -> c = c'.
Proof.
  intros (_ & S & B) (_ & S' & B').
  apply (ordered_unique (fun x y => exists u v, l = u ++ x :: v /\ ~ In y u /\ y <> x)).
  - intros a b (u & v & E & N & NE) (u' & v' & E' & N' & NE'). rewrite E in E'.
    apply app_eq_app in E'. destruct E' as (r & [[E1 E2]|[E1 E2]]).
    + destruct r as [|z r]; cbn in E2; inversion E2; subst; [congruence|]. apply N. apply in_or_app. right. left. auto.
    + destruct r as [|z r]; cbn in E2; inversion E2; subst; [congruence|]. apply N'. apply in_or_app. right. left. auto.
  - auto.
  - auto.
  - intros x. rewrite S, S'. tauto.
Qed.

Lemma before_nodup {A} (l : list A) a b : NoDup l -> before l a b -> before l b a -> False.
Proof.
  induction l as [|x l IH]; intros N B C; [apply (before_nil a b); auto|].
  inversion N; subst. apply before_cons in B. apply before_cons in C.
  destruct B as [[-> I]|B], C as [[-> J]|C]; auto.
  - apply before_In in C. tauto.
  - apply before_In in B. tauto.
Qed.

Lemma word_order_unique nodes o o' : NoDup nodes -> word_order nodes o -> word_order nodes o' -> o = o'.
Proof.
  intros N [P B] [P' B'].
  apply (ordered_unique (fun a b => str_ltb (term_word a) (term_word b) = true \/ (term_word a = term_word b /\ before nodes a b))); auto.
  - intros a b [L|[E L]] [L'|[E' L']].
    + pose proof (str_ltb_trans _ _ _ L L') as T. rewrite str_ltb_irrefl in T. discriminate.
    + rewrite E', str_ltb_irrefl in L. discriminate.
    + rewrite E, str_ltb_irrefl in L'. discriminate.
    + eapply before_nodup; eauto.
  - intros x. split; intros I.
    + eapply Permutation_in; [exact P'|]. eapply Permutation_in; [apply Permutation_sym, P|]. auto.
    + eapply Permutation_in; [exact P|]. eapply Permutation_in; [apply Permutation_sym, P'|]. auto.
Qed.

(** ** The links *)

Section Links.
  Variable lower : str -> str.
  Variable x : textrank.
  Variable allow : list str.
  Variable wf : bool.
  Notation stop := (tr_stop x).
  Notation span := (tr_span x).
  Notation pf := (pairfilter lower x allow).
  Notation ps := (pairs lower x allow wf).

  Fixpoint places (i : nat) (words : list tagged) : list (nat * nat) :=
    match words with
    | [] => []
    | p :: rest =>
        (if pf p then map (fun jq => (i, fst jq)) (filter (fun jq => pf (snd jq))
            (combine (seq (S i) (length (firstn (span - 1) rest))) (firstn (span - 1) rest))) else [])
        ++ places (S i) rest
    end.

  Lemma filter_combine_seq {B} (f : tagged -> bool) (g : tagged -> B) words : forall i,
    Forall2 (fun (jq : nat * tagged) y => (i <= fst jq)%nat /\ nth_error words (fst jq - i) = Some (snd jq) /\ f (snd jq) = true /\ y = g (snd jq))
      (filter (fun jq => f (snd jq)) (combine (seq i (length words)) words)) (map g (filter f words)).
  Proof.
    induction words as [|p words IH]; intros i; cbn [length seq combine filter map]; auto. cbn [snd].
    assert (R : Forall2 (fun (jq : nat * tagged) y => (i <= fst jq)%nat /\ nth_error (p :: words) (fst jq - i) = Some (snd jq) /\ f (snd jq) = true /\ y = g (snd jq))
      (filter (fun jq => f (snd jq)) (combine (seq (S i) (length words)) words)) (map g (filter f words))).
    { specialize (IH (S i)). induction IH as [|a b la lb (H1 & H2 & H3 & H4) F IHF]; constructor; auto.
      split; [lia|]. split; auto. replace (fst a - i)%nat with (S (fst a - S i)) by lia. auto. }
    destruct (f p) eqn:E; auto. cbn [map]. constructor; auto. cbn [fst snd]. rewrite Nat.sub_diag. auto.
  Qed.

  Lemma places_names words all i : (forall k, nth_error words k = nth_error all (i + k)) ->
    Forall2 (fun ij ab => exists p q, nth_error all (fst ij) = Some p /\ nth_error all (snd ij) = Some q /\
               ab = (ranked_as allow wf p, ranked_as allow wf q)) (places i words) (ps words).
  Proof.
    revert i. induction words as [|p rest IH]; intros i E; cbn [places pairs]; auto.
    apply Forall2_app.
    - destruct (pf p) eqn:P; auto.
      pose proof (filter_combine_seq pf (fun q => (tr_key allow wf p, tr_key allow wf q)) (firstn (span - 1) rest) (S i)) as F.
      set (la := filter _ (combine _ _)) in *. set (lb := map _ (filter _ _)) in *.
      assert (P0 : nth_error all i = Some p) by (specialize (E 0%nat); rewrite Nat.add_0_r in E; rewrite <- E; auto).
      clear - F E P0. induction F as [|[j q] b la lb (H1 & H2 & H3 & H4) F IHF]; cbn [map]; constructor; auto.
      cbn [fst snd] in *. exists p, q. split; auto. split; [|rewrite !tr_key_named in H4; auto].
      specialize (E (S (j - S i))%nat). replace (i + S (j - S i))%nat with j in E by lia. rewrite <- E. cbn.
      assert (L : (j - S i < length (firstn (span - 1) rest))%nat) by (apply nth_error_Some; congruence).
      rewrite <- (firstn_skipn (span - 1) rest), nth_error_app1; auto.
    - apply IH. intros k. specialize (E (S k)). cbn in E. rewrite E. f_equal. lia.
  Qed.

  Lemma combine_seq_In {A} (l : list A) i j q : In (j, q) (combine (seq i (length l)) l) <-> (i <= j)%nat /\ nth_error l (j - i) = Some q.
  Proof.
    revert i. induction l as [|a l IH]; intros i; cbn [length seq combine In].
    - split; [tauto|]. intros [_ E]. destruct (j - i)%nat; discriminate.
    - rewrite IH. split.
      + intros [E|[L E]]; [inversion E; subst; rewrite Nat.sub_diag; auto|].
        split; [lia|]. replace (j - i)%nat with (S (j - S i)) by lia. auto.
      + intros [L E]. destruct (Nat.eq_dec j i) as [->|NE].
        * left. rewrite Nat.sub_diag in E. inversion E. auto.
        * right. split; [lia|]. replace (j - i)%nat with (S (j - S i)) in E by lia. auto.
  Qed.
  Lemma combine_seq_before {A} (l : list A) i a b : before (combine (seq i (length l)) l) a b -> (fst a < fst b)%nat.
  Proof.
    revert i. induction l as [|y l IH]; intros i; cbn [length seq combine]; intros B; [apply before_nil in B; contradiction|].
    apply before_cons in B. destruct B as [[-> I]|B]; [|eauto]. destruct b as [j q]. apply combine_seq_In in I. cbn. lia.
  Qed.
  Lemma before_filter {A} (f : A -> bool) l a b : before (filter f l) a b -> before l a b.
  Proof.
    induction l as [|y l IH]; cbn [filter]; auto. destruct (f y).
    - rewrite !before_cons. intros [[-> I]|B]; auto. left. split; auto. apply filter_In in I. tauto.
    - rewrite before_cons. auto.
  Qed.

  Lemma places_In words all i : (forall k, nth_error words k = nth_error all (i + k)) -> forall a b,
    In (a, b) (places i words) <->
    exists p q, nth_error all a = Some p /\ nth_error all b = Some q /\ (i <= a)%nat /\ (a < b < a + span)%nat /\ pf p = true /\ pf q = true.
  Proof.
    revert i. induction words as [|p rest IH]; intros i E a b; cbn [places].
    - split; [intros []|]. intros (p & q & E1 & _ & L & _).
      specialize (E (a - i)%nat). replace (i + (a - i))%nat with a in E by lia. destruct (a - i)%nat; cbn in E; congruence.
    - assert (P0 : nth_error all i = Some p) by (specialize (E 0%nat); rewrite Nat.add_0_r in E; rewrite <- E; auto).
      assert (ER : forall k, nth_error rest k = nth_error all (S i + k)).
      { intros k. specialize (E (S k)). cbn in E. rewrite E. f_equal. lia. }
      rewrite in_app_iff, IH by auto. split.
      + intros [I|(p' & q & E1 & E2 & L & R)]; [|exists p', q; split; auto; split; auto; split; [lia|auto]].
        destruct (pf p) eqn:P; [|contradiction]. apply in_map_iff in I. destruct I as ([j q] & EQ & I). inversion EQ; subst. cbn [fst].
        apply filter_In in I. cbn [snd] in I. destruct I as [I Q]. apply combine_seq_In in I. destruct I as [L I].
        assert (LL : (b - S a < length (firstn (span - 1) rest))%nat) by (apply nth_error_Some; congruence).
        exists p, q. split; auto. split.
        { specialize (ER (b - S a)%nat). replace (S a + (b - S a))%nat with b in ER by lia. rewrite <- ER.
          rewrite <- (firstn_skipn (span - 1) rest), nth_error_app1; auto. }
        rewrite firstn_length in LL. split; [lia|]. split; [lia|]. auto.
      + intros (p' & q & E1 & E2 & L & R & P & Q). destruct (Nat.eq_dec a i) as [->|NE].
        * left. assert (p' = p) by congruence. subst p'. rewrite P. apply in_map_iff. exists (b, q). split; auto.
          apply filter_In. split; auto. apply combine_seq_In. split; [lia|].
          specialize (ER (b - S i)%nat). replace (S i + (b - S i))%nat with b in ER by lia. rewrite E2 in ER.
          rewrite <- (firstn_skipn (span - 1) rest), nth_error_app1 in ER; auto. rewrite firstn_length.
          assert (b - S i < length rest)%nat; [|lia].
          apply nth_error_Some. intros Z. specialize (E (S (b - S i))%nat). cbn in E.
          replace (i + S (b - S i))%nat with b in E by lia. congruence.
        * right. exists p', q. split; auto. split; auto. split; [lia|auto].
  Qed.

  Lemma places_before words i a b : before (places i words) a b -> (fst a < fst b)%nat \/ (fst a = fst b /\ (snd a < snd b)%nat).
  Proof.
    revert i. induction words as [|p rest IH]; intros i B; cbn [places] in B; [apply before_nil in B; contradiction|].
    apply before_app in B. destruct B as [B|[B|[I J]]]; [|eauto|].
    - destruct (pf p); [|apply before_nil in B; contradiction]. apply before_map in B.
      destruct B as (u & w & -> & -> & B). right. cbn. split; auto. apply before_filter in B. eapply combine_seq_before; eauto.
    - left. destruct (pf p); [|contradiction]. apply in_map_iff in I. destruct I as (u & <- & _). cbn [fst].
      destruct b as [b1 b2]. clear - J. assert (H : forall words i, In (b1, b2) (places i words) -> (i <= b1)%nat).
      { clear. induction words as [|p words IH]; intros i; cbn [places]; [intros []|]. rewrite in_app_iff.
        intros [I|I]; [|apply IH in I; lia]. destruct (pf p); [|contradiction].
        apply in_map_iff in I. destruct I as (u & E & _). inversion E; subst. auto. }
      apply H in J. cbn. lia.
  Qed.

  Lemma pairs_links words : links_of lower stop allow span wf words (ps words).
  Proof.
    exists (places 0 words). split; [split|].
    - intros i j. rewrite (places_In words words 0) by auto. split; intros (p & q & E1 & E2 & R); exists p, q.
      + destruct R as (_ & L & P & Q). rewrite !pairfilter_passes in *. auto.
      + destruct R as (L & P & Q). rewrite !pairfilter_passes. split; auto. split; auto. split; [lia|]. auto.
    - intros a b. apply places_before.
    - apply places_names. auto.
  Qed.
End Links.

Lemma links_unique lower stop allow span wf words ls ls' :
  links_of lower stop allow span wf words ls -> links_of lower stop allow span wf words ls' -> ls = ls'.
Proof.
  intros (l & [S B] & F) (l' & [S' B'] & F').
  assert (l = l').
  { apply (ordered_unique (fun a b : nat * nat => (fst a < fst b)%nat \/ (fst a = fst b /\ (snd a < snd b)%nat))); auto.
    - intros a b. lia.
    - intros [i j]. rewrite S, S'. tauto. }
  subst l'. clear - F F'. revert ls' F'. induction F as [|a b l ls (p & q & E1 & E2 & ->) F IH]; intros ls' F'; inversion F'; subst; auto.
  destruct H1 as (p' & q' & E1' & E2' & ->). f_equal; [congruence|auto].
Qed.

(** ** The weights *)

Section Agree.
  Variable ls : list (term * term).
  Notation cm := (fold_left bump ls []).
  Notation gr := (graph_of cm).
  Notation nodes := (map fst gr).

  Lemma edges_links h n : esum h (edges gr n) = sum_over nodes (fun b => link ls n b * h b).
  Proof.
    rewrite graph_esum, bumps_gsum. cbn [gsum fold_right]. destruct (graph_nodes ls) as (ND & S & _).
    rewrite <- psum_links; auto; [lra|]. intros a b I. rewrite !S. split; apply in_flat_map; exists (a, b); cbn; auto.
  Qed.

  Lemma D_degree n : D gr n = degree ls nodes n.
  Proof.
    unfold degree, D. etransitivity; [|etransitivity; [apply (edges_links (fun _ => 1) n)|]].
    - generalize (edges gr n) as es. induction es as [|e es IH]; cbn [wsum esum fold_right]; auto.
      rewrite plus_IZR. unfold wsum, esum in IH. rewrite IH. unfold wsum. lra.
    - apply sum_over_ext. intros. lra.
  Qed.

  Lemma coll_collected W n : coll gr W n = collected ls nodes W n.
  Proof.
    unfold coll, collected. do 2 f_equal.
    etransitivity; [|etransitivity; [apply (edges_links (fun m => / degree ls nodes m * W m) n)|]].
    - generalize (edges gr n) as es. induction es as [|e es IH]; cbn [votes esum fold_right]; auto.
      unfold votes, esum in IH. rewrite IH, D_degree. unfold Rdiv. lra.
    - apply sum_over_ext. intros. unfold Rdiv. lra.
  Qed.

  Lemma round_agree ns W : roundG gr ns W = one_round ls nodes ns W.
  Proof.
    unfold roundG, one_round. revert W. induction ns as [|n ns IH]; intros W; cbn [fold_left]; auto.
    rewrite IH, coll_collected. auto.
  Qed.

  Lemma raw_agree ns : rawG gr ns = raw_weight ls nodes ns.
  Proof.
    unfold rawG, raw_weight, startG. rewrite map_length. generalize 10%nat as k.
    induction k as [|k IH]; [reflexivity|].
    change (roundG gr ns (Nat.iter k (roundG gr ns) (fun _ => 1 / INR (length gr))) =
      one_round ls nodes ns (Nat.iter k (one_round ls nodes ns) (fun _ => 1 / INR (length gr)))).
    rewrite round_agree, IH. auto.
  Qed.

  (** how much there is *)
  Definition elen (g : graph) : nat := fold_right (fun no a => length (snd no) + a)%nat 0%nat g.
  Lemma push_elen (g : graph) k e : elen (push g k e) = S (elen g).
  Proof.
    unfold push, kset, kget. induction g as [|[j es] g IH]; cbn [dset dget elen fold_right snd]; auto.
    destruct (term_eqb k j); cbn [elen fold_right snd].
    - rewrite app_length. cbn. lia.
    - unfold elen in IH. rewrite IH. lia.
  Qed.
  Lemma graph_elen c : elen (graph_of c) = (2 * length c)%nat.
  Proof.
    unfold graph_of. enough (H : forall g, elen (fold_left (fun g kw => add_edge g (fst (fst kw)) (snd (fst kw)) (snd kw)) c g)
      = (elen g + 2 * length c)%nat) by (rewrite H; auto).
    induction c as [|e c IH]; intros g; cbn [fold_left length]; [lia|]. rewrite IH. unfold add_edge. rewrite !push_elen. lia.
  Qed.
  Lemma bumps_len : (length cm <= length ls)%nat.
  Proof.
    enough (H : forall c, (length (fold_left bump ls c) <= length c + length ls)%nat) by apply (H []).
    induction ls as [|p l IH]; intros c; cbn [fold_left length]; [lia|].
    etransitivity; [apply IH|]. enough (length (bump c p) <= S (length c))%nat by lia.
    unfold bump. generalize ((match dget pair_eqb c p with Some n => n | None => 0%Z end) + 1)%Z as w. intros w.
    clear. induction c as [|[j z] c IH]; cbn [dset length]; auto. destruct (pair_eqb p j); cbn [length]; lia.
  Qed.

  Lemma cost_perm a b : Permutation a b -> cost gr a = cost gr b.
  Proof. induction 1; cbn [cost fold_right]; try lia. unfold cost in *. lia. Qed.
  Lemma cost_keys (g : graph) l : NoDup (map fst g) -> (forall no, In no l -> In no g) ->
    cost g (map fst l) = (elen l + 8 * length l)%nat.
  Proof.
    intros ND P. induction l as [|[n es] l IH]; cbn [map cost elen fold_right length fst snd]; auto.
    unfold cost, elen in IH. rewrite IH by (intros; apply P; right; auto).
    unfold edges, kget. rewrite (In_dget _ term_eqb_eq g n es); auto; [lia|]. apply P. left. auto.
  Qed.

  Lemma cost_bound : (cost gr (sorted_asc term_ltb nodes) <= 18 * length ls)%nat.
  Proof.
    rewrite <- (cost_perm _ _ (keys_sorted nodes)).
    destruct (bumps_ok ls [] (Forall_nil _)) as (POS & _ & _). destruct (graph_of_ok cm POS) as [GO _].
    rewrite cost_keys; auto; [|apply (g_nodup _ _ GO)]. rewrite graph_elen. pose proof bumps_len as BL.
    assert (L : (length gr <= elen gr)%nat).
    { assert (H : forall l : graph, (forall no, In no l -> In no gr) -> (length l <= elen l)%nat); [|apply H; auto].
      induction l as [|[n es] l IH]; intros P; cbn [length elen fold_right snd]; auto.
      assert (NE : es <> []).
      { assert (I : In (n, es) gr) by (apply P; left; auto). pose proof (g_some _ _ GO n) as NS.
        unfold edges, kget in NS. rewrite (In_dget _ term_eqb_eq gr n es) in NS; auto; [|apply (g_nodup _ _ GO)].
        apply NS. apply in_map_iff. exists (n, es). auto. }
      assert (length es <> 0)%nat by (destruct es; cbn; congruence).
      unfold elen in IH. specialize (IH (fun no I => P no (or_intror I))). lia. }
    rewrite graph_elen in L. lia.
  Qed.
End Agree.

(** powers close to one *)
Lemma pow_close x k : 0 <= x -> INR k * x < 1 -> (1 + x) ^ k * (1 - INR k * x) <= 1.
Proof.
  intros X K. assert (B : forall j, (j <= k)%nat -> 1 - INR j * x <= (1 - x) ^ j).
  { induction j as [|j IH]; intros L; [cbn; lra|]. specialize (IH ltac:(lia)). rewrite S_INR in *.
    assert (LJ : INR j * x <= INR k * x) by (apply Rmult_le_compat_r; auto; apply le_INR; lia).
    pose proof (pos_INR j). cbn [pow].
    assert (x <= 1).
    { destruct k; [lia|]. assert (1 <= INR (S k)) by (rewrite S_INR; pose proof (pos_INR k); lra). nra. }
    apply Rle_trans with ((1 - x) * (1 - INR j * x)); [nra|]. apply Rmult_le_compat_l; lra. }
  specialize (B k (le_n _)). apply Rle_trans with ((1 + x) ^ k * (1 - x) ^ k).
  - apply Rmult_le_compat_l; auto. apply pow_le. lra.
  - rewrite <- Rpow_mult_distr. replace ((1 + x) * (1 - x)) with (1 - x * x) by ring.
    destruct k; [cbn; lra|].
    assert (X1 : x <= 1) by (assert (1 <= INR (S k)) by (rewrite S_INR; pose proof (pos_INR k); lra); nra).
    apply Rle_trans with (1 ^ S k); [|rewrite pow1; lra]. apply pow_incr. clear - X X1. split; nra.
Qed.

Section Textrank.
  Variable num : Num.
  Variable O : NumOrder num.
  Variable Q : NumRound num O.
  Variable lower : str -> str.
  Variable x : textrank.
  Variable words : list tagged.
  Variable allow : list str.
  Variable wf : bool.
  Notation L := (length words * tr_span x)%nat.
  Notation u := (r_u Q).

  Theorem weights_near ls nodes order lo hi :
    2 * INR L + 10 <= r_G Q -> (1 + 2 * u) ^ (720 * L + 11) <= 2 ->
    links_of lower (tr_stop x) allow (tr_span x) wf words ls -> nodes_of ls nodes -> word_order nodes order ->
    smallest ls nodes order lo -> largest ls nodes order hi ->
    exists d, textrank_words num lower x words allow wf = Ok d /\ map fst d = nodes /\
      forall n y, In (n, y) d -> let z := weight ls nodes order lo hi n in
        0 < z <= 1 /\ near (1 + 2 * u) (720 * L + 11) (o_val O y) z.
  Proof.
    intros B V LS NS WO LO HI.
    assert (ls = pairs lower x allow wf words) by (eapply links_unique; [exact LS|apply pairs_links]). subst ls.
    set (ls := pairs lower x allow wf words) in *.
    assert (nodes = map fst (graph_of (fold_left bump ls []))) by (eapply firsts_unique; [exact NS|apply graph_nodes]).
    subst nodes. set (gr := graph_of (fold_left bump ls [])) in *.
    assert (order = sorted_asc term_ltb (map fst gr)).
    { eapply word_order_unique; [|exact WO|apply word_sorted]. apply NS. }
    subst order. set (ns := sorted_asc term_ltb (map fst gr)) in *.
    destruct (bumps_ok ls [] (Forall_nil _)) as (POS & SUM & _). cbn in SUM.
    destruct (graph_of_ok _ POS) as [GO _]. fold gr in GO.
    pose proof (pairs_length lower x allow wf words) as PL. fold ls in PL.
    pose proof (cost_bound ls) as CB. fold gr in CB. fold ns in CB.
    pose proof (V1 _ _ Q) as V'.
    pose proof (raw_agree ls ns) as RA. fold gr in RA.
    destruct LO as [L1 L2]. destruct HI as [H1 H2]. rewrite <- RA in L1, L2, H1, H2.
    destruct (rank_near num O Q gr (2 * csum (fold_left bump ls [])) GO) with (LO := lo) (HI := hi) as (d & E & K & N); auto.
    - rewrite SUM. rewrite INR_IZR_INZ in B. rewrite mult_IZR.
      assert (IZR (Z.of_nat (length ls)) <= IZR (Z.of_nat L)) by (apply IZR_le; lia). lra.
    - fold ns. apply Rle_trans with (2 := V). apply Rle_pow; [exact V'|]. lia.
    - exists d. split; [unfold textrank_words; rewrite cooccur_pairs; exact E|]. split; auto.
      intros n y I. cbv zeta. unfold weight. rewrite <- RA. destruct (N n y I) as [Z NN]. fold ns in Z, NN. split; [exact Z|].
      refine (near_mono _ V' _ _ _ _ _ _ _ NN); [lia| |lra].
      destruct NN as [_ NN]. pose proof (vpow_1 _ V' (4 * (1 + 10 * cost gr ns) + 7)) as VP.
      destruct (Rle_or_lt 0 (o_val O y)); auto. exfalso. nra.
  Qed.
End Textrank.

(** what the spec describes exists *)
Lemma spec_exists lower stop allow span wf words :
  exists ls nodes order, links_of lower stop allow span wf words ls /\ nodes_of ls nodes /\ word_order nodes order /\
    (ls <> [] -> exists lo hi, smallest ls nodes order lo /\ largest ls nodes order hi).
Proof.
  exists (pairs lower (mkTr stop span) allow wf words). set (ls := pairs _ _ _ _ _).
  exists (map fst (graph_of (fold_left bump ls []))). set (nodes := map fst _). exists (sorted_asc term_ltb nodes).
  split; [apply (pairs_links lower (mkTr stop span))|]. split; [apply graph_nodes|]. split; [apply word_sorted|].
  intros NE. assert (NN : nodes <> []).
  { assert (GN : nodes_of ls nodes) by apply graph_nodes. destruct GN as (_ & S & _). intros N.
    assert (EX : exists ab, In ab ls) by (destruct ls as [|ab l]; [congruence|exists ab; left; auto]).
    destruct EX as (ab & I). assert (J : In (fst ab) nodes) by (apply S, in_flat_map; exists ab; cbn; auto).
    rewrite N in J. contradiction. }
  set (W := raw_weight ls nodes (sorted_asc term_ltb nodes)). unfold smallest, largest. fold W.
  generalize W as w. clearbody nodes. clear - NN.
  destruct nodes as [|n l]; [congruence|]. clear NN. intros w. revert n. induction l as [|m l IH]; intros n.
  - exists (w n), (w n). split; split; try (exists n; split; [left|]; auto); intros k [<-|[]]; lra.
  - destruct (IH m) as (lo & hi & [(a & A1 & A2) A3] & [(b & B1 & B2) B3]).
    exists (Rmin (w n) lo), (Rmax (w n) hi). split; split.
    + unfold Rmin. destruct (Rle_dec (w n) lo); [exists n; split; [left|]; auto|exists a; split; [right|]; auto].
    + intros k [<-|I]; [apply Rmin_l|]. apply Rle_trans with lo; [apply Rmin_r|auto].
    + unfold Rmax. destruct (Rle_dec (w n) hi); [exists b; split; [right|]; auto|exists n; split; [left|]; auto].
    + intros k [<-|I]; [apply Rmax_l|]. apply Rle_trans with hi; [auto|apply Rmax_r].
Qed.
