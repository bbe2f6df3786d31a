(** * The co-occurrence graph of TextRank *)
From Verif Require Import PyBase PyNum ProofsBase ModelFinalseg ModelSeg ModelDict ModelApi
  ModelPosseg ModelAnalyse SpecAnalyse ProofsRank.

(** ** Pairs of words that occur close together *)

Section Pairs.
  Variable lower : str -> str.
  Variable x : textrank.
  Variable allow : list str.
  Variable wf : bool.

  Notation pf := (pairfilter lower x allow).
  Notation key := (tr_key allow wf).

  Fixpoint pairs (words : list tagged) : list (term * term) :=
    match words with
    | [] => []
    | p :: rest =>
        (if pf p then map (fun q => (key p, key q)) (filter pf (firstn (tr_span x - 1) rest)) else [])
        ++ pairs rest
    end.

  Lemma cooccur_pairs words cm :
    cooccur lower x allow wf words cm = fold_left bump (pairs words) cm.
  Proof.
    revert cm. induction words as [|p rest IH]; cbn [cooccur pairs]; intros cm; auto.
    rewrite fold_left_app, IH. f_equal. destruct (pf p); auto.
    generalize (firstn (tr_span x - 1) rest) as l. intros l. revert cm.
    induction l as [|q l IHl]; cbn; intros cm; auto. destruct (pf q); cbn; auto.
  Qed.

  Lemma pairs_In words a b : In (a, b) (pairs words) <->
    exists i j p q, nth_error words i = Some p /\ nth_error words j = Some q /\
      i < j < i + tr_span x /\ pf p = true /\ pf q = true /\ a = key p /\ b = key q.
  Proof.
    induction words as [|p rest IH]; cbn [pairs].
    - split; [intros []|]. intros (i & j & p & q & E & _). destruct i; discriminate.
    - rewrite in_app_iff, IH. split.
      + intros [I|(i & j & p' & q & E1 & E2 & L & Q)].
        * destruct (pf p) eqn:P; [|contradiction]. apply in_map_iff in I.
          destruct I as (q & E & I). inversion E; subst. apply filter_In in I. destruct I as [I Q].
          apply In_nth_error in I. destruct I as (n & I).
          assert (L : n < length (firstn (tr_span x - 1) rest)) by (apply nth_error_Some; congruence).
          rewrite firstn_length in L.
          exists 0, (S n), p, q. split; auto. split.
          { cbn. rewrite <- (firstn_skipn (tr_span x - 1) rest), nth_error_app1; auto. rewrite firstn_length. auto. }
          split; [lia|]. auto.
        * exists (S i), (S j), p', q. split; auto. split; auto. split; [lia|auto].
      + intros (i & j & p' & q & E1 & E2 & L & P & Q & -> & ->).
        destruct i as [|i]; cbn in E1.
        * left. inversion E1; subst p'. rewrite P. apply in_map_iff. exists q. split; auto.
          apply filter_In. split; auto. destruct j as [|j]; [lia|]. cbn in E2.
          assert (LJ : j < length rest) by (apply nth_error_Some; congruence).
          apply nth_error_In with j. rewrite <- (firstn_skipn (tr_span x - 1) rest), nth_error_app1 in E2; auto.
          rewrite firstn_length. lia.
        * right. destruct j as [|j]; [lia|]. exists i, j, p', q. cbn in E2. split; auto. split; auto.
          split; [lia|auto].
  Qed.

  Lemma filter_le {A} (f : A -> bool) l : length (filter f l) <= length l.
  Proof. induction l as [|a l IH]; cbn; auto. destruct (f a); cbn; lia. Qed.

  Lemma pairs_length words : length (pairs words) <= length words * tr_span x.
  Proof.
    induction words as [|p rest IH]; cbn [pairs length]; [lia|].
    rewrite app_length.
    assert (L : length (if pf p then map (fun q => (key p, key q)) (filter pf (firstn (tr_span x - 1) rest)) else [])
                <= tr_span x).
    { destruct (pf p); [|cbn; lia]. rewrite map_length.
      pose proof (filter_le pf (firstn (tr_span x - 1) rest)) as FL.
      rewrite firstn_length in FL. lia. }
    lia.
  Qed.
End Pairs.

Lemma tr_key_named allow wf p : tr_key allow wf p = ranked_as allow wf p.
Proof. unfold tr_key, ranked_as. destruct allow, wf; auto. Qed.

Lemma pairfilter_passes lower x allow p :
  pairfilter lower x allow p = true <-> passes lower (tr_stop x) allow p.
Proof.
  unfold pairfilter, passes. rewrite andb_true_iff, kept_counts, str_in_In. tauto.
Qed.

(** ** Counting pairs *)

Definition csum (cm : list (term * term * Z)) : Z := fold_right (fun e a => (snd e + a)%Z) 0%Z cm.

Lemma bump_sum cm k : csum (bump cm k) = (csum cm + 1)%Z.
Proof.
  unfold bump. induction cm as [|[j n] cm IH]; cbn [dget dset csum fold_right snd]; auto.
  destruct (pair_eqb k j); cbn [csum fold_right snd]; fold (csum cm); [lia|].
  fold (csum (dset pair_eqb cm k (match dget pair_eqb cm k with Some n0 => n0 | None => 0 end + 1)))%Z.
  rewrite IH. lia.
Qed.

Lemma bump_keys cm k j : In j (map fst (bump cm k)) <-> In j (map fst cm) \/ j = k.
Proof.
  unfold bump. rewrite dset_keys. unfold dmem. destruct (dget pair_eqb cm k) eqn:E.
  - apply (dget_In _ pair_eqb_eq) in E. split; auto. intros [Q| ->]; auto.
    apply in_map_iff. exists (k, z). auto.
  - rewrite in_app_iff. cbn. intuition.
Qed.

Lemma dset_Forall {K V} (eqb : K -> K -> bool) (P : V -> Prop) (d : list (K * V)) k v :
  Forall (fun e => P (snd e)) d -> P v -> Forall (fun e => P (snd e)) (dset eqb d k v).
Proof.
  intros FA PV. induction FA as [|[j w] d PJ FA IH]; cbn; auto.
  destruct (eqb k j); constructor; auto.
Qed.

Lemma dget_Forall {K V} (eqb : K -> K -> bool) (P : V -> Prop) (d : list (K * V)) k v :
  Forall (fun e => P (snd e)) d -> dget eqb d k = Some v -> P v.
Proof.
  intros FA. induction FA as [|[j w] d PJ FA IH]; cbn; [discriminate|].
  destruct (eqb k j); auto. intros E; inversion E; subst; auto.
Qed.

Lemma bump_pos cm k : Forall (fun e => (1 <= snd e)%Z) cm -> Forall (fun e => (1 <= snd e)%Z) (bump cm k).
Proof.
  intros FA. apply (dset_Forall pair_eqb (fun n => (1 <= n)%Z)); auto.
  destruct (dget pair_eqb cm k) eqn:E; [|lia].
  apply (dget_Forall pair_eqb (fun n => (1 <= n)%Z)) in E; auto. lia.
Qed.

Lemma bumps_ok ps cm : Forall (fun e => (1 <= snd e)%Z) cm ->
  let cm' := fold_left bump ps cm in
  Forall (fun e => (1 <= snd e)%Z) cm' /\
  csum cm' = (csum cm + Z.of_nat (length ps))%Z /\
  (forall k, In k (map fst cm') <-> In k (map fst cm) \/ In k ps).
Proof.
  revert cm. induction ps as [|p ps IH]; intros cm FA; cbn [fold_left length In].
  - split; auto. split; [lia|]. tauto.
  - destruct (IH (bump cm p) (bump_pos cm p FA)) as (A & B & C). split; auto. split.
    + rewrite B, bump_sum. lia.
    + intros k. rewrite C, bump_keys. intuition.
Qed.

(** ** The graph *)

Definition wsum (es : list edge) : Z := fold_right (fun (e : edge) a => (snd e + a)%Z) 0%Z es.
Lemma wsum_snoc es e : wsum (es ++ [e]) = (wsum es + snd e)%Z.
Proof. unfold wsum. induction es as [|a es IH]; cbn; [lia|]. rewrite IH. lia. Qed.

Definition edges (g : graph) (n : term) : list edge := match kget g n with Some es => es | None => [] end.

Lemma push_edges g k e n : edges (push g k e) n = if term_eq_dec n k then edges g n ++ [e] else edges g n.
Proof.
  unfold edges, push, kget, kset. destruct (term_eq_dec n k) as [->|N].
  - rewrite dget_dset_same by apply term_eqb_eq. auto.
  - rewrite dget_dset_other; auto. apply term_eqb_eq.
Qed.
Lemma push_keys g k e n : In n (map fst (push g k e)) <-> In n (map fst g) \/ n = k.
Proof.
  unfold push, kset. rewrite dset_keys. unfold dmem. fold (kget g k). destruct (kget g k) eqn:E.
  - assert (I : In k (map fst g)).
    { destruct (in_dec term_eq_dec k (map fst g)); auto. apply kget_In in n0. congruence. }
    intuition. subst; auto.
  - rewrite in_app_iff. cbn. intuition.
Qed.
Lemma push_nodup g k e : NoDup (map fst g) -> NoDup (map fst (push g k e)).
Proof. apply dset_NoDup, term_eqb_eq. Qed.

Lemma add_edges g a b w n :
  edges (add_edge g a b w) n =
    edges g n ++ (if term_eq_dec n a then [(a, b, w)] else []) ++ (if term_eq_dec n b then [(b, a, w)] else []).
Proof.
  unfold add_edge. rewrite !push_edges.
  destruct (term_eq_dec n a), (term_eq_dec n b); rewrite ?app_nil_r, <- ?app_assoc; auto.
Qed.
Lemma add_keys g a b w n : In n (map fst (add_edge g a b w)) <-> In n (map fst g) \/ n = a \/ n = b.
Proof. unfold add_edge. rewrite !push_keys. tauto. Qed.

Record graph_ok (g : graph) (tot : Z) : Prop := {
  g_nodup : NoDup (map fst g);
  g_some : forall n, In n (map fst g) -> edges g n <> [];
  g_edge : forall n e, In e (edges g n) -> fst (fst e) = n /\ (1 <= snd e)%Z /\ In (snd (fst e)) (map fst g);
  g_sum : forall n, (0 <= wsum (edges g n) <= tot)%Z;
  g_deg : forall n, (Z.of_nat (length (edges g n)) <= tot)%Z;
  g_size : (Z.of_nat (length g) <= tot)%Z;
}.

Lemma push_size g k e : length (push g k e) <= S (length g).
Proof.
  unfold push, kset. rewrite <- !(map_length fst), dset_keys. destruct (dmem _ _ _); rewrite ?app_length; cbn; lia.
Qed.

Lemma graph_of_ok cm : Forall (fun e => (1 <= snd e)%Z) cm ->
  graph_ok (graph_of cm) (2 * csum cm) /\
  forall n, In n (map fst (graph_of cm)) <-> exists a b, In (a, b) (map fst cm) /\ (n = a \/ n = b).
Proof.
  induction cm as [|[[a b] w] cm IH] using rev_ind; intros FA.
  - split.
    + constructor; cbn; try lia; try constructor; try tauto.
    + intros n. cbn. split; [tauto|]. intros (? & ? & [] & _).
  - apply Forall_app in FA. destruct FA as [FA FW]. inversion FW as [|? ? W _]; subst. cbn in W.
    destruct (IH FA) as [[G1 G2 G3 G4 G5 G6] K]. clear IH.
    assert (S : csum (cm ++ [(a, b, w)]) = (csum cm + w)%Z).
    { unfold csum. clear. induction cm as [|e cm IH]; cbn; [lia|]. rewrite IH. lia. }
    assert (E : graph_of (cm ++ [(a, b, w)]) = add_edge (graph_of cm) a b w).
    { unfold graph_of. rewrite fold_left_app. reflexivity. }
    rewrite E, S. split.
    + constructor.
      * unfold add_edge. apply push_nodup, push_nodup. auto.
      * intros n I. rewrite add_edges. apply add_keys in I. destruct I as [I|[->| ->]].
        -- specialize (G2 n I). destruct (edges (graph_of cm) n); cbn; congruence.
        -- destruct (term_eq_dec a a); [|congruence]. intros C. apply app_eq_nil in C. destruct C as [_ C]. discriminate.
        -- destruct (term_eq_dec b b); [|congruence]. intros C. apply app_eq_nil in C. destruct C as [_ C].
           apply app_eq_nil in C. destruct C as [_ C]. discriminate.
      * intros n e I. rewrite add_edges, !in_app_iff in I. rewrite add_keys.
        destruct I as [I|[I|I]].
        -- apply G3 in I. tauto.
        -- destruct (term_eq_dec n a); [|contradiction]. destruct I as [<-|[]]. cbn. auto.
        -- destruct (term_eq_dec n b); [|contradiction]. destruct I as [<-|[]]. cbn. auto.
      * intros n. specialize (G4 n). rewrite add_edges.
        destruct (term_eq_dec n a), (term_eq_dec n b); cbn [app]; rewrite ?app_nil_r.
        -- change [(a, b, w); (b, a, w)] with ([(a, b, w)] ++ [(b, a, w)]).
           rewrite app_assoc, !wsum_snoc. cbn [snd]. lia.
        -- rewrite wsum_snoc. cbn [snd]. lia.
        -- rewrite wsum_snoc. cbn [snd]. lia.
        -- lia.
      * intros n. specialize (G5 n). rewrite add_edges.
        destruct (term_eq_dec n a), (term_eq_dec n b); rewrite !app_length; cbn [length]; lia.
      * unfold add_edge. pose proof (push_size (push (graph_of cm) a (a, b, w)) b (b, a, w)).
        pose proof (push_size (graph_of cm) a (a, b, w)). lia.
    + intros n. rewrite add_keys, K, map_app. split.
      * intros [(u & v & I & Q)|Q].
        -- exists u, v. split; auto. apply in_or_app. auto.
        -- exists a, b. split; auto. apply in_or_app. right. left. auto.
      * intros (u & v & I & Q). apply in_app_or in I. destruct I as [I|[I|[]]].
        -- left. exists u, v. auto.
        -- inversion I; subst. auto.
Qed.

Lemma wsum_nonneg es : (forall e, In e es -> (1 <= snd e)%Z) -> (0 <= wsum es)%Z.
Proof.
  induction es as [|a es IH]; cbn; intros P; [lia|].
  assert (1 <= snd a)%Z by auto. assert (0 <= wsum es)%Z by auto. unfold wsum in *. lia.
Qed.

Lemma wsum_In es e : (forall e, In e es -> (1 <= snd e)%Z) -> In e es -> (snd e <= wsum es)%Z.
Proof.
  induction es as [|a es IH]; cbn [In wsum fold_right]; intros P I; [tauto|]. fold (wsum es).
  assert (1 <= snd a)%Z by auto. assert (0 <= wsum es)%Z by (apply wsum_nonneg; auto).
  destruct I as [->|I]; [lia|]. assert (snd e <= wsum es)%Z by auto. lia.
Qed.

Lemma wsum_cons e es : wsum (e :: es) = (snd e + wsum es)%Z.
Proof. reflexivity. Qed.
