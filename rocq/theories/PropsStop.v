(** * C77: stop words over the life of the extractors

    Both extractors start with the same 31 English words.  Calls only add to them: after any
    calls the stop words are those and the lines of the files given so far that could be read.
    No keyword, in either extractor, is a stop word in lower case. *)
From Coq Require Import Permutation.
From Verif Require Import PyBase PyRegex PyNum SpecNum ModelFinalseg ModelSeg ModelDict ModelApi ModelPosseg
  ModelAnalyse SpecAnalyse SpecStop ProofsBase ProofsDict ProofsRank InstExt PropsAnalyse Demo DemoPos.
Set Implicit Arguments.

Lemma stop_words_english e : In e stop_words_default <-> exists w, In w english_words /\ e = text_of w.
Proof.
  assert (E : stop_words_default = map text_of english_words) by (vm_compute; reflexivity).
  rewrite E, in_map_iff. split; intros (w & A & B); exists w; auto.
Qed.

(** a line of a file that is there and is UTF-8 *)
Definition line_of (content : option bytes) (e : str) : Prop :=
  exists b text, content = Some b /\ utf8_decode b = Some text /\ In e (splitlines text).

Lemma set_stop_words_In st content e :
  In e (fst (set_stop_words st content)) <-> In e st \/ line_of content e.
Proof.
  unfold set_stop_words, line_of. destruct content as [b|]; cbn [fst].
  - destruct (utf8_decode b) as [text|] eqn:D; cbn [fst].
    + assert (A : forall ls st, In e (fold_left set_add ls st) <-> In e st \/ In e ls).
      { induction ls as [|l ls IH]; cbn; intros st'; [tauto|]. rewrite IH, set_add_In. intuition. }
      rewrite A. split; intros [?|?]; auto; right.
      * exists b, text. auto.
      * destruct H as (b' & t' & E1 & E2 & I). injection E1 as <-. congruence.
    + split; auto. intros [?|(b' & t' & E1 & E2 & _)]; auto. injection E1 as <-. congruence.
  - split; auto. intros [?|(b' & t' & E1 & _)]; auto. discriminate.
Qed.

(** the files given to the TF-IDF extractor and to the TextRank extractor *)
Definition for_tfidf (op : aop) : option (option bytes) :=
  match op with AModStop c | ATfStop c => Some c | _ => None end.
Definition for_textrank (op : aop) : option (option bytes) :=
  match op with AModStop c | ATrStop c => Some c | _ => None end.

Lemma do_aop_In num (float_of : str -> option (F num)) x y op x' y' : do_aop float_of (x, y) op = (x', y') ->
  (forall e, In e (tf_stop x') <-> In e (tf_stop x) \/ exists c, for_tfidf op = Some c /\ line_of c e) /\
  (forall e, In e (tr_stop y') <-> In e (tr_stop y) \/ exists c, for_textrank op = Some c /\ line_of c e) /\
  tr_span y' = tr_span y.
Proof.
  intros E. destruct op as [path content|content|content|content]; cbn [do_aop for_tfidf for_textrank] in *.
  - injection E as <- <-. assert (S : tf_stop (fst (set_idf_path float_of x path content)) = tf_stop x).
    { unfold set_idf_path. destruct content as [b|]; auto.
      destruct (set_new_path float_of (tf_loader x) path (Some b)) as [L [z|]]; reflexivity. }
    rewrite S. split; [|split]; auto; intros e; split; auto; intros [?|(c & ? & _)]; auto; discriminate.
  - unfold mod_set_stop_words in E.
    pose proof (set_stop_words_In (tf_stop x) content) as A. pose proof (set_stop_words_In (tr_stop y) content) as B.
    assert (SAME : snd (set_stop_words (tf_stop x) content) = snd (set_stop_words (tr_stop y) content)).
    { unfold set_stop_words. destruct content as [b|]; auto. destruct (utf8_decode b); auto. }
    assert (NOE : snd (set_stop_words (tr_stop y) content) <> None -> fst (set_stop_words (tr_stop y) content) = tr_stop y).
    { unfold set_stop_words. destruct content as [b|]; auto. destruct (utf8_decode b); auto. cbn. congruence. }
    destruct (set_stop_words (tf_stop x) content) as [s [z|]]; destruct (set_stop_words (tr_stop y) content) as [s' o];
      cbn in *; subst; injection E as <- <-; cbn [tf_stop tr_stop tr_span].
    + rewrite NOE in B by discriminate.
      split; [|split]; auto; intros e; [rewrite A|]; split; intros Q.
      * destruct Q; eauto.
      * destruct Q as [?|(c & Q & ?)]; auto. injection Q as <-. auto.
      * auto.
      * destruct Q as [?|(c & Q & ?)]; auto. injection Q as <-. apply B. auto.
    + split; [|split]; auto; intros e; [rewrite A|rewrite B]; (split; [intros [?|?]; eauto|]);
        intros [?|(c & Q & ?)]; auto; injection Q as <-; auto.
  - injection E as <- <-. cbn [tf_stop]. split; [|split]; auto; intros e; [rewrite set_stop_words_In|]; (split; [intros Q|]).
    + destruct Q; eauto.
    + intros [?|(c & Q & ?)]; auto. injection Q as <-. auto.
    + auto.
    + intros [?|(c & Q & ?)]; auto. discriminate.
  - injection E as <- <-. cbn [tr_stop tr_span]. split; [|split]; auto; intros e; [|rewrite set_stop_words_In]; (split; [intros Q|]).
    + auto.
    + intros [?|(c & Q & ?)]; auto. discriminate.
    + destruct Q; eauto.
    + intros [?|(c & Q & ?)]; auto. injection Q as <-. auto.
Qed.

Theorem C77_stop_words_after_any_calls :
  forall (num : Num) (float_of : str -> option (F num)) (path : str) (content : option bytes) (x0 : tfidf num)
         (ops : list aop) (x : tfidf num) (y : textrank),
    tfidf_init num float_of path content = Ok x0 ->
    run_aops float_of (x0, textrank_init) ops = (x, y) ->
    (forall e, In e (tf_stop x) <->
       (exists w, In w english_words /\ e = text_of w) \/
       (exists c, (In (AModStop c) ops \/ In (ATfStop c) ops) /\ line_of c e)) /\
    (forall e, In e (tr_stop y) <->
       (exists w, In w english_words /\ e = text_of w) \/
       (exists c, (In (AModStop c) ops \/ In (ATrStop c) ops) /\ line_of c e)).
Proof.
  intros num float_of path content x0 ops x y I R.
  assert (S0 : tf_stop x0 = stop_words_default).
  { unfold tfidf_init in I. destruct (set_new_path float_of _ path content) as [L [e|]]; [discriminate|].
    injection I as <-. reflexivity. }
  assert (G : forall ops x1 y1, run_aops float_of (x1, y1) ops = (x, y) ->
    (forall e, In e (tf_stop x) <-> In e (tf_stop x1) \/ exists op c, In op ops /\ for_tfidf op = Some c /\ line_of c e) /\
    (forall e, In e (tr_stop y) <-> In e (tr_stop y1) \/ exists op c, In op ops /\ for_textrank op = Some c /\ line_of c e)).
  { clear. induction ops as [|op ops IH]; cbn [run_aops fold_left]; intros x1 y1 E.
    - injection E as <- <-. split; intros e; (split; auto); intros [?|(op & c & [] & _)]; auto.
    - destruct (do_aop float_of (x1, y1) op) as [x2 y2] eqn:D. destruct (do_aop_In _ _ _ _ D) as (A & B & _).
      destruct (IH x2 y2 E) as (A2 & B2). split; intros e; [rewrite A2, A|rewrite B2, B]; split.
      + intros [[?|(c & P1 & P2)]|(o & c & P1 & P2 & P3)]; auto; right; [exists op, c|exists o, c]; cbn; auto.
      + intros [?|(o & c & [<-|P1] & P2 & P3)]; eauto. right. exists o, c. auto.
      + intros [[?|(c & P1 & P2)]|(o & c & P1 & P2 & P3)]; auto; right; [exists op, c|exists o, c]; cbn; auto.
      + intros [?|(o & c & [<-|P1] & P2 & P3)]; eauto. right. exists o, c. auto. }
  destruct (G ops x0 textrank_init R) as (A & B). rewrite S0 in A. cbn [tr_stop textrank_init] in B.
  split; intros e; [rewrite A|rewrite B]; rewrite stop_words_english; split; intros [?|Q]; auto; right.
  - destruct Q as ([p c0|c0|c0|c0] & c & P1 & P2 & P3); cbn in P2; try discriminate; injection P2 as <-; exists c0; auto.
  - destruct Q as (c & [P|P] & L); [exists (AModStop c), c|exists (ATfStop c), c]; auto.
  - destruct Q as ([p c0|c0|c0|c0] & c & P1 & P2 & P3); cbn in P2; try discriminate; injection P2 as <-; exists c0; auto.
  - destruct Q as (c & [P|P] & L); [exists (AModStop c), c|exists (ATrStop c), c]; auto.
Qed.

(** ** keywords are no stop words *)

(** the keywords in what a call returned *)
Definition keywords {num} (t : tags num) : list term :=
  match t with Keys _ l => l | Items _ l => map fst l end.

Lemma take_top_In {A} k (l : list A) a : In a (take_top k l) -> In a l.
Proof. intros I. destruct (take_top_part k l) as (rest & E & _). rewrite E. apply in_or_app. auto. Qed.

Lemma best_tags_In num ww k (d : kdict (F num)) j :
  In j (keywords (best_tags num ww k d)) -> In j (map fst d).
Proof.
  unfold best_tags. destruct ww; cbn [keywords].
  - rewrite in_map_iff. intros (a & <- & I). apply take_top_In in I.
    apply (Permutation_in _ (Permutation_sym (sorted_desc_perm _ d))) in I. apply in_map. exact I.
  - intros I. apply take_top_In in I. apply (Permutation_in _ (Permutation_sym (sorted_desc_perm _ _))) in I. exact I.
Qed.

Lemma kset_In {V} (d : kdict V) k v j : In j (map fst (kset d k v)) -> j = k \/ In j (map fst d).
Proof.
  unfold kset. induction d as [|[a b] d IH]; cbn; [intuition|].
  destruct (term_eqb k a) eqn:E; cbn; intuition.
Qed.

Section Keep.
  Variable P : term -> Prop.
  Let all {V} (d : kdict V) : Prop := forall j, In j (map fst d) -> P j.

  Lemma kset_all {V} (d : kdict V) k v : P k -> all d -> all (kset d k v).
  Proof. intros PK A j I. apply kset_In in I. destruct I as [->|I]; auto. Qed.

  Lemma tfidf_count_all num lower stop allow wf ts :
    (forall t k, tfidf_key lower stop allow wf t = Some k -> P k) -> all (tfidf_count num lower stop allow wf ts).
  Proof.
    intros K. unfold tfidf_count. assert (A0 : all (@nil (term * F num))) by (intros j []).
    generalize dependent (@nil (term * F num)). induction ts as [|t ts IH]; cbn [fold_left]; intros d A; auto.
    apply IH. destruct (tfidf_key lower stop allow wf t) eqn:E; auto. apply kset_all; eauto.
  Qed.

  Lemma tfidf_scale_all num (x : tfidf num) total d d' : tfidf_scale x total d = Ok d' -> all d -> all d'.
  Proof.
    revert d'. induction d as [|[k n] d IH]; cbn [tfidf_scale]; intros d' E A.
    - injection E as <-. auto.
    - destruct (py_div num _ total) as [q|]; cbn [rbind] in E; [|discriminate].
      destruct (tfidf_scale x total d) as [r|]; cbn [rbind] in E; [|discriminate]. injection E as <-.
      intros j [<-|I]; [apply A; cbn; auto|]. eapply IH; eauto. intros i Q. apply A. cbn. auto.
  Qed.

  Lemma push_all (g : graph) k e : P k -> all g -> all (push g k e).
  Proof. intros. apply kset_all; auto. Qed.

  Lemma graph_of_all cm : (forall a b w, In (a, b, w) cm -> P a /\ P b) -> all (graph_of cm).
  Proof.
    unfold graph_of. assert (A0 : all (@nil (term * list edge))) by (intros j []).
    generalize dependent (@nil (term * list edge)). induction cm as [|[[a b] w] cm IH]; cbn [fold_left]; intros g A C; auto.
    apply IH; [|intros a' b' w' I; apply (C a' b' w'); cbn; auto].
    destruct (C a b w) as [PA PB]; [cbn; auto|]. unfold add_edge. cbn [fst snd]. apply push_all; auto. apply push_all; auto.
  Qed.

  Lemma rank_sweep_all num g outs ns (ws ws' : kdict (F num)) : rank_sweep num g outs ns ws = Ok ws' ->
    (forall n, In n ns -> P n) -> all ws -> all ws'.
  Proof.
    revert ws. induction ns as [|n ns IH]; cbn [rank_sweep]; intros ws E N A; [injection E as <-; auto|].
    match type of E with rbind ?r _ = _ => destruct r as [s|]; cbn [rbind] in E; [|discriminate] end.
    eapply IH; [exact E| |]; [intros; apply N; cbn; auto|]. apply kset_all; auto. apply N. cbn. auto.
  Qed.

  Lemma rank_iter_all num k g outs ns (ws ws' : kdict (F num)) : rank_iter num k g outs ns ws = Ok ws' ->
    (forall n, In n ns -> P n) -> all ws -> all ws'.
  Proof.
    revert ws. induction k as [|k IH]; cbn [rank_iter]; intros ws E N A; [injection E as <-; auto|].
    destruct (rank_sweep num g outs ns ws) as [w1|] eqn:E1; cbn [rbind] in E; [|discriminate].
    eapply IH; eauto. eapply rank_sweep_all; eauto.
  Qed.

  Lemma rank_norm_keys num lo hi (ws ws' : kdict (F num)) : rank_norm num lo hi ws = Ok ws' -> map fst ws' = map fst ws.
  Proof.
    revert ws'. induction ws as [|[n x] ws IH]; cbn [rank_norm]; intros ws' E; [injection E as <-; auto|].
    match type of E with rbind ?r _ = _ => destruct r as [s|]; cbn [rbind] in E; [|discriminate] end.
    destruct (rank_norm num lo hi ws) as [r|]; cbn [rbind] in E; [|discriminate]. injection E as <-. cbn. f_equal. auto.
  Qed.

  Lemma sorted_asc_In lt (l : list term) a : In a (sorted_asc lt l) -> In a l.
  Proof.
    assert (I : forall b l, In a (insert_asc lt b l) -> a = b \/ In a l).
    { intros b m. induction m as [|c m IH]; cbn; [intuition|]. destruct (lt c b); cbn; intuition. }
    induction l as [|b l IH]; cbn; auto. intros Q. apply I in Q. intuition.
  Qed.

  Lemma rank_all num g (d : kdict (F num)) : rank num g = Ok d -> all g -> all d.
  Proof.
    unfold rank, rank_raw. intros E A.
    match type of E with rbind ?r _ = _ => destruct r as [ws|] eqn:E1; cbn [rbind] in E; [|discriminate] end.
    intros j. rewrite (rank_norm_keys _ _ _ _ E). revert j. eapply rank_iter_all; [exact E1| |].
    - intros n I. apply sorted_asc_In in I. auto.
    - intros j I. unfold rank_start in I. rewrite map_map in I. cbn in I. auto.
  Qed.

  Lemma bump_In cm k a b w : In (a, b, w) (bump cm k) -> (a, b) = k \/ exists w', In (a, b, w') cm.
  Proof.
    unfold bump. generalize ((match dget pair_eqb cm k with Some n => n | None => 0%Z end) + 1)%Z as v. intros v.
    induction cm as [|[k' v'] cm IH]; cbn [dset].
    - intros [Q|[]]. left. congruence.
    - destruct (pair_eqb k k') eqn:E; intros [Q|Q].
      + right. exists v'. left. congruence.
      + right. exists w. right. exact Q.
      + right. exists w. left. exact Q.
      + destruct (IH Q) as [?|(w' & ?)]; [auto|]. right. exists w'. right. auto.
  Qed.

  Lemma cooccur_all lower (x : textrank) allow wf words cm :
    (forall p, pairfilter lower x allow p = true -> P (tr_key allow wf p)) ->
    (forall a b w, In (a, b, w) cm -> P a /\ P b) ->
    forall a b w, In (a, b, w) (cooccur lower x allow wf words cm) -> P a /\ P b.
  Proof.
    intros K. revert cm. induction words as [|p words IH]; cbn [cooccur]; intros cm C; auto.
    apply IH. destruct (pairfilter lower x allow p) eqn:E; auto.
    revert cm C. induction (firstn (tr_span x - 1) words) as [|q l IH2]; cbn [fold_left]; intros cm C; auto.
    apply IH2. destruct (pairfilter lower x allow q) eqn:E2; auto.
    intros a b w I. apply bump_In in I. destruct I as [Q|(w' & I)]; [|eauto]. injection Q as -> ->. auto.
  Qed.
End Keep.

Theorem C77_no_keyword_is_a_stop_word :
  forall (num : Num) (lower : str -> str) (H : hmm num) (T : ptables num) (ord : orders) (w : pworld)
         (x : tfidf num) (y : textrank) (s : str) (k : option Z) (withWeight : bool)
         (allow : list str) (withFlag : bool) (r : tags num) (j : term),
    In j (keywords r) ->
    (snd (extract_tags lower H T ord w x s k withWeight allow withFlag) = Ok r ->
       ~ In (lower (term_word j)) (tf_stop x)) /\
    (snd (textrank_tags lower H T ord w y s k withWeight allow withFlag) = Ok r ->
       ~ In (lower (term_word j)) (tr_stop y)).
Proof.
  intros num lower H T ord w x y s k ww allow wf r j I. split; intros E.
  - unfold extract_tags in E. destruct (tfidf_words H T ord w allow s) as [w' g]. cbn [snd] in E.
    destruct (g_list g) as [ts|]; cbn [rbind] in E; [|discriminate]. unfold tfidf_weights in E.
    match type of E with rbind ?dd _ = _ => destruct dd as [d|] eqn:ED; cbn [rbind] in E; [|discriminate] end.
    injection E as <-. apply best_tags_In in I.
    refine (@tfidf_scale_all (fun j => ~ In (lower (term_word j)) (tf_stop x)) num x _ _ _ ED _ j I).
    intros i. revert i. apply tfidf_count_all. intros t key K. unfold tfidf_key, kept in K.
    assert (NK : forall b (k0 : term), (if b && negb (str_in (lower (term_word t)) (tf_stop x)) then Some k0 else None) = Some key ->
      k0 = key /\ ~ In (lower (term_word t)) (tf_stop x)).
    { intros b k0 Q. destruct b; [|discriminate]. destruct (str_in (lower (term_word t)) (tf_stop x)) eqn:S; [discriminate|].
      injection Q as <-. split; auto. intros Q. apply str_in_In in Q. congruence. }
    destruct allow as [|a allow]; [apply NK in K; destruct K as [<- K]; auto|].
    destruct t as [v|v f]; [discriminate|]. destruct (str_in f (a :: allow)); [|discriminate].
    apply NK in K. destruct K as [<- K]. destruct wf; auto.
  - unfold textrank_tags in E. destruct (do_pop num H T ord w (PCut 0 true s)) as [w' o].
    destruct o; cbn [snd] in E; try discriminate.
    match type of E with rbind (g_list ?g) _ = _ => destruct (g_list g) as [words|]; cbn [rbind] in E; [|discriminate] end.
    unfold textrank_words in E.
    match type of E with rbind ?dd _ = _ => destruct dd as [d|] eqn:ED; cbn [rbind] in E; [|discriminate] end.
    injection E as <-. apply best_tags_In in I.
    refine (@rank_all (fun j => ~ In (lower (term_word j)) (tr_stop y)) num _ d ED _ j I).
    intros i. revert i. apply graph_of_all. apply cooccur_all; [|intros a b v []].
    + intros p PF. unfold pairfilter, kept in PF. apply andb_prop in PF. destruct PF as [_ PF].
      apply andb_prop in PF. destruct PF as [_ PF]. intros Q.
      assert (term_word (tr_key allow wf p) = fst p) as EQ by (unfold tr_key; destruct allow, wf; reflexivity).
      rewrite EQ in Q. apply str_in_In in Q. rewrite Q in PF. discriminate.
Qed.

(** a fresh extractor, and a text with a stop word in capitals: THE is left out, AB is not *)
Definition stop_ops : list aop := [AModStop None; ATfStop (Some [99; 100; 10; 101]%N)].   (* "cd\ne" *)
Definition stop_xy : option (tfidf numE * textrank) :=
  match tfidf_init numE digit_of [112]%N (Some [97; 98; 32; 51]%N) with                   (* "ab 3" *)
  | Ok x0 => Some (run_aops digit_of (x0, textrank_init) stop_ops)
  | Err _ => None
  end.
Definition found (xy : option (tfidf numE * textrank)) : list term :=
  match xy with
  | Some (x, _) =>
      match snd (extract_tags lowerA hmmE demo_T demo_ord ana_w x ana_text None false [] false) with
      | Ok r => keywords r
      | Err _ => []
      end
  | None => []
  end.

Example C77_nonvacuous :
  option_map (fun xy => (str_in [99; 100]%N (tf_stop (fst xy)), str_in [99; 100]%N (tr_stop (snd xy)),
                         str_in (lowerA [84; 72; 69]%N) (tf_stop (fst xy)))) stop_xy = Some (true, false, true) /\
  In (TWord [65; 66]%N) (found stop_xy) /\ In [84; 72; 69]%N ana_words.
Proof. split; [vm_compute; reflexivity|]. split; vm_compute; tauto. Qed.

(** [set_stop_words] raises if there is no such file (Exception) or it is not UTF-8
    (UnicodeDecodeError, a ValueError), and then changes nothing; it does not raise
    otherwise. *)
Theorem C77_bad_file :
  forall (num : Num) (x : tfidf num) (y : textrank) (content : option bytes),
    (content = None -> mod_set_stop_words x y content = (x, y, Some PlainException)) /\
    (forall b, content = Some b -> utf8_decode b = None -> mod_set_stop_words x y content = (x, y, Some ValueError)) /\
    (forall b text, content = Some b -> utf8_decode b = Some text -> snd (mod_set_stop_words x y content) = None).
Proof.
  intros num [l f m st] y content. split; [|split]; intros; subst; unfold mod_set_stop_words, set_stop_words; cbn.
  - reflexivity.
  - now rewrite H0.
  - now rewrite H0.
Qed.

Print Assumptions C77_bad_file.
Print Assumptions C77_stop_words_after_any_calls.
Print Assumptions C77_no_keyword_is_a_stop_word.
