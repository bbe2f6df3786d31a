(** * Splitting into blocks and the words without HMM, posseg *)
From Verif Require Import PyBase PyRegex PyNum ModelFinalseg ModelSeg ModelDict ModelApi ModelPosseg
  SpecBase SpecSeg SpecTagging ProofsBase ProofsRegex ProofsSplit ProofsDag ProofsFinalseg ProofsSeg.

Lemma words_gapp g h : words_of (gapp g h) = gapp (words_of g) (words_of h).
Proof.
  unfold words_of, gapp. destruct g as [l [e|]], h as [l' e']; simpl; auto. now rewrite map_app.
Qed.

Lemma words_gfor {A} (l : list A) (f : A -> gen tagged) :
  words_of (gfor l f) = gfor l (fun x => words_of (f x)).
Proof. induction l as [|x l IH]; simpl; auto. now rewrite words_gapp, IH. Qed.

Lemma words_gof l : words_of (gof l) = gof (map fst l).
Proof. reflexivity. Qed.

Lemma is_alnum_ok c : is_alnum c = alnum_char c.
Proof. reflexivity. Qed.

Lemma is_pos_char_ok c : is_pos_char c = pos_word_char c.
Proof.
  unfold is_pos_char, pos_word_char, is_han, han_char. rewrite is_alnum_ok. cbn [existsb].
  rewrite orb_false_r, !orb_assoc. reflexivity.
Qed.

Lemma pos_char_class c :
  pos_word_char c = false -> is_alnum c = false /\ is_numdot c = false.
Proof.
  unfold pos_word_char. cbn [existsb]. intros E.
  apply orb_false_iff in E. destruct E as [E E2]. apply orb_false_iff in E. destruct E as [_ E1].
  change (is_alnum c = false) in E1. split; auto.
  unfold is_numdot. unfold is_alnum in E1. apply orb_false_iff in E1. destruct E1 as [_ E1].
  rewrite E1. rewrite !orb_false_iff in E2. destruct E2 as [_ [_ [_ [E2 _]]]]. rewrite E2. reflexivity.
Qed.

Lemma pos_char_newline c : pos_word_char c = true -> c <> 10%N.
Proof. intros E ->. discriminate. Qed.

(** ** Other characters *)

Lemma re_plus_matches p s :
  re_matches (RPlus p) s = match s with c :: _ => p c | [] => false end.
Proof.
  unfold re_matches, re_match. cbn [rmatch].
  destruct s as [|c s]; auto. cbn [plus_rests]. destruct (p c); auto.
  destruct (plus_rests p s) as [|t l]; reflexivity.
Qed.

Lemma gfor_tag {A B C} (h : B -> C) (l : list A) (f : A -> gen B) (g : A -> gen C) :
  (forall x, In x l -> g x = (map h (fst (f x)), snd (f x))) ->
  gfor l g = (map h (fst (gfor l f)), snd (gfor l f)).
Proof.
  induction l as [|x l IH]; intros E; auto. simpl. rewrite E by (left; auto).
  rewrite IH by (intros; apply E; right; auto).
  unfold gapp. destruct (f x) as [w [e|]]; simpl; auto. now rewrite map_app.
Qed.

Lemma ps_other_eq blk :
  Forall (fun c => pos_word_char c = false) blk ->
  ps_other blk = gof (map (fun w => (w, tag_x)) (chars_crlf blk)).
Proof.
  intros FA. unfold ps_other. change ps_re_skip_internal with re_skip_default.
  rewrite (gfor_tag (fun w => (w, tag_x)) _
    (fun x => if re_matches re_skip_default x then gone x else gof (map (fun c => [c]) x))).
  - pose proof (cut_other_false blk) as E. unfold cut_other in E. simpl negb in E. cbn iota in E.
    rewrite E. reflexivity.
  - intros x HI. destruct (re_matches re_skip_default x) eqn:E; [reflexivity|].
    unfold gof. cbn [fst snd]. f_equal. rewrite map_map. apply map_ext_in. intros c HC.
    assert (CX : forall d, In d x -> is_alnum d = false /\ is_numdot d = false).
    { intros d HD. apply pos_char_class. rewrite Forall_forall in FA. apply FA.
      rewrite <- (re_split_concat re_skip_default blk). apply in_concat. eauto. }
    unfold ps_re_num, ps_re_eng. rewrite !re_plus_matches.
    destruct (CX c HC) as [C1 C2]. rewrite C2.
    destruct x as [|d x]; auto. destruct (CX d) as [D1 D2]; [left; auto|]. rewrite D1. reflexivity.
Qed.

(** ** Without HMM *)

Lemma eng1_re w :
  ~ In 10%N w -> re_matches ps_re_eng1 w = eng1 w.
Proof.
  intros N. rewrite eng1_eq. unfold re_matches, re_match, ps_re_eng1.
  destruct w as [|c w]; [reflexivity|].
  cbn [rmatch]. rewrite Nat.eqb_refl. cbn [flat_map fst snd app].
  destruct (is_alnum c); cbn [flat_map fst snd app]; [|destruct w; reflexivity].
  destruct w as [|d w]; [reflexivity|].
  destruct w as [|d' w]; [|reflexivity].
  destruct (d =? 10)%N eqn:E; [|reflexivity].
  apply N.eqb_eq in E. subst. exfalso. apply N. right. left. auto.
Qed.

Definition flush_t (buf : str) : list tagged := match buf with [] => [] | _ => [(buf, tag_eng)] end.
Fixpoint merge_eng_t (tab : sdict str) (buf : str) (ws : list str) : list tagged :=
  match ws with
  | [] => flush_t buf
  | w :: ws' =>
      if eng1 w then merge_eng_t tab (buf ++ w) ws'
      else flush_t buf ++ (w, tag_get tab w) :: merge_eng_t tab [] ws'
  end.

Lemma merge_eng_t_words tab buf ws : map fst (merge_eng_t tab buf ws) = merge_eng buf ws.
Proof.
  assert (F : forall b, map fst (flush_t b) = flush b) by (intros [|]; reflexivity).
  revert buf. induction ws as [|w ws IH]; intros buf; simpl; auto.
  destruct (eng1 w); auto. rewrite map_app, F. simpl. now rewrite IH.
Qed.

Section P.
  Variable num : Num.

  Lemma in_slice {A} (s : list A) i j x : In x (slice s i j) -> In x s.
  Proof.
    unfold slice. intros HI. rewrite <- (firstn_skipn i s). apply in_or_app. right.
    rewrite <- (firstn_skipn (j - i) (skipn i s)). apply in_or_app. left. exact HI.
  Qed.

  Lemma ps_nohmm_loop_eq tab fr (s : str) (route : list (F num * nat)) fuel x buf :
    ~ In 10%N s -> route_ok num fr s 0 route -> length s - x < fuel -> x <= length s ->
    ps_nohmm_loop num fuel tab s route x buf = gof (merge_eng_t tab buf (route_words fuel s route x)).
  Proof.
    intros NL RO. revert x buf. induction fuel as [|fuel IH]; intros x buf L LX; [lia|].
    cbn [route_words ps_nohmm_loop]. destruct (x <? length s) eqn:E.
    - apply Nat.ltb_lt in E. destruct (route_some RO E) as [r ER]. rewrite ER.
      destruct (step_slice RO E ER) as [HI HR]. cbn [merge_eng_t].
      rewrite eng1_re by (intros HN; apply NL; eapply in_slice; exact HN).
      destruct (eng1 (slice s x (snd r + 1))).
      + apply IH; lia.
      + rewrite IH by lia. destruct buf; reflexivity.
    - destruct buf; reflexivity.
  Qed.

  Lemma ps_nohmm_block_eq tab fr total (blk : str) :
    ~ In 10%N blk ->
    ps_nohmm_block num tab fr total blk =
    match calc num fr total blk (get_DAG fr blk) with
    | Err e => gerr e
    | Ok route => gof (merge_eng_t tab [] (route_words (S (length blk)) blk route 0))
    end.
  Proof.
    intros NL. unfold ps_nohmm_block.
    destruct (calc num fr total blk (get_DAG fr blk)) as [route|e] eqn:E; auto.
    apply ps_nohmm_loop_eq with (fr := fr); auto; try lia. eapply calc_ok; eauto.
  Qed.

  Variable T : ptables num.
  Variable ord : orders.

  Lemma ps_cut_runs HMM tab fr total s :
    ps_cut T ord HMM tab fr total s =
    gfor (runs pos_word_char s)
         (fun br => if fst br
                    then if HMM then ps_hmm_block T ord tab fr total (snd br)
                         else ps_nohmm_block num tab fr total (snd br)
                    else gof (map (fun w => (w, tag_x)) (chars_crlf (snd br)))).
  Proof.
    unfold ps_cut, ps_re_han_internal. rewrite gfor_split_class by reflexivity. rewrite gfor_map.
    rewrite (runs_ext _ _ s is_pos_char_ok).
    apply gfor_ext. intros [b blk] HI.
    pose proof (runs_class pos_word_char s) as RC. rewrite Forall_forall in RC.
    destruct (RC _ HI) as [NE FA]. simpl in *.
    destruct blk as [|c blk]; [congruence|].
    pose proof FA as FA'.
    inversion FA as [|? ? Hc _]; subst.
    rewrite re_matches_plus, is_pos_char_ok. destruct (pos_word_char c) eqn:E; [reflexivity|].
    apply ps_other_eq. exact FA'.
  Qed.

  Lemma run_no_newline s br : In br (runs pos_word_char s) -> fst br = true -> ~ In 10%N (snd br).
  Proof.
    intros HI E HN. pose proof (runs_class pos_word_char s) as RC. rewrite Forall_forall in RC.
    destruct (RC _ HI) as [_ FA]. rewrite Forall_forall in FA. specialize (FA _ HN).
    simpl in FA. destruct br as [b r]. simpl in *. subst b. discriminate.
  Qed.

  (** the words are those of [cut] without HMM, on the tagger's runs *)
  Lemma ps_cut_nohmm_words tab fr total s :
    words_of (ps_cut T ord false tab fr total s) =
    gfor (runs pos_word_char s)
         (fun br => if fst br then cut_nohmm_block num fr total (snd br)
                    else gof (chars_crlf (snd br))).
  Proof.
    rewrite ps_cut_runs, words_gfor. apply gfor_ext. intros [b r] HI. cbn [fst snd].
    destruct b.
    - rewrite ps_nohmm_block_eq by (eapply (run_no_newline s (true, r)); auto).
      destruct (calc num fr total r (get_DAG fr r)) as [route|e] eqn:E.
      + rewrite words_gof, merge_eng_t_words. symmetry. apply cut_nohmm_block_eq. exact E.
      + unfold cut_nohmm_block. rewrite E. reflexivity.
    - rewrite words_gof, map_map. cbn [fst]. rewrite map_id. reflexivity.
  Qed.

  Lemma runs_ext_on p q s : (forall c, In c s -> p c = q c) -> runs p s = runs q s.
  Proof.
    induction s as [|c s IH]; intros E; simpl; auto.
    rewrite IH by (intros; apply E; right; auto). rewrite E by (left; auto). reflexivity.
  Qed.

  Lemma pos_word_same c : c <> 37%N -> c <> 45%N -> pos_word_char c = word_char c.
  Proof.
    intros A B. unfold pos_word_char, word_char, alnum_char. cbn [existsb].
    apply N.eqb_neq in A, B. rewrite A, B. cbn [orb]. rewrite !orb_false_r, !orb_assoc. reflexivity.
  Qed.

  Lemma ps_cut_nohmm_cut (H : hmm num) tab fr total force s :
    (forall c, In c s -> c <> 37%N /\ c <> 45%N) ->
    words_of (ps_cut T ord false tab fr total s) = cut num H NoHMM fr total force s.
  Proof.
    intros NC. rewrite ps_cut_nohmm_words, cut_runs_accurate by reflexivity.
    rewrite (runs_ext_on pos_word_char word_char) by (intros c HI; apply pos_word_same; apply NC; auto).
    reflexivity.
  Qed.

  (** ** Tags without HMM *)

  Lemma merge_eng_t_tags tab buf ws w t :
    Forall (fun c => is_alnum c = true) buf ->
    In (w, t) (merge_eng_t tab buf ws) ->
    (w <> [] /\ Forall (fun c => is_alnum c = true) w /\ t = tag_eng) \/
    (In w ws /\ eng1 w = false /\ t = tag_get tab w).
  Proof.
    assert (FL : forall b, Forall (fun c => is_alnum c = true) b -> In (w, t) (flush_t b) ->
      w <> [] /\ Forall (fun c => is_alnum c = true) w /\ t = tag_eng).
    { intros [|c b] FB; [intros []|]. intros [[= <- <-]|[]]. repeat split; auto. discriminate. }
    revert buf. induction ws as [|w0 ws IH]; intros buf FB HI; simpl in HI.
    - left. eauto.
    - destruct (eng1 w0) eqn:E.
      + apply IH in HI.
        * destruct HI as [HI|[HI R]]; [left; auto|right; split; [right|]; auto].
        * apply Forall_app. split; auto. rewrite eng1_eq in E.
          destruct w0 as [|c [|]]; try discriminate. repeat constructor. auto.
      + apply in_app_or in HI. destruct HI as [HI|[[= <- <-]|HI]].
        * left. eauto.
        * right. repeat split; auto. left. auto.
        * apply IH in HI; [|constructor]. destruct HI as [HI|[HI R]]; [left; auto|right; split; [right|]; auto].
  Qed.

  Lemma route_words_step fr s (route : list (F num * nat)) fuel x w :
    route_ok num fr s 0 route -> In w (route_words fuel s route x) ->
    exists i j, i < length s /\ In j (dag_at fr s i) /\ w = slice s i (j + 1).
  Proof.
    intros RO. revert x. induction fuel as [|fuel IH]; intros x; cbn [route_words]; [intros []|].
    destruct (x <? length s) eqn:E; [|intros []].
    apply Nat.ltb_lt in E. destruct (route_some RO E) as [r ER]. rewrite ER.
    destruct (step_slice RO E ER) as [HI HR]. intros [<-|HW]; eauto.
  Qed.
End P.
