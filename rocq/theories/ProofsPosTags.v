(** * Tag tables and histories *)
From Verif Require Import PyBase PyRegex PyNum PyUtf8 ModelFinalseg ModelSeg ModelDict ModelApi ModelPosseg
  SpecBase SpecSeg SpecDict SpecApi SpecPosseg SpecTagging ProofsBase ProofsDict ProofsUserdict ProofsUtf8 ProofsDictFile
  ProofsRegex ProofsSplit ProofsLocal ProofsPosseg.

Lemma last_for_app w a b :
  last_for w (a ++ b) = match last_for w b with Some t => Some t | None => last_for w a end.
Proof.
  induction a as [|[k t] a IH]; simpl; [destruct (last_for w b); auto|].
  rewrite IH. destruct (last_for w b); auto.
Qed.

(** [over l o]: the last pair of [l], else [o] *)
Definition over (w : str) (l : list (str * str)) (o : option str) : option str :=
  match last_for w l with Some t => Some t | None => o end.

Lemma over_app w a b o : over w (a ++ b) o = over w b (over w a o).
Proof. unfold over. rewrite last_for_app. destruct (last_for w b); auto. Qed.

Lemma sget_over w (tab : sdict str) k t :
  sget (sset tab k t) w = over w [(k, t)] (sget tab w).
Proof. rewrite sget_sset. unfold over. simpl. destruct (str_eqb w k); auto. Qed.

Section P.
  Variable num : Num.
  Variable H : hmm num.

  Lemma tags_add_freq d w n t k :
    sget (d_tags (add_word_freq d w n t)) k = over k (give w t) (sget (d_tags d) k).
  Proof.
    unfold add_word_freq, give. simpl. destruct t as [[|c t]|]; auto. apply sget_over.
  Qed.

  Lemma tags_add d w f t d' k :
    add_word num H d w f t = Ok d' -> sget (d_tags d') k = over k (give w t) (sget (d_tags d) k).
  Proof.
    unfold add_word. destruct f as [n|]; simpl.
    - intros [= <-]. apply tags_add_freq.
    - destruct (suggest_freq_value num H (d_freq d) (d_total d) (d_force d) (Whole w)); simpl; [|discriminate].
      intros [= <-]. apply tags_add_freq.
  Qed.

  Lemma tags_line d l d' k :
    load_userdict_line num H d l = Ok d' -> sget (d_tags d') k = over k (line_tags l) (sget (d_tags d) k).
  Proof.
    unfold load_userdict_line, line_tags. destruct (uline_text l) as [[|c s]|]; [|..|discriminate].
    - intros [= <-]. reflexivity.
    - destruct (parse_userdict_line (c :: s)) as [[[w f] t]|]; [|discriminate].
      destruct f as [f|].
      + destruct (parse_int f); [|discriminate]. apply tags_add.
      + apply tags_add.
  Qed.

  Lemma tags_userdict ls : forall d k,
    sget (d_tags (fst (load_userdict num H d ls))) k =
    over k (flat_map line_tags (lines_read num H d ls)) (sget (d_tags d) k).
  Proof.
    induction ls as [|l ls IH]; intros d k; simpl; auto.
    destruct (load_userdict_line num H d l) as [d'|e] eqn:E; simpl; auto.
    rewrite IH, over_app. f_equal. apply tags_line. exact E.
  Qed.

  Lemma tags_op d o k :
    sget (d_tags (fst (do_op num H d o))) k = over k (op_tags num H d o) (sget (d_tags d) k).
  Proof.
    destruct o as [w f t|w|s tune|ls| | | |].
    - unfold op_tags. simpl. destruct (add_word num H d w f t) as [d'|e] eqn:E; simpl; auto.
      eapply tags_add. exact E.
    - apply (tags_add_freq d w 0%Z None).
    - simpl. unfold suggest_freq.
      destruct (suggest_freq_value num H (d_freq d) (d_total d) (d_force d) s); simpl; auto.
      destruct tune; reflexivity.
    - simpl. pose proof (tags_userdict ls d k) as E. destruct (load_userdict num H d ls) as [d' [e|]]; exact E.
    - reflexivity.
    - reflexivity.
    - reflexivity.
    - reflexivity.
  Qed.

  Lemma sget_dupdate (tab tags : sdict str) k :
    NoDup (map fst tags) ->
    sget (dupdate str_eqb tab tags) k = match sget tags k with Some t => Some t | None => sget tab k end.
  Proof.
    unfold dupdate. revert tab. induction tags as [|[k0 t0] tags IH]; intros tab ND; simpl; auto.
    inversion ND as [|? ? NI ND']; subst. rewrite IH by auto.
    unfold sget at 3. simpl. fold (sget tags k). fold (@sset str).
    change (dset str_eqb tab k0 t0) with (sset tab k0 t0). rewrite sget_sset.
    destruct (str_eqb k k0) eqn:E.
    - apply str_eqb_eq in E. subst k0.
      destruct (sget tags k) as [t|] eqn:G; auto. exfalso. apply NI.
      apply in_map_iff. exists (k, t). split; auto. apply (@dget_In _ _ str_eqb str_eqb_eq) in G. exact G.
    - reflexivity.
  Qed.

  Lemma nodup_add_freq d w n t : NoDup (map fst (d_tags d)) -> NoDup (map fst (d_tags (add_word_freq d w n t))).
  Proof. unfold add_word_freq. simpl. destruct t as [[|c t]|]; auto. intros. apply sset_NoDup. auto. Qed.

  Lemma nodup_add d w f t d' :
    add_word num H d w f t = Ok d' -> NoDup (map fst (d_tags d)) -> NoDup (map fst (d_tags d')).
  Proof.
    unfold add_word. destruct f as [n|]; simpl.
    - intros [= <-]. apply nodup_add_freq.
    - destruct (suggest_freq_value num H (d_freq d) (d_total d) (d_force d) (Whole w)); simpl; [|discriminate].
      intros [= <-]. apply nodup_add_freq.
  Qed.

  Lemma nodup_userdict ls : forall d, NoDup (map fst (d_tags d)) ->
    NoDup (map fst (d_tags (fst (load_userdict num H d ls)))).
  Proof.
    induction ls as [|l ls IH]; intros d N; simpl; auto.
    destruct (load_userdict_line num H d l) as [d'|e] eqn:E; simpl; auto. apply IH.
    revert E. unfold load_userdict_line. destruct (uline_text l) as [[|c s]|]; [|..|discriminate].
    - intros [= <-]. auto.
    - destruct (parse_userdict_line (c :: s)) as [[[w f] t]|]; [|discriminate].
      destruct f as [f|].
      + destruct (parse_int f); [|discriminate]. intros E. eapply nodup_add; eauto.
      + intros E. eapply nodup_add; eauto.
  Qed.

  Lemma nodup_op d o : NoDup (map fst (d_tags d)) -> NoDup (map fst (d_tags (fst (do_op num H d o)))).
  Proof.
    intros N. destruct o as [w f t|w|s tune|ls| | | |]; auto.
    - simpl. destruct (add_word num H d w f t) as [d'|e] eqn:E; simpl; auto. eapply nodup_add; eauto.
    - simpl. unfold suggest_freq.
      destruct (suggest_freq_value num H (d_freq d) (d_total d) (d_force d) s); simpl; auto.
      destruct tune; simpl; auto.
    - simpl. pose proof (nodup_userdict ls d N) as E. destruct (load_userdict num H d ls) as [d' [e|]]; exact E.
  Qed.

  Variable T : ptables num.
  Variable ord : orders.
  Notation step := (do_pop num H T ord).

  Lemma set_nth_same {A} (l : list A) i x d : i < length l -> nth i (set_nth l i x) d = x.
  Proof. revert i. induction l as [|a l IH]; intros [|i] L; simpl in *; auto; try lia. apply IH. lia. Qed.

  Lemma set_nth_other {A} (l : list A) i j x d : i <> j -> nth i (set_nth l j x) d = nth i l d.
  Proof.
    revert i j. induction l as [|a l IH]; intros [|i] [|j] NE; simpl in *; auto; try lia.
  Qed.

  Lemma set_nth_length {A} (l : list A) i x : length (set_nth l i x) = length l.
  Proof. revert i. induction l as [|a l IH]; intros [|i]; simpl; auto. Qed.

  (** what tagger [i] finds for [k] when it cuts next *)
  Definition eff (w : pworld) (i : nat) (k : str) : option str :=
    match sget (d_tags (pw_d w)) k with Some t => Some t | None => sget (nth i (pw_tabs w) []) k end.

  Lemma makesure_tags w i : i < length (pw_tabs w) -> d_tags (pw_d (makesure_userdict_loaded w i)) = [].
  Proof.
    intros L. unfold makesure_userdict_loaded.
    destruct (nth_error (pw_tabs w) i) eqn:E; [|apply nth_error_None in E; lia].
    destruct (d_tags (pw_d w)) eqn:E1; auto.
  Qed.

  Lemma makesure_mine w i k : i < length (pw_tabs w) -> NoDup (map fst (d_tags (pw_d w))) ->
    sget (nth i (pw_tabs (makesure_userdict_loaded w i)) []) k = eff w i k.
  Proof.
    intros L ND. unfold makesure_userdict_loaded, eff.
    destruct (nth_error (pw_tabs w) i) as [tab|] eqn:E; [|apply nth_error_None in E; lia].
    destruct (d_tags (pw_d w)) as [|p l] eqn:E1; auto. cbn [pw_tabs].
    rewrite set_nth_same by auto. rewrite sget_dupdate by auto.
    erewrite nth_error_nth by eauto. reflexivity.
  Qed.

  Lemma makesure_other w i j : i <> j ->
    nth i (pw_tabs (makesure_userdict_loaded w j)) [] = nth i (pw_tabs w) [].
  Proof.
    intros NE. unfold makesure_userdict_loaded. destruct (nth_error (pw_tabs w) j); auto.
    destruct (d_tags (pw_d w)); auto. cbn [pw_tabs]. apply set_nth_other. auto.
  Qed.

  Lemma makesure_length w j : length (pw_tabs (makesure_userdict_loaded w j)) = length (pw_tabs w).
  Proof.
    unfold makesure_userdict_loaded. destruct (nth_error (pw_tabs w) j); auto.
    destruct (d_tags (pw_d w)); auto. cbn [pw_tabs]. apply set_nth_length.
  Qed.

  Lemma makesure_nodup w j : NoDup (map fst (d_tags (pw_d w))) ->
    NoDup (map fst (d_tags (pw_d (makesure_userdict_loaded w j)))).
  Proof.
    intros ND. unfold makesure_userdict_loaded. destruct (nth_error (pw_tabs w) j); auto.
    destruct (d_tags (pw_d w)) eqn:E; [rewrite E; constructor|constructor].
  Qed.

  Lemma pop_length w o : length (pw_tabs (fst (step w o))) = length (pw_tabs w).
  Proof.
    destruct o as [o|j h s|j same ls]; simpl.
    - destruct (do_op num H (pw_d w) o); auto.
    - destruct (nth_error (pw_tabs w) j); auto. apply makesure_length.
    - destruct same; [|destruct (gen_pfdict ls) as [[fr t]|]]; auto;
        destruct (load_word_tag ls []); simpl; auto using set_nth_length.
  Qed.

  Lemma pop_nodup w o : NoDup (map fst (d_tags (pw_d w))) -> NoDup (map fst (d_tags (pw_d (fst (step w o))))).
  Proof.
    intros ND. destruct o as [o|j h s|j same ls]; simpl.
    - pose proof (nodup_op (pw_d w) o ND). destruct (do_op num H (pw_d w) o); auto.
    - destruct (nth_error (pw_tabs w) j); auto. apply makesure_nodup. auto.
    - destruct same; [|destruct (gen_pfdict ls) as [[fr t]|]]; auto;
        destruct (load_word_tag ls []); simpl; auto.
  Qed.

  Lemma taken_ok i k os : forall w waiting mine base,
    i < length (pw_tabs w) ->
    NoDup (map fst (d_tags (pw_d w))) ->
    (forall same ls, ~ In (PInit i same ls) os) ->
    sget (d_tags (pw_d w)) k = last_for k waiting ->
    sget (nth i (pw_tabs w) []) k = over k mine base ->
    let w' := do_pops num H T ord w os in
    let r := taken num H T ord i w os waiting mine in
    sget (nth i (pw_tabs w') []) k = over k (fst r) base /\
    sget (d_tags (pw_d w')) k = last_for k (snd r).
  Proof.
    induction os as [|o os IH]; intros w waiting mine base L ND NI Ew Em; [simpl; auto|].
    cbn zeta. change (do_pops num H T ord w (o :: os)) with (do_pops num H T ord (fst (step w o)) os).
    pose proof (pop_length w o) as PL. pose proof (pop_nodup w o ND) as PN.
    assert (NI' : forall same ls, ~ In (PInit i same ls) os) by (intros ? ? I; eapply NI; right; eauto).
    destruct o as [o|j h s|j same ls]; cbn [taken].
    - apply IH; [rewrite PL; auto|auto|auto| |].
      + replace (d_tags (pw_d (fst (step w (PTok o))))) with (d_tags (fst (do_op num H (pw_d w) o)))
          by (simpl; destruct (do_op num H (pw_d w) o); auto).
        rewrite tags_op. unfold over. rewrite Ew, last_for_app. reflexivity.
      + rewrite <- Em. simpl. destruct (do_op num H (pw_d w) o); auto.
    - destruct (j <? length (pw_tabs w))%nat eqn:Ej.
      + apply Nat.ltb_lt in Ej.
        assert (E : fst (step w (PCut j h s)) = makesure_userdict_loaded w j).
        { simpl. destruct (nth_error (pw_tabs w) j) eqn:E; auto. apply nth_error_None in E. lia. }
        rewrite E in *. apply IH; [rewrite PL; auto|auto|auto| |].
        * rewrite makesure_tags by auto. reflexivity.
        * destruct (j =? i)%nat eqn:Ei.
          -- apply Nat.eqb_eq in Ei. subst j. rewrite makesure_mine by auto. unfold eff.
             rewrite Ew, Em, over_app. reflexivity.
          -- apply Nat.eqb_neq in Ei. rewrite makesure_other by auto. exact Em.
      + apply Nat.ltb_ge in Ej.
        assert (E : fst (step w (PCut j h s)) = w).
        { simpl. destruct (nth_error (pw_tabs w) j) eqn:E; auto.
          assert (j < length (pw_tabs w)) by (apply nth_error_Some; congruence). lia. }
        rewrite E in *. apply IH; auto.
    - assert (NE : i <> j) by (intros ->; eapply NI; left; eauto).
      apply IH; [rewrite PL; auto|auto|auto| |].
      + rewrite <- Ew. simpl. destruct same; [|destruct (gen_pfdict ls) as [[fr t]|]]; auto;
          destruct (load_word_tag ls []); simpl; auto.
      + rewrite <- Em. simpl. destruct same; [|destruct (gen_pfdict ls) as [[fr t]|]]; auto;
          destruct (load_word_tag ls []); cbn [fst pw_tabs]; rewrite ?set_nth_other by auto; auto.
  Qed.

  (** a single tagger takes all tags *)
  Lemma taken_all i os : forall w waiting mine,
    (forall j h s, In (PCut j h s) os -> j = i) ->
    let r := taken num H T ord i w os waiting mine in
    fst r ++ snd r = (mine ++ waiting) ++ history_tags num H T ord w os.
  Proof.
    induction os as [|o os IH]; intros w waiting mine J; cbn zeta; cbn [taken history_tags].
    - simpl. rewrite app_nil_r. reflexivity.
    - assert (J' : forall j h s, In (PCut j h s) os -> j = i) by (intros; eapply J; right; eauto).
      destruct o as [o|j h s|j same ls].
      + rewrite IH by auto. rewrite !app_assoc. reflexivity.
      + assert (j = i) by (eapply J; left; eauto). subst j. rewrite Nat.eqb_refl.
        destruct (i <? length (pw_tabs w))%nat; rewrite IH by auto; rewrite ?app_nil_r; reflexivity.
      + rewrite IH by auto. reflexivity.
  Qed.
End P.

(** ** The table read from a dictionary file *)

Lemma tag_entry_line line w t : tag_entry line w t -> tag_line line = Some (Some (w, t)).
Proof.
  intros (f & b & eol & NE & NB & HW & NF & NT & (t0 & c & Et & Hc) & EN & WS & ->).
  assert (EB : bytes_strip (b ++ eol) = b).
  { unfold bytes_strip. apply strip_by_app; auto.
    - destruct w as [|x w]; [contradiction|]. destruct (encode_first _ _ EN HW) as (y & r & E & Hy). eauto.
    - rewrite Et in EN.
      assert (E : w ++ 32%N :: f ++ 32%N :: t0 ++ [c] = (w ++ 32%N :: f ++ 32%N :: t0) ++ [c])
        by (rewrite <- !app_assoc; simpl; rewrite <- app_assoc; reflexivity).
      rewrite E in EN. destruct (encode_last _ _ EN Hc) as (y' & r' & E' & Hy'). eauto. }
  unfold tag_line. rewrite EB. rewrite (decode_encode _ _ EN).
  destruct w as [|x w]; [contradiction|].
  change ((x :: w) ++ 32%N :: f ++ 32%N :: t) with (x :: (w ++ 32%N :: f ++ 32%N :: t)).
  cbv beta iota.
  change (x :: (w ++ 32%N :: f ++ 32%N :: t)) with ((x :: w) ++ 32%N :: f ++ 32%N :: t).
  rewrite split_on_app by auto. rewrite split_on_app by auto. rewrite split_on_none by auto. reflexivity.
Qed.

Lemma load_entries lines : forall entries tab,
  Forall2 (fun line e => tag_entry line (fst e) (snd e)) lines entries ->
  exists tab', load_word_tag lines tab = (tab', None) /\
               forall k, sget tab' k = over k entries (sget tab k).
Proof.
  induction lines as [|line lines IH]; intros entries tab F; inversion F as [|? [w t] ? es E F']; subst.
  - exists tab. split; auto.
  - cbn [load_word_tag]. simpl in E. rewrite (tag_entry_line _ _ _ E).
    destruct (IH es (sset tab w t) F') as (tab' & E1 & E2). exists tab'. split; auto.
    intros k. rewrite E2, sget_over. unfold over. simpl.
    destruct (last_for k es); auto.
Qed.

Lemma untagged_entry_line line w f : untagged_entry line w f ->
  dict_line line w f /\ tag_line line = None.
Proof.
  intros (ds & b & eol & NE & NB & HW & ND & FD & Ef & EN & WS & ->). split.
  - exists ds, None, b, eol. rewrite app_nil_r. repeat (split; auto).
  - assert (EB : bytes_strip (b ++ eol) = b).
    { unfold bytes_strip. apply strip_by_app; auto.
      - destruct w as [|x w]; [contradiction|]. destruct (encode_first _ _ EN HW) as (y & r & E & Hy). eauto.
      - destruct (exists_last ND) as [d0 [c Ed]]. rewrite Ed in EN, FD.
        assert (E : w ++ 32%N :: d0 ++ [c] = (w ++ 32%N :: d0) ++ [c]) by (rewrite <- !app_assoc; reflexivity).
        rewrite E in EN. apply Forall_app in FD. destruct FD as [_ FD]. inversion FD; subst.
        destruct (encode_last _ _ EN (digit_not_bspace _ H1)) as (y' & r' & E' & Hy'). eauto. }
    unfold tag_line. rewrite EB. rewrite (decode_encode _ _ EN).
    destruct w as [|x w]; [contradiction|].
    change ((x :: w) ++ 32%N :: ds) with (x :: (w ++ 32%N :: ds)). cbv beta iota.
    change (x :: (w ++ 32%N :: ds)) with ((x :: w) ++ 32%N :: ds).
    rewrite split_on_app by auto. rewrite split_on_none by (apply digits_no_blank; auto). reflexivity.
Qed.
