(** * The total and the frequencies stay non-negative and consistent *)
From Verif Require Import PyBase PyRegex PyNum PyUtf8 ModelFinalseg ModelSeg ModelDict ModelApi
  SpecBase SpecSeg SpecDict SpecApi ProofsBase ProofsRegex ProofsDemo ProofsDict ProofsUserdict ProofsUtf8.
Set Implicit Arguments.

(** the text of a user dictionary line does not end with a newline *)
Lemma uline_no_final_newline l text : uline_text l = Some text -> no_final_newline text.
Proof.
  destruct l as [s|b]; cbn [uline_text].
  - intros E. inversion E. intros u EU. apply strip_by_last in EU. discriminate.
  - destruct (utf8_decode (bytes_strip b)) as [t|] eqn:ED; [|discriminate]. cbn [option_map]. intros E.
    assert (ET : lstrip_by (fun c => (c =? 0xFEFF)%N) t = text) by congruence. clear E.
    intros u EU. destruct (lstrip_by_suffix (fun c => (c =? 0xFEFF)%N) t) as [v EV]. rewrite ET, EU in EV.
    rewrite EV, app_assoc in ED. apply decode_last_ascii in ED; [|lia]. destruct ED as [b' EB].
    apply strip_by_last in EB. discriminate.
Qed.

Lemma total_ok_add fr total w f :
  total_ok fr total -> (0 <= f)%Z -> total_ok (add_prefixes (sset fr w f) w) (total + f).
Proof.
  intros [ND [NN S]] L. split; [|split].
  - apply add_prefixes_NoDup, sset_NoDup; auto.
  - intros k n HI. assert (G : sget (add_prefixes (sset fr w f) w) k = Some n).
    { apply In_dget; auto; [apply str_eqb_eq|]. apply add_prefixes_NoDup, sset_NoDup; auto. }
    rewrite add_get in G. unfold after_add in G. destruct (str_eqb k w); [inversion G; subst; auto|].
    destruct (sget fr k) as [m|] eqn:EK.
    + inversion G; subst. apply sget_In in EK. eauto.
    + destruct (is_prefix k w); [|discriminate]. inversion G. lia.
  - rewrite add_prefixes_sum, sum_sset.
    assert (0 <= freq_get fr w 0)%Z.
    { unfold freq_get. destruct (sget fr w) eqn:E; [|lia]. apply sget_In in E. eauto. }
    lia.
Qed.

Lemma total_ok_total fr total : total_ok fr total -> (0 <= total)%Z.
Proof. intros [_ [NN S]]. pose proof (sum_of_nonneg _ NN). lia. Qed.

Lemma total_ok_get fr total w d : total_ok fr total -> (0 <= d)%Z -> (0 <= freq_get fr w d)%Z.
Proof.
  intros [_ [NN _]] L. unfold freq_get. destruct (sget fr w) eqn:E; auto. apply sget_In in E. eauto.
Qed.

Section Sign.
  Variable num : Num.
  Variable S : NumSign num.
  Variable H : hmm num.

  Lemma freq_product_nn fr total ftotal segs acc acc' :
    total_ok fr total -> s_nn S ftotal ->
    match acc with Some x => s_nn S x | None => True end ->
    freq_product num fr ftotal segs acc = Ok acc' ->
    match acc' with Some x => s_nn S x | None => True end.
  Proof.
    intros TO NT. revert acc. induction segs as [|seg segs IH]; intros acc NA; cbn [freq_product].
    - intros E; inversion E; subst; auto.
    - unfold py_float. destruct (f_of_Z num (freq_get fr seg 1)) as [x|] eqn:EX; cbn [rbind]; [|discriminate].
      unfold py_div. destruct (f_eq num ftotal (f_zero num)); cbn [rbind]; [discriminate|].
      apply IH. assert (NX : s_nn S x).
      { eapply s_of_Z; eauto. eapply total_ok_get; eauto. lia. }
      destruct acc as [a|]; cbn [acc_mul]; [apply s_mul; auto|]; apply s_div; auto.
  Qed.

  Lemma suggest_nonneg fr total force s n :
    total_ok fr total -> suggest_freq_value num H fr total force s = Ok n -> (0 <= n)%Z.
  Proof.
    intros TO. unfold suggest_freq_value, py_float.
    destruct (f_of_Z num total) as [ft|] eqn:ET; cbn [rbind]; [|discriminate].
    assert (NT : s_nn S ft) by (eapply s_of_Z; eauto; eapply total_ok_total; eauto).
    destruct s as [w|ws].
    - destruct (g_list _) as [segs|]; cbn [rbind]; [|discriminate].
      destruct (freq_product _ _ _ _ _) as [acc|]; cbn [rbind]; [|discriminate].
      destruct (int_freq_total _ _ _) as [m|]; cbn [rbind]; [|discriminate].
      intros E; inversion E. pose proof (@total_ok_get fr total w 1 TO). lia.
    - destruct (freq_product num fr ft ws None) as [acc|] eqn:EP; cbn [rbind]; [|discriminate].
      apply (freq_product_nn (total:=total)) in EP; auto.
      unfold int_freq_total. destruct acc as [a|].
      + destruct (f_trunc num (f_mul num a ft)) as [m|] eqn:EM; cbn [rbind]; [|discriminate].
        intros E; inversion E. assert (0 <= m)%Z by (apply (@s_trunc num S (f_mul num a ft)); auto; apply s_mul; auto).
        pose proof (@total_ok_get fr total (join ws) 0 TO). lia.
      + cbn [rbind]. intros E; inversion E. pose proof (@total_ok_get fr total (join ws) 0 TO).
        pose proof (total_ok_total TO). lia.
  Qed.

  Definition state_ok (d : dstate) : Prop := total_ok (d_freq d) (d_total d).

  Lemma add_freq_ok d w n t :
    state_ok d -> (0 <= n)%Z -> state_ok (add_word_freq d w n t) /\ (d_total d <= d_total (add_word_freq d w n t))%Z.
  Proof. intros SO L. split; [apply total_ok_add; auto|simpl; lia]. Qed.

  Lemma userdict_ok lines d :
    state_ok d ->
    state_ok (fst (load_userdict num H d lines)) /\ (d_total d <= d_total (fst (load_userdict num H d lines)))%Z.
  Proof.
    revert d. induction lines as [|l lines IH]; intros d SO; simpl; [split; auto; lia|].
    destruct (load_userdict_line num H d l) as [d'|e] eqn:E; [|simpl; split; auto; lia].
    assert (SD : state_ok d' /\ (d_total d <= d_total d')%Z).
    { apply userdict_line_adds in E. destruct E as [[-> _]|(c & text & w & f & t & n & E1 & E2 & -> & E3)]; [split; auto; lia|].
      apply add_freq_ok; auto. destruct f as [ds|].
      - destruct (parse_sound (uline_no_final_newline l E1) E2) as [_ [[_ [_ [[ND FD] _]]] _]].
        rewrite parse_int_ascii in E3 by auto. inversion E3. apply digits_val_nonneg; auto.
      - eapply suggest_nonneg; eauto. }
    destruct SD as [SD L]. destruct (IH d' SD). split; auto. lia.
  Qed.

  Lemma do_op_ok d o :
    state_ok d -> op_nonneg o ->
    state_ok (fst (do_op num H d o)) /\ (d_total d <= d_total (fst (do_op num H d o)))%Z.
  Proof.
    intros SO NO. destruct o; simpl; try (split; [auto|lia]).
    - destruct (add_word num H d w freq tag) as [d'|e] eqn:E; [|simpl; split; [auto|lia]].
      apply add_word_adds in E. destruct E as [n [-> [->|[-> E]]]].
      + apply add_freq_ok; auto.
      + apply add_freq_ok; auto. eapply suggest_nonneg; eauto.
    - apply add_freq_ok; auto. lia.
    - unfold suggest_freq. destruct (suggest_freq_value _ _ _ _ _ _) as [n|e] eqn:E; simpl; [|split; [auto|lia]].
      destruct tune; simpl; [|split; [auto|lia]].
      apply add_freq_ok; auto. eapply suggest_nonneg; eauto.
    - pose proof (userdict_ok lines SO) as UO. destruct (load_userdict num H d lines) as [d' [e|]]; auto.
  Qed.

  Lemma do_ops_ok os d :
    state_ok d -> Forall op_nonneg os ->
    state_ok (do_ops num H d os) /\ (d_total d <= d_total (do_ops num H d os))%Z.
  Proof.
    revert d. induction os as [|o os IH]; intros d SO F; simpl; [split; auto; lia|].
    inversion F; subst. destruct (do_op_ok o SO) as [S1 L1]; auto.
    destruct (IH (fst (do_op num H d o)) S1) as [S2 L2]; auto. split; auto.
    unfold do_ops in *. simpl in *. lia.
  Qed.
End Sign.

Lemma gen_pfdict_total_ok lines fr t :
  gen_pfdict lines = Ok (fr, t) ->
  (forall x w f, In x lines -> parse_dict_line x = Some (w, f) -> (0 <= f)%Z) ->
  total_ok fr t.
Proof.
  unfold gen_pfdict. intros E NN.
  assert (G : forall lines fr0 t0, gen_pfdict_loop lines fr0 t0 = Ok (fr, t) -> total_ok fr0 t0 ->
    (forall x w f, In x lines -> parse_dict_line x = Some (w, f) -> (0 <= f)%Z) -> total_ok fr t).
  { clear. induction lines as [|x lines IH]; intros fr0 t0; simpl.
    - intros E; inversion E; subst; auto.
    - destruct (parse_dict_line x) as [[w f]|] eqn:EP; [|discriminate]. intros E TO NN.
      eapply IH; eauto. apply total_ok_add; auto. eapply NN; eauto. }
  apply (G lines [] 0%Z); auto. split; [constructor|]. split; [intros ? ? []|]. unfold sum_of. simpl. lia.
Qed.
