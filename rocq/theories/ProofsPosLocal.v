(** * Locality of tagging, and histories *)
From Coq Require Import Lia.
From Verif Require Import PyBase PyRegex PyNum ModelFinalseg ModelSeg ModelDict ModelApi ModelPosseg
  SpecBase SpecSeg SpecDict SpecApi SpecHealth SpecPosseg SpecTagging ProofsBase ProofsRegex ProofsSplit ProofsLocal
  ProofsDict ProofsTotal ProofsWords ProofsPosseg ProofsPosTags.

(** a place in a text that no word of the tagger crosses *)
Definition pos_boundary (u v : str) : Prop :=
  not_in_crlf u v /\
  ((exists u0 c, u = u0 ++ [c] /\ pos_word_char c = false) \/
   (exists c v0, v = c :: v0 /\ pos_word_char c = false)).

Section P.
  Variable num : Num.
  Variable H : hmm num.
  Variable T : ptables num.
  Variable ord : orders.

  Lemma ps_cut_local HMM tab fr total u v :
    pos_boundary u v ->
    ps_cut T ord HMM tab fr total (u ++ v) =
    gapp (ps_cut T ord HMM tab fr total u) (ps_cut T ord HMM tab fr total v).
  Proof.
    intros [NC SP]. rewrite !ps_cut_runs.
    destruct u as [|c u]; [simpl; rewrite gapp_nil_l; reflexivity|].
    destruct v as [|d v]; [simpl; rewrite app_nil_r, gapp_nil_r; reflexivity|].
    destruct (@runs_join pos_word_char (c :: u) (d :: v)) as (l1 & b1 & r1 & b2 & r2 & l2 & E1 & E2 & E3 & N1 & N2 & E4 & E5);
      [discriminate|discriminate|].
    rewrite E5. destruct (Bool.eqb b1 b2) eqn:EB; [|apply gfor_app].
    apply Bool.eqb_prop in EB.
    assert (b1 = false) by (eapply join_false; eauto). subst b1. subst b2.
    rewrite E1, E2, !gfor_app. cbn [gfor fst snd]. rewrite gapp_nil_r, <- !gapp_assoc. f_equal.
    rewrite gapp_assoc, gapp_gof, <- map_app. f_equal. f_equal. f_equal.
    destruct E3 as [u0 E3], E4 as [v0 E4].
    apply chars_crlf_app. intros [x [y [-> ->]]]. apply NC. exists (u0 ++ x), (y ++ v0). rewrite E3, E4, app_assoc. auto.
  Qed.

  Variable S : NumSign num.

  Lemma pop_healthy w o :
    healthy (d_freq (pw_d w)) (d_total (pw_d w)) -> pop_nonneg o ->
    healthy (d_freq (pw_d (fst (do_pop num H T ord w o)))) (d_total (pw_d (fst (do_pop num H T ord w o)))).
  Proof.
    intros HE NN. destruct o as [o|j h s|j same ls]; simpl.
    - destruct HE as [PC [PT TO]].
      destruct (do_op_ok (num := num) S H o (d := pw_d w) TO NN) as [A B].
      assert (PC' : prefix_closed (sget (d_freq (fst (do_op num H (pw_d w) o))))).
      { destruct (@do_ops_adds num H [o] (pw_d w)) as [l [E _]].
        change (fst (do_op num H (pw_d w) o)) with (do_ops num H (pw_d w) [o]). rewrite E. apply adds_closed. exact PC. }
      destruct (do_op num H (pw_d w) o) as [d' r]. simpl in *. split; auto. split; auto. lia.
    - destruct (nth_error (pw_tabs w) j); auto. unfold makesure_userdict_loaded.
      destruct (nth_error (pw_tabs w) j); auto. destruct (d_tags (pw_d w)); auto.
    - destruct same.
      + destruct (load_word_tag ls []). exact HE.
      + destruct (gen_pfdict ls) as [[fr t]|e] eqn:E; [|exact HE].
        destruct NN as [N1 N2]. specialize (N2 _ _ E).
        destruct (load_word_tag ls []). simpl. split; [eapply gen_pfdict_closed; eauto|]. split; auto.
        eapply gen_pfdict_total_ok; eauto.
  Qed.

  Lemma pops_healthy os : forall w,
    healthy (d_freq (pw_d w)) (d_total (pw_d w)) -> Forall pop_nonneg os ->
    healthy (d_freq (pw_d (do_pops num H T ord w os))) (d_total (pw_d (do_pops num H T ord w os))).
  Proof.
    induction os as [|o os IH]; intros w HE FA; simpl; auto. inversion FA; subst.
    apply IH; auto. apply pop_healthy; auto.
  Qed.

  Lemma pops_length os : forall w, length (pw_tabs (do_pops num H T ord w os)) = length (pw_tabs w).
  Proof.
    induction os as [|o os IH]; intros w; auto.
    change (do_pops num H T ord w (o :: os)) with (do_pops num H T ord (fst (do_pop num H T ord w o)) os).
    rewrite IH. apply pop_length.
  Qed.

  Lemma pops_nodup os : forall w, NoDup (map fst (d_tags (pw_d w))) ->
    NoDup (map fst (d_tags (pw_d (do_pops num H T ord w os)))).
  Proof.
    induction os as [|o os IH]; intros w ND; simpl; auto. apply IH. apply pop_nodup. auto.
  Qed.

  (** what a cut returns *)
  Lemma pop_cut w i HMM s : i < length (pw_tabs w) ->
    snd (do_pop num H T ord w (PCut i HMM s)) =
    PWords (ps_cut T ord HMM (nth i (pw_tabs (makesure_userdict_loaded w i)) []) (d_freq (pw_d w)) (d_total (pw_d w)) s).
  Proof.
    intros L. simpl. destruct (nth_error (pw_tabs w) i) eqn:E; [|apply nth_error_None in E; lia]. cbn [snd].
    unfold makesure_userdict_loaded. rewrite E. destruct (d_tags (pw_d w)); reflexivity.
  Qed.

  Lemma pop_cut_world w i HMM s : i < length (pw_tabs w) ->
    fst (do_pop num H T ord w (PCut i HMM s)) = makesure_userdict_loaded w i.
  Proof.
    intros L. simpl. destruct (nth_error (pw_tabs w) i) eqn:E; [|apply nth_error_None in E; lia]. reflexivity.
  Qed.

  Lemma makesure_twice w i : makesure_userdict_loaded (makesure_userdict_loaded w i) i = makesure_userdict_loaded w i.
  Proof.
    unfold makesure_userdict_loaded at 2 3. destruct (nth_error (pw_tabs w) i) eqn:E;
      [|unfold makesure_userdict_loaded; rewrite E; reflexivity].
    destruct (d_tags (pw_d w)) eqn:E1; unfold makesure_userdict_loaded; cbn [pw_tabs pw_d d_tags].
    - rewrite E, E1. reflexivity.
    - destruct (nth_error (set_nth _ _ _) i); reflexivity.
  Qed.
End P.
