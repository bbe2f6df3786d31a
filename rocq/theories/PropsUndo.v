(** * C82: adding a deleted word again *)
From Coq Require Import Reals Lra.
From Verif Require Import PyBase PyRegex PyNum ModelFinalseg ModelSeg ModelDict ModelApi
  SpecBase SpecSeg SpecNum SpecScore SpecDict SpecApi SpecExt SpecHealth InstR InstQ InstSign
  ProofsBase ProofsSeg ProofsOpt ProofsNoHmm ProofsDict ProofsSuggest ProofsWords ProofsExt PropsDict PropsExt
  Demo ProofsDemo ProofsHealth.

(** Deleting a word and adding it again with the frequency and the tag it had: every
    stored frequency and tag is as before, and so are the word graph and full mode; the
    total has grown by the frequency and the word has become a forced split. *)
Theorem C82_add_again :
  forall (num : Num) (H : hmm num) (d : dstate) (w : str) (f : Z) (tag : option str),
    reachable num H d -> sget (d_freq d) w = Some f -> f <> 0%Z ->
    (tag = None \/ tag = sget (d_tags d) w) ->
    let d' := do_ops num H d [OpDelWord w; OpAddWord w (Some f) tag] in
    (forall k, sget (d_freq d') k = sget (d_freq d) k) /\
    (forall k, sget (d_tags d') k = sget (d_tags d) k) /\
    d_total d' = (d_total d + f)%Z /\
    (forall x, In x (d_force d') <-> In x (d_force d) \/ x = w) /\
    (forall HMM s, snd (do_op num H d' (OpCut true HMM s)) = snd (do_op num H d (OpCut true HMM s))) /\
    (forall s, snd (do_op num H d' (OpGetDAG s)) = snd (do_op num H d (OpGetDAG s))).
Proof.
  intros num H d w f tag R E NZ TG d'.
  assert (PC : prefix_closed (sget (d_freq d))) by (eapply C17_always_prefix_closed; eauto).
  assert (FQ : forall k, sget (d_freq d') k = sget (d_freq d) k).
  { intros k. unfold d', do_ops. cbn [fold_left do_op del_word add_word rbind fst add_word_freq d_freq].
    rewrite !add_get. unfold after_add. rewrite !add_get. unfold after_add.
    destruct (str_eqb k w) eqn:EK; [apply str_eqb_eq in EK; congruence|].
    destruct (sget (d_freq d) k) eqn:EK'; auto.
    destruct (is_prefix k w) eqn:IP; auto.
    apply is_prefix_spec in IP. destruct IP as [NE [t ->]]. exfalso. apply (PC k t NE); congruence. }
  assert (PC' : prefix_closed (sget (d_freq d'))) by (eapply prefix_closed_ext; [intros k; symmetry; apply FQ|auto]).
  assert (S : forall s, same_in s (sget (d_freq d')) (sget (d_freq d))).
  { intros s u _. unfold freq_of. rewrite FQ. reflexivity. }
  split; [exact FQ|]. split.
  { intros k. unfold d', do_ops. cbn [fold_left do_op del_word add_word rbind fst add_word_freq d_tags].
    destruct TG as [-> | ->]; auto. destruct (sget (d_tags d) w) as [[|c t]|] eqn:ET; auto.
    rewrite sget_sset. destruct (str_eqb k w) eqn:EK; auto. apply str_eqb_eq in EK. congruence. }
  split; [unfold d', do_ops; cbn [fold_left do_op del_word add_word rbind fst add_word_freq d_total]; lia|].
  split.
  { intros x. unfold d', do_ops. cbn [fold_left do_op del_word add_word rbind fst add_word_freq d_force].
    destruct (f =? 0)%Z eqn:EF; [apply Z.eqb_eq in EF; contradiction|]. rewrite Z.eqb_refl. apply set_add_In. }
  split.
  - intros HMM s. cbn [do_op snd]. f_equal. apply (C79_full_mode_no_total num H); auto.
  - intros s. cbn [do_op snd]. f_equal. apply get_DAG_same; auto.
Qed.

(** Once deleted, a word is split by [finalseg.cut] for ever, whatever is called later. *)
Theorem C82_split_for_ever :
  forall (num : Num) (H : hmm num) (d : dstate) (os : list op) (w s : str),
    In (OpDelWord w) os -> 2 <= length w -> (exists c, In c w /\ han_char c = true) ->
    ~ In w (fst (fs_cut num H (d_force (do_ops num H d os)) s)).
Proof.
  intros num H d os w s I L [c [HC HH]] HI.
  apply in_split in I. destruct I as [os1 [os2 ->]].
  assert (F : In w (d_force (do_ops num H d (os1 ++ OpDelWord w :: os2)))).
  { unfold do_ops. rewrite fold_left_app. cbn [fold_left].
    change (fold_left (fun d o => fst (do_op num H d o)) os2 ?x) with (do_ops num H x os2).
    match goal with |- In _ (d_force (do_ops num H ?x os2)) => destruct (@do_ops_adds num H os2 x) as [l [E _]] end.
    rewrite E. apply adds_force. cbn [do_op del_word add_word rbind fst add_word_freq d_force]. rewrite Z.eqb_refl.
    apply set_add_In. auto. }
  apply fs_cut_kind in HI. destruct HI as [X|[X|X]]; [lia|contradiction|].
  unfold no_han in X. rewrite Forall_forall in X. specialize (X c HC). congruence.
Qed.

(** So it is no undo: 北 and 京 with frequency 5 each and 北京 with 2 give 北|京
    (25/12 > 2); after deleting 北京 and adding it again with 2 they give 北京 (25/14 < 2). *)
Definition bj52 : dstate := build [([c_bei], 5%Z); ([c_jing], 5%Z); ([c_bei; c_jing], 2%Z)].

Lemma two_char_cut (H : hmm numR) (d : dstate) (joined : bool) :
  healthy (d_freq d) (d_total d) ->
  sget (d_freq d) [c_bei] = Some 5%Z -> sget (d_freq d) [c_jing] = Some 5%Z -> sget (d_freq d) [c_bei; c_jing] = Some 2%Z ->
  (if joined then 25 < 2 * IZR (d_total d) else 2 * IZR (d_total d) < 25)%R ->
  snd (do_op numR H d (OpCut false false [c_bei; c_jing])) =
  OutWords (gof (if joined then [[c_bei; c_jing]] else [[c_bei]; [c_jing]])).
Proof.
  intros HE E1 E2 E3 B. pose proof HE as [PC [TP _]].
  cbn [do_op snd]. change (mode_of false false) with NoHMM. f_equal.
  rewrite (@cut_nohmm_text numR H (d_freq d) (d_total d) (d_force d) [c_bei; c_jing] (healthy_sane HE)).
  change (runs word_char [c_bei; c_jing]) with [(true, [c_bei; c_jing])]. cbn [flat_map fst snd app].
  assert (W1 : is_word (sget (d_freq d)) [c_bei]) by (exists 5%Z; split; auto; discriminate).
  assert (W2 : is_word (sget (d_freq d)) [c_jing]) by (exists 5%Z; split; auto; discriminate).
  assert (W3 : is_word (sget (d_freq d)) [c_bei; c_jing]) by (exists 2%Z; split; auto; discriminate).
  assert (C1 : candidate (sget (d_freq d)) [c_bei; c_jing] [[c_bei]; [c_jing]]).
  { exists [c_jing]. repeat split; auto; [discriminate|]. exists []. repeat split; auto. discriminate. }
  assert (C2 : candidate (sget (d_freq d)) [c_bei; c_jing] [[c_bei; c_jing]]).
  { exists []. repeat split; auto. discriminate. }
  pose proof (@chosen_prob (d_freq d) (d_total d) _ _ (healthy_sane HE) PC C1) as B1.
  pose proof (@chosen_prob (d_freq d) (d_total d) _ _ (healthy_sane HE) PC C2) as B2.
  pose proof (@chosen_candidate numR (d_freq d) (d_total d) [c_bei; c_jing] (healthy_sane HE) PC) as C.
  apply candidate_partition, two_chars_cases in C.
  assert (V1 : weight_of (sget (d_freq d)) [c_bei] = 5%Z) by (unfold weight_of; rewrite E1; reflexivity).
  assert (V2 : weight_of (sget (d_freq d)) [c_jing] = 5%Z) by (unfold weight_of; rewrite E2; reflexivity).
  assert (V3 : weight_of (sget (d_freq d)) [c_bei; c_jing] = 2%Z) by (unfold weight_of; rewrite E3; reflexivity).
  assert (TR : (0 < IZR (d_total d))%R) by (apply IZR_lt; auto).
  destruct C as [C|C]; rewrite C in *; destruct joined; auto; exfalso;
    unfold prob in B1, B2; cbn [fold_right] in B1, B2; try rewrite V1 in B1; try rewrite V2 in B1; try rewrite V3 in B1; try rewrite V1 in B2; try rewrite V2 in B2; try rewrite V3 in B2.
  - assert (X : (5 / IZR (d_total d) * (5 / IZR (d_total d) * 1) = 25 / IZR (d_total d) / IZR (d_total d))%R) by (field; lra).
    rewrite X in B1. apply (Rmult_le_compat_r (IZR (d_total d))) in B1; [|lra].
    apply (Rmult_le_compat_r (IZR (d_total d))) in B1; [|lra].
    replace (25 / IZR (d_total d) / IZR (d_total d) * IZR (d_total d) * IZR (d_total d))%R with 25%R in B1 by (field; lra).
    replace (2 / IZR (d_total d) * 1 * IZR (d_total d) * IZR (d_total d))%R with (2 * IZR (d_total d))%R in B1 by (field; lra).
    lra.
  - assert (X : (5 / IZR (d_total d) * (5 / IZR (d_total d) * 1) = 25 / IZR (d_total d) / IZR (d_total d))%R) by (field; lra).
    rewrite X in B2. apply (Rmult_le_compat_r (IZR (d_total d))) in B2; [|lra].
    apply (Rmult_le_compat_r (IZR (d_total d))) in B2; [|lra].
    replace (25 / IZR (d_total d) / IZR (d_total d) * IZR (d_total d) * IZR (d_total d))%R with 25%R in B2 by (field; lra).
    replace (2 / IZR (d_total d) * 1 * IZR (d_total d) * IZR (d_total d))%R with (2 * IZR (d_total d))%R in B2 by (field; lra).
    lra.
Qed.

Theorem C82_undo_refuted :
  forall (H : hmm numR),
    let d' := do_ops numR H bj52 [OpDelWord [c_bei; c_jing]; OpAddWord [c_bei; c_jing] (Some 2%Z) None] in
    healthy (d_freq bj52) (d_total bj52) /\ sget (d_freq bj52) [c_bei; c_jing] = Some 2%Z /\
    snd (do_op numR H bj52 (OpCut false false [c_bei; c_jing])) = OutWords (gof [[c_bei]; [c_jing]]) /\
    snd (do_op numR H d' (OpCut false false [c_bei; c_jing])) = OutWords (gof [[c_bei; c_jing]]).
Proof.
  intros H d'.
  assert (HE : healthy (d_freq bj52) (d_total bj52)) by (apply healthyb_ok; vm_compute; reflexivity).
  assert (ED : d' = add_word_freq (add_word_freq bj52 [c_bei; c_jing] 0 None) [c_bei; c_jing] 2 None) by reflexivity.
  assert (HE' : healthy (d_freq d') (d_total d')) by (rewrite ED; apply healthyb_ok; vm_compute; reflexivity).
  split; auto. split; [reflexivity|]. split.
  - apply (@two_char_cut H bj52 false); auto. change (d_total bj52) with 12%Z. lra.
  - apply (@two_char_cut H d' true); auto. change (d_total d') with 14%Z. lra.
Qed.

Example C82_nonvacuous :
  exists d, reachable numQ demo_hmm d /\ sget (d_freq d) [c_da; c_xue; c_sheng] = Some 4%Z /\
    exists c, In c [c_da; c_xue; c_sheng] /\ han_char c = true.
Proof.
  destruct C17_nonvacuous as [d [R [E _]]]. exists d. split; auto. split; auto.
  exists c_da. split; [left|]; reflexivity.
Qed.

Print Assumptions C82_add_again.
Print Assumptions C82_split_for_ever.
Print Assumptions C82_undo_refuted.
