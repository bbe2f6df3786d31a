(** * C79: a text is segmented by the frequencies of what occurs in it, and the total *)
From Coq Require Import Reals Lra.
From Verif Require Import PyBase PyRegex PyNum ModelFinalseg ModelSeg ModelDict ModelApi ModelPosseg
  SpecBase SpecSeg SpecNum SpecScore SpecDict SpecExt SpecHealth InstR InstSign InstQ
  ProofsBase ProofsSeg ProofsOpt ProofsNoHmm ProofsDict ProofsSuggest ProofsExt PropsDict Demo ProofsDemo ProofsHealth.

(** Two dictionaries with the same total that give the same frequency to everything
    that occurs in the text (and split by force the same stretches of it, which counts
    with the HMM only) segment it in the same way, whatever else they contain and in
    whatever order. *)
Theorem C79_only_what_occurs :
  forall (num : Num) (H : hmm num) (fr fr' : freqs) (total : Z) (force force' : list str) (s : str),
    prefix_closed (sget fr) -> prefix_closed (sget fr') ->
    same_in s (sget fr) (sget fr') ->
    (forall cut_all, cut num H (mode_of cut_all false) fr total force s =
                     cut num H (mode_of cut_all false) fr' total force' s) /\
    cut_for_search num H false fr total force s = cut_for_search num H false fr' total force' s /\
    (forall tm, tokenize num H tm false fr total force s = tokenize num H tm false fr' total force' s) /\
    (same_members s force force' ->
     cut num H (mode_of false true) fr total force s = cut num H (mode_of false true) fr' total force' s /\
     cut_for_search num H true fr total force s = cut_for_search num H true fr' total force' s /\
     forall tm, tokenize num H tm true fr total force s = tokenize num H tm true fr' total force' s).
Proof.
  intros num H fr fr' total force force' s P P' A. split; [|split; [|split]].
  - intros cut_all. apply cut_same; auto. destruct cut_all; discriminate.
  - apply cut_for_search_same; auto. discriminate.
  - intros tm. apply tokenize_same; auto. discriminate.
  - intros B. split; [|split; [|intros tm]].
    + apply cut_same; auto.
    + apply cut_for_search_same; auto.
    + apply tokenize_same; auto.
Qed.

(** Full mode and the word graph do not even depend on the total. *)
Theorem C79_full_mode_no_total :
  forall (num : Num) (H : hmm num) (fr fr' : freqs) (total total' : Z) (force force' : list str) (HMM HMM' : bool) (s : str),
    prefix_closed (sget fr) -> prefix_closed (sget fr') ->
    same_in s (sget fr) (sget fr') ->
    get_DAG fr s = get_DAG fr' s /\
    cut num H (mode_of true HMM) fr total force s = cut num H (mode_of true HMM') fr' total' force' s.
Proof.
  intros num H fr fr' total total' force force' HMM HMM' s P P' A. split.
  - apply get_DAG_same; auto.
  - change (mode_of true HMM) with Full. change (mode_of true HMM') with Full.
    transitivity (cut num H Full fr total' force s).
    + unfold cut. apply gfor_ext. intros blk _. destruct blk; auto.
    + apply cut_same; auto. discriminate.
Qed.

(** The tagger: also the tags of what occurs in the text. *)
Theorem C79_tagger_only_what_occurs :
  forall (num : Num) (T : ptables num) (ord : orders) (HMM : bool) (tab tab' : sdict str)
         (fr fr' : freqs) (total : Z) (s : str),
    prefix_closed (sget fr) -> prefix_closed (sget fr') ->
    same_in s (sget fr) (sget fr') -> same_tags s (sget tab) (sget tab') ->
    ps_cut T ord HMM tab fr total s = ps_cut T ord HMM tab' fr' total s.
Proof. intros. apply ps_cut_same; auto. Qed.

(** Deleting a word that does not occur in the text changes nothing about it. *)
Lemma same_in_add fr w f s : ~ substring w s -> same_in s (sget fr) (sget (add_prefixes (sset fr w f) w)).
Proof.
  intros NS u U. unfold freq_of. rewrite add_get. unfold after_add.
  destruct (str_eqb u w) eqn:E; [apply str_eqb_eq in E; subst; contradiction|].
  destruct (sget fr u); auto. destruct (is_prefix u w); auto.
Qed.

Theorem C79_deleting_elsewhere :
  forall (num : Num) (H : hmm num) (d d' : dstate) (w s : str),
    reachable num H d -> ~ substring w s ->
    del_word num H d w = Ok d' ->
    let now d o := snd (do_op num H d o) in
    (forall cut_all HMM, now d' (OpCut cut_all HMM s) = now d (OpCut cut_all HMM s)) /\
    (forall HMM, now d' (OpCutForSearch HMM s) = now d (OpCutForSearch HMM s)) /\
    (forall tm HMM, now d' (OpTokenize tm HMM s) = now d (OpTokenize tm HMM s)) /\
    now d' (OpGetDAG s) = now d (OpGetDAG s).
Proof.
  intros num H d d' w s R NS E. unfold del_word, add_word in E. cbn [rbind] in E. inversion E; subst d'. clear E.
  pose proof (C17_always_prefix_closed num H d R) as P.
  assert (P' : prefix_closed (sget (add_prefixes (sset (d_freq d) w 0%Z) w))) by (apply add_closed; auto).
  pose proof (@same_in_add (d_freq d) w 0%Z s NS) as A.
  assert (B : same_members s (d_force d) (set_add (d_force d) w)).
  { intros u U. rewrite set_add_In. split; auto. intros [I| ->]; auto. contradiction. }
  cbn [do_op snd add_word_freq d_freq d_total d_force]. rewrite Z.add_0_r. cbn [Z.eqb].
  split; [|split; [|split]]; intros; f_equal; symmetry.
  - apply cut_same; auto.
  - apply cut_for_search_same; auto.
  - apply tokenize_same; auto.
  - apply get_DAG_same; auto.
Qed.

(** Adding a word with any frequency, in a text where it does not occur: the word
    graph and full mode are as before ... *)
Theorem C79_adding_elsewhere :
  forall (num : Num) (H : hmm num) (d d' : dstate) (w s : str) (f : option Z) (tag : option str),
    reachable num H d -> ~ substring w s ->
    add_word num H d w f tag = Ok d' ->
    let now d o := snd (do_op num H d o) in
    (forall HMM, now d' (OpCut true HMM s) = now d (OpCut true HMM s)) /\
    now d' (OpGetDAG s) = now d (OpGetDAG s).
Proof.
  intros num H d d' w s f tag R NS E. unfold add_word in E.
  destruct (match f with Some n => Ok n | None => _ end) as [n|]; cbn [rbind] in E; [|discriminate].
  inversion E; subst d'. clear E.
  pose proof (C17_always_prefix_closed num H d R) as P.
  assert (P' : prefix_closed (sget (add_prefixes (sset (d_freq d) w n) w))) by (apply add_closed; auto).
  pose proof (@same_in_add (d_freq d) w n s NS) as A.
  cbn [do_op snd add_word_freq d_freq d_total d_force].
  split; intros; f_equal; symmetry.
  - apply (C79_full_mode_no_total num H); auto.
  - apply get_DAG_same; auto.
Qed.

(** ... but accurate mode may change, as the total has grown: 北 and 京 with frequency
    3 each and 北京 with 1 give 北|京; after [add_word("大学", 10)] they give 北京. *)
Definition bj3 : dstate := build [([c_bei], 3%Z); ([c_jing], 3%Z); ([c_bei; c_jing], 1%Z)].
Definition bj3' : dstate := add_word_freq bj3 [c_da; c_xue] 10 None.

Lemma two_chars_cases (ws : list str) c1 c2 : partition [c1; c2] ws -> ws = [[c1; c2]] \/ ws = [[c1]; [c2]].
Proof.
  intros [C N]. destruct ws as [|x ws]; [discriminate|]. inversion N as [|? ? N1 N2]; subst.
  destruct x as [|a [|b [|d x]]]; [congruence| | |]; simpl in C; inversion C; subst; auto.
  - destruct ws as [|y ws]; [discriminate|]. inversion N2 as [|? ? N3 N4]; subst. simpl in *.
    destruct y as [|e [|g y]]; [congruence| |]; simpl in *; match goal with E : _ = [c2] |- _ => inversion E; subst end.
    destruct ws as [|z ws]; auto. inversion N4; subst. destruct z; [congruence|discriminate].
  - destruct ws as [|y ws]; auto. inversion N2; subst. destruct y; [congruence|discriminate].
Qed.

Theorem C79_adding_elsewhere_refuted :
  forall (H : hmm numR),
    healthy (d_freq bj3) (d_total bj3) /\
    add_word numR H bj3 [c_da; c_xue] (Some 10%Z) None = Ok bj3' /\
    ~ substring [c_da; c_xue] [c_bei; c_jing] /\
    snd (do_op numR H bj3 (OpCut false false [c_bei; c_jing])) = OutWords (gof [[c_bei]; [c_jing]]) /\
    snd (do_op numR H bj3' (OpCut false false [c_bei; c_jing])) = OutWords (gof [[c_bei; c_jing]]).
Proof.
  intros H.
  assert (HE : healthy (d_freq bj3) (d_total bj3)) by (apply healthyb_ok; vm_compute; reflexivity).
  assert (HE' : healthy (d_freq bj3') (d_total bj3')) by (apply healthyb_ok; vm_compute; reflexivity).
  split; auto. split; [reflexivity|]. split.
  { intros [k [a [b [E _]]]]. destruct a as [|x [|y a]]; simpl in E; inversion E. destruct a; discriminate. }
  pose proof HE as [PC _]. pose proof HE' as [PC' _].
  assert (CW : forall D, (forall u, D u = sget (d_freq bj3) u) \/ (forall u, D u = sget (d_freq bj3') u) ->
    candidate D [c_bei; c_jing] [[c_bei]; [c_jing]] /\ candidate D [c_bei; c_jing] [[c_bei; c_jing]]).
  { intros D ED. assert (W : is_word D [c_bei] /\ is_word D [c_jing] /\ is_word D [c_bei; c_jing]).
    { destruct ED as [ED|ED]; (split; [|split]); unfold is_word; rewrite ED;
        [exists 3%Z|exists 3%Z|exists 1%Z|exists 3%Z|exists 3%Z|exists 1%Z]; (split; [vm_compute; reflexivity|discriminate]). }
    destruct W as [W1 [W2 W3]]. split.
    - exists [c_jing]. repeat split; auto; [discriminate|]. exists []. repeat split; auto. discriminate.
    - exists []. repeat split; auto. discriminate. }
  cbn [do_op snd]. change (mode_of false false) with NoHMM. split; f_equal.
  - rewrite (@cut_nohmm_text numR H (d_freq bj3) (d_total bj3) (d_force bj3) [c_bei; c_jing] (healthy_sane HE)).
    change (runs word_char [c_bei; c_jing]) with [(true, [c_bei; c_jing])]. cbn [flat_map fst snd app].
    destruct (CW (sget (d_freq bj3))) as [C1 C2]; auto.
    pose proof (@chosen_prob (d_freq bj3) (d_total bj3) _ _ (healthy_sane HE) PC C1) as B.
    pose proof (@chosen_candidate numR (d_freq bj3) (d_total bj3) [c_bei; c_jing] (healthy_sane HE) PC) as C.
    apply candidate_partition, two_chars_cases in C. destruct C as [C|C]; rewrite C in *; [exfalso|reflexivity].
    unfold prob in B. cbn [fold_right] in B.
    change (weight_of (sget (d_freq bj3)) [c_bei]) with 3%Z in B.
    change (weight_of (sget (d_freq bj3)) [c_jing]) with 3%Z in B.
    change (weight_of (sget (d_freq bj3)) [c_bei; c_jing]) with 1%Z in B.
    change (d_total bj3) with 7%Z in B. lra.
  - rewrite (@cut_nohmm_text numR H (d_freq bj3') (d_total bj3') (d_force bj3') [c_bei; c_jing] (healthy_sane HE')).
    change (runs word_char [c_bei; c_jing]) with [(true, [c_bei; c_jing])]. cbn [flat_map fst snd app].
    destruct (CW (sget (d_freq bj3'))) as [C1 C2]; auto.
    pose proof (@chosen_prob (d_freq bj3') (d_total bj3') _ _ (healthy_sane HE') PC' C2) as B.
    pose proof (@chosen_candidate numR (d_freq bj3') (d_total bj3') [c_bei; c_jing] (healthy_sane HE') PC') as C.
    apply candidate_partition, two_chars_cases in C. destruct C as [C|C]; rewrite C in *; [reflexivity|exfalso].
    unfold prob in B. cbn [fold_right] in B.
    change (weight_of (sget (d_freq bj3')) [c_bei]) with 3%Z in B.
    change (weight_of (sget (d_freq bj3')) [c_jing]) with 3%Z in B.
    change (weight_of (sget (d_freq bj3')) [c_bei; c_jing]) with 1%Z in B.
    change (d_total bj3') with 17%Z in B. lra.
Qed.

(** two different dictionaries that agree on 来到, and a deletion elsewhere *)
Example C79_nonvacuous :
  let fr' := d_freq (build [([c_lai; c_dao], 15%Z); ([c_dao], 9%Z); ([c_lai], 8%Z); ([c_jing], 2%Z)]) in
  prefix_closed (sget demo_fr) /\ prefix_closed (sget fr') /\ same_in [c_lai; c_dao] (sget demo_fr) (sget fr') /\
  demo_fr <> fr' /\
  cut numQ demo_hmm (mode_of false false) demo_fr demo_total [] [c_lai; c_dao] =
  cut numQ demo_hmm (mode_of false false) fr' demo_total [] [c_lai; c_dao].
Proof.
  intros fr'. assert (A : same_in [c_lai; c_dao] (sget demo_fr) (sget fr')).
  { intros u [k [a [b [E _]]]]. destruct a as [|x [|y [|z a]]]; simpl in E.
    - destruct u as [|p [|q [|r u]]]; simpl in E; inversion E; subst; vm_compute; reflexivity.
    - inversion E; subst. destruct u as [|p [|q u]]; simpl in *; match goal with E : [c_dao] = _ |- _ => inversion E; subst end; vm_compute; reflexivity.
    - inversion E; subst. destruct u; [vm_compute; reflexivity|discriminate].
    - discriminate. }
  assert (P : prefix_closed (sget fr')) by (apply prefix_closedb_ok; vm_compute; reflexivity).
  split; [exact demo_prefix_closed|]. split; auto. split; auto. split; [vm_compute; discriminate|].
  destruct (C79_only_what_occurs numQ demo_hmm demo_fr fr' demo_total [] [] [c_lai; c_dao] demo_prefix_closed P A) as [E _].
  exact (E false).
Qed.

(** deleting 大学生 after a history of calls does not change how 北京 is cut *)
Example C79_deleting_nonvacuous :
  exists d, reachable numQ demo_hmm d /\ ~ substring [c_da; c_xue; c_sheng] [c_bei; c_jing] /\
    sget (d_freq d) [c_da; c_xue; c_sheng] = Some 4%Z.
Proof.
  destruct C17_nonvacuous as [d [R [E _]]]. exists d. split; auto. split; auto.
  intros [k [a [b [X _]]]]. apply (f_equal (@length _)) in X. rewrite !app_length in X. simpl in X. lia.
Qed.

Print Assumptions C79_only_what_occurs.
Print Assumptions C79_full_mode_no_total.
Print Assumptions C79_tagger_only_what_occurs.
Print Assumptions C79_deleting_elsewhere.
Print Assumptions C79_adding_elsewhere.
Print Assumptions C79_adding_elsewhere_refuted.
