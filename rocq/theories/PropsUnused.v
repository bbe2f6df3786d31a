(** * C94: deleting a word that is not used *)
From Coq Require QArith_base.
From Coq Require Import Reals Lra Lia.
From Verif Require Import PyBase PyRegex PyNum ModelFinalseg ModelSeg ModelDict SpecBase SpecSeg SpecNum SpecScore SpecDict SpecHealth InstR InstQ Demo
  ProofsBase ProofsRegex ProofsSplit ProofsDag ProofsFinalseg ProofsSeg ProofsOpt ProofsNoHmm ProofsDict ProofsTotal ProofsSuggest
  ProofsStable ProofsHealth ProofsDemo ProofsPick.

Section Tail.
  Variable num : Num.
  Variable O : NumOrder num.

  (** the rest of a choice is the best for the rest of the text *)
  Lemma chosen_tail_best fr total blk a w b ws :
    sane (sget fr) total -> prefix_closed (sget fr) ->
    chosen num fr total blk = a ++ w :: b -> candidate (sget fr) (concat (w :: b)) ws ->
    (o_val O (score num (sget fr) total ws) <= o_val O (score num (sget fr) total (w :: b)))%R.
  Proof.
    intros [T P] PC EC CA. unfold chosen in EC.
    destruct (calc_total num fr total blk T P) as [route E]. rewrite E in EC.
    pose proof (calc_ok _ _ _ _ _ E) as RO.
    destruct (@route_words_split num fr total blk route E (S (length blk)) 0 a w b ltac:(lia) ltac:(lia) EC)
      as [L [r [EN [EW ES]]]].
    cbn [Nat.add] in L, EN, EW, ES.
    assert (W : walk fr blk (length (concat a)) ws).
    { apply walk_candidate; auto; [lia|].
      assert (PA : partition (skipn (length (concat a)) blk) (w :: b)).
      { rewrite EW. eapply walk_partition; [|lia]. eapply route_words_walk; eauto; lia. }
      destruct PA as [PA _]. rewrite <- PA. exact CA. }
    rewrite EW at 1.
    rewrite <- (@route_value num O fr total T P blk route E (S (length blk)) _ r) by (auto; lia).
    apply (@route_best num O fr total T P blk route E ws (length (concat a)) r); auto. lia.
  Qed.

  Lemma score_unused D D' T ws :
    Forall (fun x => weight_of D' x = weight_of D x) ws -> score num D' T ws = score num D T ws.
  Proof.
    unfold score. induction 1 as [|x ws E F IH]; [reflexivity|]. cbn [fold_right]. rewrite IH. unfold word_score. rewrite E. reflexivity.
  Qed.

  Variables (fr fr' : freqs) (T : Z) (w u : str).
  Hypothesis SA : sane (sget fr) T.
  Hypothesis PC : prefix_closed (sget fr).
  Hypothesis DEL : forall k, sget fr' k = after_add (sget fr) w 0 k.
  Hypothesis NU : u <> [].
  Hypothesis UW : u <> w.
  Hypothesis PU : prefix_of u w.
  Hypothesis WU : is_word (sget fr) u.

  Lemma del_word_iff x : is_word (sget fr') x <-> is_word (sget fr) x /\ x <> w.
  Proof.
    unfold is_word. rewrite DEL. unfold after_add. destruct (str_eqb x w) eqn:E.
    - apply str_eqb_eq in E. split; [intros [n [EQ N]]; injection EQ as <-; congruence|intros [_ K]; congruence].
    - assert (x <> w) by (intros ->; rewrite str_eqb_refl in E; discriminate).
      destruct (sget fr x) as [n|]; [split; [intros K; auto|tauto]|].
      destruct (is_prefix x w); split; try (intros [[n [EQ N]] _]; discriminate).
      + intros [n [EQ N]]. injection EQ as <-. congruence.
      + intros [n [EQ N]]. discriminate.
  Qed.
  Lemma del_weight x : x <> w -> weight_of (sget fr') x = weight_of (sget fr) x.
  Proof.
    intros N. unfold weight_of. rewrite DEL. unfold after_add. destruct (str_eqb x w) eqn:E; [apply str_eqb_eq in E; congruence|].
    destruct (sget fr x); auto. destruct (is_prefix x w); auto.
  Qed.
  Lemma w_long : 1 < length w.
  Proof.
    destruct PU as [t E]. destruct t as [|c t]; [rewrite app_nil_r in E; congruence|]. rewrite E, app_length.
    destruct u; [congruence|]. cbn. lia.
  Qed.

  Lemma cand_to s ws : ~ In w ws -> candidate (sget fr) s ws -> candidate (sget fr') s ws.
  Proof.
    revert s. induction ws as [|x ws IH]; intros s NI C; cbn in *; auto.
    destruct C as [t [-> [NE [W C]]]]. exists t. split; auto. split; auto. split; [|apply IH; tauto].
    destruct W as [W|[L W]]; [left; apply del_word_iff; split; auto|right]. split; auto.
    intros v NV PV WV. apply (W v NV PV). apply del_word_iff in WV. tauto.
  Qed.
  Lemma cand_from s ws : candidate (sget fr') s ws -> candidate (sget fr) s ws /\ ~ In w ws.
  Proof.
    revert s. induction ws as [|x ws IH]; intros s C; cbn in *; auto.
    destruct C as [t [-> [NE [W C]]]]. destruct (IH _ C) as [C1 C2].
    assert (XW : x <> w).
    { destruct W as [W|[L W]]; [apply del_word_iff in W; tauto|]. intros ->. pose proof w_long. lia. }
    split; [|intros [K|K]; auto]. exists t. split; auto. split; auto. split; auto.
    destruct W as [W|[L W]]; [left; apply del_word_iff in W; tauto|right]. split; auto.
    intros v NV PV WV. destruct (list_eq_dec N.eq_dec v w) as [->|NW].
    - apply (W u NU); [|apply del_word_iff; auto]. destruct PU as [a Ea], PV as [b Eb]. exists (a ++ b). rewrite Eb, Ea, app_assoc. reflexivity.
    - apply (W v NV PV). apply del_word_iff. auto.
  Qed.

  Lemma sane_del : sane (sget fr') T.
  Proof.
    destruct SA as [P NN]. split; auto. intros k n. rewrite DEL. unfold after_add.
    destruct (str_eqb k w); [intros E; injection E as <-; lia|]. destruct (sget fr k) as [m|] eqn:E.
    - intros K. injection K as <-. eauto.
    - destruct (is_prefix k w); intros K; [injection K as <-; lia|discriminate].
  Qed.
  Lemma closed_del : prefix_closed (sget fr').
  Proof.
    eapply prefix_closed_ext; [|apply (@after_add_closed (sget fr) w 0%Z PC)]. intros k. symmetry. apply DEL.
  Qed.

  Lemma chosen_del r : ~ In w (chosen num fr T r) -> chosen num fr' T r = chosen num fr T r.
  Proof.
    intros NI. pose proof sane_del as SA'. pose proof closed_del as PC'.
    pose proof (chosen_candidate num r SA PC) as C. pose proof (chosen_candidate num r SA' PC') as C'.
    destruct (cand_from _ _ C') as [CF NI'].
    pose proof (candidate_partition _ _ _ C) as [P1 N1]. pose proof (candidate_partition _ _ _ C') as [P2 N2].
    assert (G : forall a2 b2 p, chosen num fr T r = p ++ a2 -> chosen num fr' T r = p ++ b2 -> b2 = a2).
    { induction a2 as [|x a2 IH]; intros b2 p E1 E2.
      - rewrite E1, app_nil_r in P1. rewrite E2, concat_app, P1 in P2.
        assert (concat b2 = []) by (apply (app_inv_head r); rewrite app_nil_r; auto).
        destruct b2 as [|y b2]; auto. rewrite E2 in N2. apply Forall_app in N2. destruct N2 as [_ N2]. inversion N2; subst.
        destruct y; [congruence|discriminate].
      - assert (CE : concat (x :: a2) = concat b2).
        { rewrite E1, concat_app in P1. rewrite E2, concat_app in P2. rewrite <- P2 in P1. apply app_inv_head in P1. auto. }
        destruct b2 as [|y b2].
        { rewrite E1 in N1. apply Forall_app in N1. destruct N1 as [_ N1]. inversion N1; subst. destruct x; [congruence|discriminate]. }
        rewrite E1 in C. rewrite E2 in C', CF.
        destruct (@candidate_split _ _ _ _ C) as [s2 [S2 [CA _]]].
        destruct (@candidate_split _ _ _ _ CF) as [s3 [S3 [CB _]]].
        destruct (@candidate_split _ _ _ _ C') as [s4 [S4 [CB' _]]].
        pose proof (candidate_partition _ _ _ CA) as [<- _]. pose proof (candidate_partition _ _ _ CB) as [<- _].
        pose proof (candidate_partition _ _ _ CB') as [<- _].
        assert (NA : ~ In w (x :: a2)) by (intros K; apply NI; rewrite E1; apply in_or_app; auto).
        assert (NB : ~ In w (y :: b2)) by (intros K; apply NI'; rewrite E2; apply in_or_app; auto).
        pose proof (cand_to _ _ NA CA) as CA'.
        assert (SC : forall ws, ~ In w ws -> score num (sget fr') T ws = score num (sget fr) T ws).
        { intros ws K. apply score_unused. apply Forall_forall. intros z Z. apply del_weight. intros ->. auto. }
        assert (CBa : candidate (sget fr) (concat (x :: a2)) (y :: b2)) by (rewrite CE; auto).
        assert (CAb : candidate (sget fr') (concat (y :: b2)) (x :: a2)) by (rewrite <- CE; auto).
        pose proof (chosen_tail_best fr T r p x a2 _ SA PC E1 CBa) as B1.
        pose proof (chosen_tail_best fr' T r p y b2 _ SA' PC' E2 CAb) as B2. rewrite !SC in B2 by auto.
        assert (L1 : length y <= length x).
        { apply (@chosen_longest num O fr T r p x a2 y b2 SA PC E1 CBa). lra. }
        assert (L2 : length x <= length y).
        { apply (@chosen_longest num O fr' T r p y b2 x a2 SA' PC' E2 CAb). rewrite !SC by auto. lra. }
        assert (XY : x = y).
        { cbn [concat] in CE. assert (EL : length x = length y) by lia.
          apply (f_equal (firstn (length x))) in CE. rewrite firstn_app, firstn_all, Nat.sub_diag, EL in CE.
          rewrite firstn_app, firstn_all, Nat.sub_diag in CE. cbn in CE. rewrite !app_nil_r in CE. auto. }
        subst y. f_equal. apply (IH b2 (p ++ [x])); rewrite <- app_assoc; auto. }
    apply (G _ _ []); reflexivity.
  Qed.
End Tail.

(** ** With HMM *)

(** neither [w] itself nor its characters one after the other *)
Definition avoids (w : str) (ws : list str) : Prop :=
  ~ In w ws /\ forall p q, ws <> p ++ map (fun c => [c]) w ++ q.

Lemma avoids_app w a b : avoids w (a ++ b) -> avoids w a /\ avoids w b.
Proof.
  intros [N C]. split; split.
  - intros K. apply N. apply in_or_app. auto.
  - intros p q E. apply (C p (q ++ b)). rewrite E, <- !app_assoc. reflexivity.
  - intros K. apply N. apply in_or_app. auto.
  - intros p q E. apply (C (a ++ p) q). rewrite E, <- !app_assoc. reflexivity.
Qed.

Lemma gfor_avoids {A} w (l : list A) (f f' : A -> gen str) :
  (forall x, In x l -> exists ws, f x = gof ws /\ (avoids w ws -> f' x = f x)) ->
  avoids w (fst (gfor l f)) -> gfor l f' = gfor l f.
Proof.
  induction l as [|x l IH]; intros F AV; [reflexivity|]. cbn [gfor] in *.
  destruct (F x (or_introl eq_refl)) as [ws [E K]]. rewrite E in AV. unfold gapp, gof in AV. cbn [fst snd] in AV.
  apply avoids_app in AV. destruct AV as [A1 A2]. rewrite (K A1), IH; auto. intros y Y. apply F. right. auto.
Qed.

Section Hmm.
  Variable num : Num.
  Variable H : hmm num.
  Variables (fr fr' : freqs) (force force' : list str) (w : str).
  Hypothesis FT : forall x, x <> w -> freq_true fr' x = freq_true fr x.
  Hypothesis FW : freq_true fr' w = false.
  Hypothesis FO : forall x, In x force' <-> In x force \/ x = w.

  Lemma fs_block_avoids blk : exists ws, fs_cut_block H force blk = gof ws /\
    (avoids w ws -> fs_cut_block H force' blk = fs_cut_block H force blk).
  Proof.
    destruct (@fs_cut_block_ok num H force blk) as [ws [E _]]. exists ws. split; auto. intros AV.
    unfold fs_cut_block in *. destruct (re_matches fs_re_han blk) eqn:M; auto.
    destruct blk as [|c blk]; [discriminate M|].
    destruct (@fs_cut_han_ok num H (c :: blk)) as [ls [hs [EW _]]]; [discriminate|].
    rewrite EW in *. unfold gbind in *. cbn [fst snd gof] in *. f_equal.
    apply (gfor_avoids w).
    - intros x HX. destruct (negb (str_in x force)) eqn:B.
      + exists [x]. split; [reflexivity|]. intros [NI _]. assert (x <> w) by (intros ->; apply NI; left; auto).
        assert (str_in x force' = false) as ->; [|reflexivity]. apply not_true_iff_false. intros K. apply str_in_In in K.
        apply FO in K. destruct K as [K|K]; [|congruence]. apply str_in_In in K. rewrite K in B. discriminate.
      + exists (map (fun c => [c]) x). split; [reflexivity|]. intros _.
        apply negb_false_iff in B. apply str_in_In in B.
        assert (str_in x force' = true) as -> by (apply str_in_In, FO; auto). reflexivity.
    - revert E. unfold gapp. intros E.
      match type of E with context [gfor ?l ?f] => destruct (gfor l f) as [gs [e|]] eqn:EG end; cbn [fst snd] in *.
      + discriminate E.
      + unfold gof in E. injection E as E. rewrite app_nil_r in E. rewrite E. auto.
  Qed.
  Lemma fs_cut_avoids buf : avoids w (fst (fs_cut num H force buf)) -> fs_cut num H force' buf = fs_cut num H force buf.
  Proof. intros AV. unfold fs_cut in *. apply (gfor_avoids w); auto. intros x _. apply fs_block_avoids. Qed.

  Lemma flush_avoids buf : avoids w (fst (flush_hmm H fr force buf)) ->
    flush_hmm H fr' force' buf = flush_hmm H fr force buf.
  Proof.
    unfold flush_hmm. destruct buf as [|c b]; auto. unfold cut_buf.
    destruct (length (c :: b) =? 1); auto. destruct (list_eq_dec N.eq_dec (c :: b) w) as [E|NE].
    - rewrite E. rewrite FW. cbn [negb]. destruct (freq_true fr w) eqn:F; cbn [negb].
      + intros [_ C]. exfalso. apply (C [] []). cbn. rewrite app_nil_r. reflexivity.
      + apply fs_cut_avoids.
    - rewrite (FT _ NE). destruct (negb (freq_true fr (c :: b))); auto. apply fs_cut_avoids.
  Qed.
  Lemma group_avoids ws buf : avoids w (fst (group_hmm H fr force buf ws)) ->
    group_hmm H fr' force' buf ws = group_hmm H fr force buf ws.
  Proof.
    revert buf. induction ws as [|x ws IH]; intros buf; cbn [group_hmm]; [apply flush_avoids|].
    destruct (length x =? 1); [apply IH|]. intros AV.
    destruct (@flush_hmm_ok num H fr force buf) as [fs [EF _]]. rewrite EF in AV. unfold gapp, gof, gcons in AV. cbn [fst snd] in AV.
    apply avoids_app in AV. destruct AV as [A1 A2]. change (x :: ?l) with ([x] ++ l) in A2.
    apply (avoids_app w [x]) in A2. destruct A2 as [_ A2].
    rewrite (IH [] A2). rewrite flush_avoids; auto. rewrite EF. auto.
  Qed.
  Lemma group_keeps ws buf x : In x ws -> length x <> 1 -> In x (fst (group_hmm H fr force buf ws)).
  Proof.
    revert buf. induction ws as [|y ws IH]; intros buf I L; [destruct I|]. destruct I as [->|I]; cbn [group_hmm].
    - destruct (length x =? 1) eqn:E; [apply Nat.eqb_eq in E; congruence|].
      destruct (@flush_hmm_ok num H fr force buf) as [fs [EF _]]. rewrite EF. unfold gapp, gof, gcons. cbn [fst snd].
      apply in_or_app. right. left. reflexivity.
    - destruct (length y =? 1); [apply IH; auto|].
      destruct (@flush_hmm_ok num H fr force buf) as [fs [EF _]]. rewrite EF. unfold gapp, gof, gcons. cbn [fst snd].
      apply in_or_app. right. right. apply IH; auto.
  Qed.
End Hmm.

Lemma merge_keeps ws buf x : In x ws -> length x <> 1 -> In x (merge_eng buf ws).
Proof.
  revert buf. induction ws as [|y ws IH]; intros buf I L; [destruct I|]. destruct I as [->|I]; cbn [merge_eng].
  - rewrite eng1_single. destruct (single_alnum x) eqn:E; [destruct x as [|c [|d x]]; cbn in *; congruence|].
    apply in_or_app. right. left. reflexivity.
  - destruct (eng1 y); [apply IH; auto|]. apply in_or_app. right. right. apply IH; auto.
Qed.

(** Deleting a word that a text does not use leaves the text as it is, if a shorter
    word starts like the deleted one (HMM off; exact numbers and binary64 alike). *)
Theorem C94_unused_word :
  forall (num : Num) (O : NumOrder num) (H : hmm num) (d d' : dstate) (w u s : str),
    sane (sget (d_freq d)) (d_total d) -> prefix_closed (sget (d_freq d)) ->
    u <> [] -> u <> w -> prefix_of u w -> is_word (sget (d_freq d)) u ->
    del_word num H d w = Ok d' ->
    ~ In w (fst (cut num H (mode_of false false) (d_freq d) (d_total d) (d_force d) s)) ->
    cut num H (mode_of false false) (d_freq d') (d_total d') (d_force d') s =
    cut num H (mode_of false false) (d_freq d) (d_total d) (d_force d) s.
Proof.
  intros num O H d d' w u s SA PC NU UW PU WU E NI. injection E as <-. cbn [add_word_freq d_freq d_total d_force]. rewrite Z.add_0_r.
  set (fr' := add_prefixes (sset (d_freq d) w 0%Z) w).
  assert (DEL : forall k, sget fr' k = after_add (sget (d_freq d)) w 0 k) by (intros k; apply add_get).
  assert (SA' : sane (sget fr') (d_total d)) by (apply (sane_del (d_freq d) fr' _ w); auto).
  assert (LW : 1 < length w) by (eapply w_long; eauto).
  cbn [mode_of] in *. rewrite cut_nohmm_text in NI by auto. rewrite !cut_nohmm_text by auto. unfold gof in *. cbn [fst] in NI. f_equal.
  induction (runs word_char s) as [|[b r] rs IH]; [reflexivity|]. cbn [flat_map fst snd] in *. rewrite IH.
  2:{ intros K. apply NI. apply in_or_app. auto. }
  f_equal. destruct b; auto. f_equal. apply (chosen_del num O (d_freq d) fr' (d_total d) w u); auto.
  intros K. apply NI. apply in_or_app. left. apply merge_keeps; auto. lia.
Qed.

(** ... and with HMM, if moreover the characters of the word are not yielded one after
    the other. *)
Theorem C94_unused_word_hmm :
  forall (num : Num) (O : NumOrder num) (H : hmm num) (d d' : dstate) (w u s : str),
    sane (sget (d_freq d)) (d_total d) -> prefix_closed (sget (d_freq d)) ->
    u <> [] -> u <> w -> prefix_of u w -> is_word (sget (d_freq d)) u ->
    del_word num H d w = Ok d' ->
    let ws := fst (cut num H (mode_of false true) (d_freq d) (d_total d) (d_force d) s) in
    ~ In w ws -> (forall p q, ws <> p ++ map (fun c => [c]) w ++ q) ->
    cut num H (mode_of false true) (d_freq d') (d_total d') (d_force d') s =
    cut num H (mode_of false true) (d_freq d) (d_total d) (d_force d) s.
Proof.
  intros num O H d d' w u s SA PC NU UW PU WU E ws NI NC. injection E as <-. cbn [add_word_freq d_freq d_total d_force].
  rewrite Z.add_0_r. change (0 =? 0)%Z with true. cbv iota.
  set (fr' := add_prefixes (sset (d_freq d) w 0%Z) w).
  assert (DEL : forall k, sget fr' k = after_add (sget (d_freq d)) w 0 k) by (intros k; apply add_get).
  assert (SA' : sane (sget fr') (d_total d)) by (apply (sane_del (d_freq d) fr' _ w); auto).
  assert (LW : 1 < length w) by (eapply w_long; eauto).
  assert (AV : avoids w ws) by (split; auto). subst ws. cbn [mode_of] in *.
  rewrite cut_runs_accurate in AV by reflexivity. rewrite !cut_runs_accurate by reflexivity.
  apply (gfor_avoids w); auto. intros [b r] _. cbn [fst snd]. destruct b.
  2:{ eexists. split; [reflexivity|]. auto. }
  cbn [cut_block]. destruct SA as [P NN]. destruct (calc_total num (d_freq d) (d_total d) r P NN) as [route EC].
  destruct SA' as [P' NN']. destruct (calc_total num fr' (d_total d) r P' NN') as [route' EC'].
  rewrite (cut_hmm_block_eq H (d_freq d) (d_total d) (d_force d) r EC).
  rewrite (cut_hmm_block_eq H fr' (d_total d) (set_add (d_force d) w) r EC').
  assert (CH : chosen num (d_freq d) (d_total d) r = route_words (S (length r)) r route 0) by (unfold chosen; rewrite EC; reflexivity).
  assert (CH' : chosen num fr' (d_total d) r = route_words (S (length r)) r route' 0) by (unfold chosen; rewrite EC'; reflexivity).
  rewrite <- CH, <- CH'.
  assert (PA : partition r (chosen num (d_freq d) (d_total d) r)).
  { eapply candidate_partition, chosen_candidate; auto. split; auto. }
  destruct (@group_hmm_ok num H (d_freq d) (d_force d) [] (chosen num (d_freq d) (d_total d) r) r PA) as [gs [EG _]].
  exists gs. split; auto. intros AG.
  rewrite (chosen_del num O (d_freq d) fr' (d_total d) w u); auto; [|split; auto|].
  - apply group_avoids with (w := w); [| | |rewrite EG; auto].
    + intros x NX. unfold freq_true. rewrite DEL. unfold after_add. destruct (str_eqb x w) eqn:EX; [apply str_eqb_eq in EX; congruence|].
      destruct (sget (d_freq d) x); auto. destruct (is_prefix x w); auto.
    + unfold freq_true. rewrite DEL. unfold after_add. rewrite str_eqb_refl. reflexivity.
    + intros x. rewrite set_add_In. tauto.
  - intros K. destruct AG as [NG _]. apply NG.
    pose proof (group_keeps num H (d_freq d) (d_force d) _ [] w K ltac:(lia)) as Q. rewrite EG in Q. exact Q.
Qed.

(** ** The hypotheses *)

(** Without a shorter word at the start of the deleted one, the first character of the
    deleted word becomes a possible word of its own and the cut may change, although the
    deleted word was not used: 北京大学 with 北京大/学 before and 北/京/大学 after
    [del_word("京大")]. *)
Definition un1 : dstate :=
  build [([c_bei], 10%Z); ([c_bei; c_jing; c_da], 1%Z); ([c_jing; c_da], 1%Z); ([c_da; c_xue], 10%Z); ([c_xue], 1%Z)].
Definition un1' : dstate :=
  add_word_freq un1 [c_jing; c_da] 0 None.
Definition un1_text : str := [c_bei; c_jing; c_da; c_xue].

Lemma un1_before H : cut numR H (mode_of false false) (d_freq un1) (d_total un1) (d_force un1) un1_text = gof [[c_bei; c_jing; c_da]; [c_xue]].
Proof.
  apply (@pick_cut H _ _ _ _ [[c_bei; c_jing; c_da]; [c_xue]]); [|discriminate| | |]; try (vm_compute; reflexivity).
  - apply healthyb_ok. vm_compute. reflexivity.
  - repeat constructor.
Qed.
Lemma un1_after H : cut numR H (mode_of false false) (d_freq un1') (d_total un1') (d_force un1') un1_text = gof [[c_bei]; [c_jing]; [c_da; c_xue]].
Proof.
  apply (@pick_cut H _ _ _ _ [[c_bei]; [c_jing]; [c_da; c_xue]]); [|discriminate| | |]; try (vm_compute; reflexivity).
  - apply healthyb_ok. vm_compute. reflexivity.
  - repeat constructor.
Qed.

Theorem C94_no_shorter_word_refuted :
  ~ (forall (H : hmm numR) (d d' : dstate) (w s : str),
       healthy (d_freq d) (d_total d) -> is_word (sget (d_freq d)) w -> 1 < length w ->
       del_word numR H d w = Ok d' ->
       ~ In w (fst (cut numR H (mode_of false false) (d_freq d) (d_total d) (d_force d) s)) ->
       cut numR H (mode_of false false) (d_freq d') (d_total d') (d_force d') s =
       cut numR H (mode_of false false) (d_freq d) (d_total d) (d_force d) s).
Proof.
  intros K. set (H := mkHmm numR (fun _ => 0%R : F numR) (fun _ _ => None) (fun _ _ => None)).
  specialize (K H un1 un1' [c_jing; c_da] un1_text). rewrite un1_before, un1_after in K.
  assert (X : gof [[c_bei]; [c_jing]; [c_da; c_xue]] = gof [[c_bei; c_jing; c_da]; [c_xue]]); [|discriminate X].
  apply K; [apply healthyb_ok; vm_compute; reflexivity| |cbn; lia|reflexivity|].
  - exists 1%Z. split; [vm_compute; reflexivity|discriminate].
  - cbn. intros [E|[E|E]]; [discriminate E|discriminate E|exact E].
Qed.

(** With HMM the characters of the deleted word may have stood there one by one
    because the dictionary had the word; afterwards the HMM groups them. *)
Definition un2 : dstate :=
  build [([c_bei], 100%Z); ([c_jing], 100%Z); ([c_da], 100%Z); ([c_bei; c_jing; c_da], 1%Z)].
Definition un2_hmm : hmm numQ :=
  mkHmm numQ (h_start demo_hmm) (h_trans demo_hmm)
    (fun y c => match y with LS => Some (QArith_base.inject_Z (if N.eqb c c_da then 0 else -500)%Z : F numQ) | _ => Some (QArith_base.inject_Z (-2) : F numQ) end).

Theorem C94_hmm_single_characters_refuted :
  ~ (forall (num : Num) (O : NumOrder num) (H : hmm num) (d d' : dstate) (w u s : str),
       sane (sget (d_freq d)) (d_total d) -> prefix_closed (sget (d_freq d)) ->
       u <> [] -> u <> w -> prefix_of u w -> is_word (sget (d_freq d)) u ->
       del_word num H d w = Ok d' ->
       ~ In w (fst (cut num H (mode_of false true) (d_freq d) (d_total d) (d_force d) s)) ->
       cut num H (mode_of false true) (d_freq d') (d_total d') (d_force d') s =
       cut num H (mode_of false true) (d_freq d) (d_total d) (d_force d) s).
Proof.
  intros K. specialize (K numQ orderQ un2_hmm un2 (add_word_freq un2 [c_bei; c_jing; c_da] 0 None) [c_bei; c_jing; c_da] [c_bei] [c_bei; c_jing; c_da]).
  assert (X : gof [[c_bei; c_jing]; [c_da]] = gof [[c_bei]; [c_jing]; [c_da]]); [|discriminate X].
  transitivity (cut numQ un2_hmm (mode_of false true) (d_freq un2) (d_total un2) (d_force un2) [c_bei; c_jing; c_da]);
    [|vm_compute; reflexivity].
  rewrite <- K; [| | |discriminate|discriminate| | |reflexivity|].
  - vm_compute. reflexivity.
  - apply saneb_ok. vm_compute. reflexivity.
  - apply prefix_closedb_ok. vm_compute. reflexivity.
  - exists [c_jing; c_da]. reflexivity.
  - exists 100%Z. split; [vm_compute; reflexivity|discriminate].
  - vm_compute. intros [E|[E|[E|E]]]; try discriminate E. exact E.
Qed.

(** deleting 北京大学 from the example dictionary changes nothing for 来到北京，大学生,
    with or without HMM *)
Definition un3_text : str := [c_lai; c_dao; c_bei; c_jing; c_comma; c_da; c_xue; c_sheng].
Example C94_example :
  let w := [c_bei; c_jing; c_da; c_xue] in
  sane (sget (d_freq demo)) (d_total demo) /\ prefix_closed (sget (d_freq demo)) /\ prefix_of [c_bei; c_jing] w /\
  is_word (sget (d_freq demo)) [c_bei; c_jing] /\ is_word (sget (d_freq demo)) w /\
  cut numQ demo_hmm (mode_of false true) (d_freq demo) (d_total demo) (d_force demo) un3_text =
  gof [[c_lai; c_dao]; [c_bei; c_jing]; [c_comma]; [c_da; c_xue; c_sheng]].
Proof.
  cbv zeta. split; [exact demo_sane|]. split; [exact demo_prefix_closed|]. split; [exists [c_da; c_xue]; reflexivity|].
  split; [exists 30%Z; split; [vm_compute; reflexivity|discriminate]|].
  split; [exists 10%Z; split; [vm_compute; reflexivity|discriminate]|]. vm_compute. reflexivity.
Qed.

Print Assumptions C94_unused_word.
Print Assumptions C94_unused_word_hmm.
Print Assumptions C94_no_shorter_word_refuted.
Print Assumptions C94_hmm_single_characters_refuted.
