(** * The tagger's Viterbi search: columns, route, optimality *)
From Coq Require Import Permutation.
From Verif Require Import PyBase PyRegex PyNum ModelFinalseg ModelSeg ModelPosseg SpecBase
  SpecPosseg ProofsBase ProofsDag ProofsPvit.
Set Implicit Arguments.

Section Vit.
  Variable num : Num.
  Variable NI : NumInf num.
  Variable T : ptables num.
  Variable OK : tables_ok NI T.
  Notation F := (F num).
  Notation "x + y" := (f_add num x y).
  Notation pget := (dget pstate_eqb).

  Lemma is_pstate_trans y : is_pstate T y <-> exists l, trans_of T y = Some l.
  Proof.
    unfold is_pstate, trans_of. split.
    - intros HI. destruct (pget (t_trans T) y) as [l|] eqn:E; eauto.
      apply dget_None in E; [contradiction|apply pstate_eqb_ok].
    - intros [l E]. apply dget_In in E; [|apply pstate_eqb_ok].
      apply in_map_iff. exists (y, l). auto.
  Qed.

  Lemma trans_of_In x l : trans_of T x = Some l <-> In (x, l) (t_trans T).
  Proof.
    unfold trans_of. split.
    - apply dget_In, pstate_eqb_ok.
    - apply In_dget; [apply pstate_eqb_ok|]. apply (tk_keys OK).
  Qed.

  Lemma step_p_prob x y p : step_p T x y p <-> (prob_of T x y = p /\ step T x y).
  Proof.
    unfold step, step_p, prob_of. split.
    - intros [l [A B]]. pose proof A as A'. apply trans_of_In in A'. unfold trans_of in A'.
      rewrite A'. split; eauto.
      rewrite (@In_dget _ _ _ pstate_eqb_ok l y p); auto. eapply tk_inner; eauto.
    - intros [E [p' [l [A B]]]]. exists l. split; auto.
      pose proof A as A'. apply trans_of_In in A'. unfold trans_of in A'.
      rewrite A' in E. rewrite (@In_dget _ _ _ pstate_eqb_ok l y p') in E; auto.
      + subst. auto.
      + eapply tk_inner; eauto.
  Qed.

  Lemma step_keys x y : step T x y <-> exists l, trans_of T x = Some l /\ In y (map fst l).
  Proof.
    unfold step, step_p. split.
    - intros [p [l [A B]]]. exists l. split; [apply trans_of_In; auto|].
      apply in_map_iff. exists (y, p). auto.
    - intros [l [A B]]. apply in_map_iff in B. destruct B as [[y' p] [E B]]. simpl in E. subst.
      exists p, l. split; auto. apply trans_of_In; auto.
  Qed.

  Lemma step_src x y : step T x y -> is_pstate T x.
  Proof. intros S. apply step_keys in S. destruct S as [l [A _]]. apply is_pstate_trans. eauto. Qed.

  Lemma live_trans x : live T x <-> exists l, trans_of T x = Some l /\ l <> [].
  Proof.
    unfold live. split.
    - intros [y S]. apply step_keys in S. destruct S as [l [A B]]. exists l. split; auto.
      intros ->. destruct B.
    - intros [[|[y p] l] [A B]]; [congruence|]. exists y. apply step_keys. exists ((y, p) :: l).
      split; auto. left. auto.
  Qed.

  Lemma live_pstate x : live T x -> is_pstate T x.
  Proof. intros [y S]. eapply step_src; eauto. Qed.

  Lemma step_dst x y : step T x y -> is_pstate T y /\ live T y.
  Proof. intros S. assert (L : live T y) by (eapply tk_trans; eauto). split; auto using live_pstate. Qed.

  Lemma states_of_In c y : In y (states_of T c) <-> char_state T c y.
  Proof. unfold states_of, char_state. destruct (t_states T c); simpl; tauto. Qed.

  Lemma char_state_pstate c y : char_state T c y -> is_pstate T y.
  Proof.
    unfold char_state. destruct (t_states T c) as [l|] eqn:E; auto.
    intros HI. destruct (tk_char OK c l E) as [A _]. rewrite Forall_forall in A. auto.
  Qed.

  Lemma char_state_live c : exists y, char_state T c y /\ live T y.
  Proof.
    unfold char_state. destruct (t_states T c) as [l|] eqn:E.
    - destruct (tk_char OK c l E) as [_ [y A]]. eauto.
    - destruct (tk_some OK) as [y L]. exists y. split; auto using live_pstate.
  Qed.

  Lemma start_fin y : is_pstate T y -> t_start T y = Some (start_of T y) /\ i_fin NI 1 (start_of T y).
  Proof. intros P. destruct (tk_start OK y P) as [s [E FS]]. unfold start_of. rewrite E. auto. Qed.

  Lemma emit_fin y c : is_pstate T y ->
    (exists e, t_emit T y = Some e /\ or_min num (e c) = emit_of T y c) /\ i_fin NI 1 (emit_of T y c).
  Proof.
    intros P. destruct (tk_emit OK y P) as [e [E FE]]. unfold emit_of. rewrite E. split.
    - exists e. split; auto.
    - destruct (e c) eqn:EC; eauto. apply i_min_float.
  Qed.

  Lemma prob_fin x y : step T x y -> i_fin NI 1 (prob_of T x y).
  Proof.
    intros S. eapply tk_prob; [exact OK|]. apply step_p_prob. split; [reflexivity|auto].
  Qed.

  Lemma prob_or_inf x y l : trans_of T x = Some l -> or_inf num (pget l y) = prob_of T x y.
  Proof. unfold prob_of, trans_of. intros ->. reflexivity. Qed.

  Lemma prob_inf x y : ~ step T x y -> is_pstate T x -> prob_of T x y = f_neg_inf num.
  Proof.
    intros NS P. apply is_pstate_trans in P. destruct P as [l E].
    rewrite <- (@prob_or_inf x y l E). destruct (pget l y) as [p|] eqn:G; auto.
    exfalso. apply NS. apply step_keys. exists l. split; auto.
    apply dget_In in G; [|apply pstate_eqb_ok]. apply in_map_iff. exists (y, p). auto.
  Qed.

  Lemma step_dec x y : step T x y \/ ~ step T x y.
  Proof.
    destruct (trans_of T x) as [l|] eqn:E.
    - destruct (in_dec pstate_eq_dec y (map fst l)) as [I|I].
      + left. apply step_keys. eauto.
      + right. rewrite step_keys. intros [l' [E' I']]. congruence.
    - right. rewrite step_keys. intros [l' [E' I']]. congruence.
  Qed.

  (** ** Columns *)

  (** what holds of the column after the text [ro] (backwards) *)
  Record col_inv (ro : str) (col : pcol num) : Prop := {
    ci_nodup : NoDup (map fst col);
    ci_keys : forall y, In y (map fst col) <-> kept T ro y;
    ci_fin : forall y v p, pget col y = Some (v, p) -> i_fin NI (2 * length ro) v;
    ci_live : exists y, kept T ro y /\ live T y;
    ci_state : forall y, kept T ro y -> is_pstate T y;
  }.

  (** how the entries of a column come from the one before *)
  Definition linked (c : char) (old new : pcol num) : Prop :=
    forall y v p, pget new y = Some (v, p) ->
    exists y0 v0 p0, p = Some y0 /\ pget old y0 = Some (v0, p0) /\ step T y0 y
      /\ v = (v0 + prob_of T y0 y) + emit_of T y c
      /\ forall y1 v1 p1, pget old y1 = Some (v1, p1) -> step T y1 y ->
           pv_gt num ((v1 + prob_of T y1 y) + emit_of T y c, y1) (v, y0) = false.

  Lemma pv_init_ok c ys col :
    Forall (is_pstate T) ys ->
    NoDup (map fst col) ->
    exists col', pv_init T c ys col = Ok col' /\ NoDup (map fst col')
      /\ (forall y, In y (map fst col') <-> In y (map fst col) \/ In y ys)
      /\ (forall y, pget col' y =
            if p_in y ys then Some (start_of T y + emit_of T y c, None) else pget col y).
  Proof.
    revert col. induction ys as [|y ys IH]; intros col FY ND.
    - exists col. simpl. repeat split; auto; tauto.
    - inversion FY as [|? ? PY FY']; subst. cbn [pv_init].
      destruct (@start_fin y PY) as [-> _]. destruct (@emit_fin y c PY) as [[e [-> EO]] _]. rewrite EO.
      set (col1 := dset pstate_eqb col y _).
      destruct (IH col1 FY') as [col' [E [ND' [K G]]]].
      { apply dset_NoDup; auto using pstate_eqb_ok. }
      exists col'. split; auto. split; auto. split.
      + intros z. rewrite K. unfold col1. rewrite dset_keys. unfold dmem.
        destruct (pget col y) eqn:EY.
        * apply dget_In in EY; [|apply pstate_eqb_ok].
          assert (In y (map fst col)) by (apply in_map_iff; exists (y, p); auto).
          simpl. split; [intros [|]; auto|]. intros [|[->|]]; auto.
        * rewrite in_app_iff. simpl. tauto.
      + intros z. rewrite G. simpl. destruct (pstate_eqb z y) eqn:EZ; simpl.
        * apply pstate_eqb_ok in EZ. subst z. destruct (p_in y ys); auto.
          unfold col1. apply dget_dset_same, pstate_eqb_ok.
        * unfold p_in. destruct (existsb (pstate_eqb z) ys); auto.
          unfold col1. apply dget_dset_other; [apply pstate_eqb_ok|].
          intros ->. rewrite pstate_eqb_refl in EZ. discriminate.
  Qed.

  Lemma col0_ok c :
    i_lim NI 2 ->
    exists col, pv_init T c (states_of T c) [] = Ok col /\ col_inv [c] col
      /\ forall y v p, pget col y = Some (v, p) -> v = start_of T y + emit_of T y c.
  Proof.
    intros LI.
    assert (FS : Forall (is_pstate T) (states_of T c)).
    { apply Forall_forall. intros y HI. apply states_of_In in HI. eapply char_state_pstate; eauto. }
    destruct (@pv_init_ok c (states_of T c) [] FS) as [col [E [ND [K G]]]]; [constructor|].
    assert (V : forall y v p, pget col y = Some (v, p) ->
                v = start_of T y + emit_of T y c /\ is_pstate T y).
    { intros y v p. rewrite G. destruct (p_in y (states_of T c)) eqn:EI; [|discriminate].
      intros [= <- _]. split; auto. apply p_in_In in EI. rewrite Forall_forall in FS. auto. }
    exists col. split; auto. split.
    - constructor; auto.
      + intros y. rewrite K. simpl. rewrite states_of_In. tauto.
      + intros y v p EG. destruct (V y v p EG) as [-> P].
        simpl. apply i_add; auto.
        * apply start_fin; auto.
        * apply emit_fin; auto.
      + destruct (char_state_live c) as [y [A B]]. exists y. auto.
      + simpl. intros y. apply char_state_pstate.
    - intros y v p EG. eapply V; eauto.
  Qed.

  Lemma pv_prev_ok xs :
    Forall (is_pstate T) xs ->
    exists r, pv_prev T xs = Ok r /\ forall x, In x r <-> In x xs /\ live T x.
  Proof.
    induction xs as [|x xs IH]; intros FX.
    - exists []. simpl. split; auto. tauto.
    - inversion FX as [|? ? PX FX']; subst. destruct (IH FX') as [r [E R]].
      cbn [pv_prev]. apply is_pstate_trans in PX. destruct PX as [l EL]. rewrite EL, E. simpl.
      destruct l as [|a l].
      + exists r. split; auto. intros z. rewrite R. simpl. split; [tauto|].
        intros [[->|] L]; auto. apply live_trans in L. destruct L as [l [A B]]. congruence.
      + exists (x :: r). split; auto. intros z. simpl. rewrite R.
        split; [|tauto]. intros [<-|]; [|tauto]. split; auto. apply live_trans. eexists. split; eauto. discriminate.
  Qed.

  Lemma pv_expect_In prev y : In y (pv_expect T prev) <-> exists x, In x prev /\ step T x y.
  Proof.
    unfold pv_expect. rewrite p_nodup_In, in_flat_map. split.
    - intros [x [HI HY]]. exists x. split; auto. apply step_keys.
      destruct (trans_of T x) as [l|]; [eauto|destruct HY].
    - intros [x [HI S]]. exists x. split; auto. apply step_keys in S. destruct S as [l [-> A]]. auto.
  Qed.

  Section Orders.
  Variable ord : orders.
  Hypothesis FAIR : fair_order ord.

  Lemma pv_obs_ok obs t c prev :
    (exists x y, In x prev /\ step T x y) ->
    NoDup (pv_obs T ord obs t c prev) /\
    forall y, In y (pv_obs T ord obs t c prev) <->
      (exists x, In x prev /\ step T x y) /\
      (char_state T c y \/ forall z, (exists x, In x prev /\ step T x z) -> ~ char_state T c z).
  Proof.
    intros EX. unfold pv_obs.
    set (l := filter _ _).
    assert (LI : forall y, In y l <-> (exists x, In x prev /\ step T x y) /\ char_state T c y).
    { intros y. unfold l. rewrite filter_In, p_in_In, p_nodup_In, states_of_In, pv_expect_In. tauto. }
    assert (LN : NoDup l) by (apply NoDup_filter, p_nodup_NoDup).
    destruct l as [|a l'] eqn:EL.
    - assert (NE : forall z, (exists x, In x prev /\ step T x z) -> ~ char_state T c z).
      { intros z R S. apply (LI z). auto. }
      destruct EX as [x0 [y0 [HX HS]]].
      assert (HI0 : In y0 (pv_expect T prev)) by (apply pv_expect_In; eauto).
      assert (EN : NoDup (pv_expect T prev)) by apply p_nodup_NoDup.
      pose proof (FAIR obs t EN) as PERM.
      destruct (pv_expect T prev) as [|b e] eqn:EE; [destruct HI0|].
      split; [eapply Permutation_NoDup; eauto|].
      intros y. rewrite <- EE in PERM.
      split.
      + intros HI. apply Permutation_sym in PERM. eapply Permutation_in in HI; [|rewrite <- EE; eauto].
        rewrite pv_expect_In in HI. auto.
      + intros [R _]. rewrite <- EE. eapply Permutation_in; eauto. apply pv_expect_In. auto.
    - pose proof (FAIR obs t LN) as PERM.
      split; [eapply Permutation_NoDup; eauto|].
      intros y. split.
      + intros HI. eapply Permutation_in in HI; [|apply Permutation_sym; eauto].
        apply LI in HI. tauto.
      + intros [R C]. eapply Permutation_in; eauto. apply LI. split; auto.
        destruct C as [C|C]; auto. exfalso.
        destruct (proj1 (LI a) (or_introl eq_refl)) as [R' S']. eapply C; eauto.
  Qed.

  Lemma pv_cands_ok col c y prev :
    is_pstate T y -> Forall (fun x => is_pstate T x /\ exists v p, pget col x = Some (v, p)) prev ->
    exists cs, pv_cands T col c y prev = Ok cs /\
      forall m, In m cs <-> exists x v p, In x prev /\ pget col x = Some (v, p)
                              /\ m = ((v + prob_of T x y) + emit_of T y c, x).
  Proof.
    intros PY FP. induction prev as [|x prev IH].
    - exists []. simpl. split; auto. intros m. split; [tauto|]. intros [x [v [p [[] _]]]].
    - inversion FP as [|? ? [PX [v [p GX]]] FP']; subst. destruct (IH FP') as [cs [E M]].
      cbn [pv_cands]. rewrite GX. apply is_pstate_trans in PX. destruct PX as [l EL]. rewrite EL.
      destruct (@emit_fin y c PY) as [[e [-> EO]] _]. rewrite E. simpl rbind.
      eexists. split; [reflexivity|]. rewrite EO, (@prob_or_inf x y l EL). simpl fst.
      intros m. split.
      + intros [<-|HI].
        * exists x, v, p. simpl. auto.
        * apply M in HI. destruct HI as [x' [v' [p' [A [B C]]]]]. exists x', v', p'. simpl. auto.
      + intros [x' [v' [p' [[<-|A] [B C]]]]].
        * left. rewrite GX in B. injection B as <- <-. auto.
        * right. apply M. exists x', v', p'. auto.
  Qed.

  Lemma pv_fill_ok col c prev ys new k :
    Forall (is_pstate T) ys ->
    Forall (fun x => is_pstate T x /\ exists v p, pget col x = Some (v, p)) prev ->
    (forall x v p, pget col x = Some (v, p) -> i_fin NI k v) -> i_lim NI (S (S k)) ->
    Forall (fun y => exists x, In x prev /\ step T x y) ys ->
    NoDup ys -> (forall y, In y ys -> ~ In y (map fst new)) -> NoDup (map fst new) ->
    exists new', pv_fill T col c prev ys new = Ok new' /\ NoDup (map fst new')
      /\ map fst new' = map fst new ++ ys
      /\ (forall y, ~ In y ys -> pget new' y = pget new y)
      /\ (forall y, In y ys -> exists y0 v0 p0,
            pget new' y = Some ((v0 + prob_of T y0 y) + emit_of T y c, Some y0)
            /\ In y0 prev /\ pget col y0 = Some (v0, p0) /\ step T y0 y
            /\ forall y1 v1 p1, In y1 prev -> pget col y1 = Some (v1, p1) -> step T y1 y ->
                pv_gt num ((v1 + prob_of T y1 y) + emit_of T y c, y1)
                          ((v0 + prob_of T y0 y) + emit_of T y c, y0) = false).
  Proof.
    intros FY FP FK LIM. revert new.
    assert (LIM1 : i_lim NI (S k)) by (eapply i_lim_down; [|exact LIM]; lia).
    assert (FINC : forall x v p y, pget col x = Some (v, p) -> step T x y -> is_pstate T y ->
              fin NI ((v + prob_of T x y) + emit_of T y c)).
    { intros x v p y GX S PY. exists (Datatypes.S (Datatypes.S k)). apply i_add; auto.
      - apply i_add; auto.
        + eapply FK; eauto.
        + apply prob_fin; auto.
      - apply emit_fin; auto. }
    induction ys as [|y ys IH]; intros new FS NY NN ND.
    - exists new. rewrite app_nil_r. simpl. repeat split; auto. intros y [].
    - inversion FY as [|? ? PY FY']; subst. inversion FS as [|? ? SY FS']; subst.
      inversion NY as [|? ? NI1 NY']; subst.
      destruct (@pv_cands_ok col c y prev PY FP) as [cs [EC MC]].
      cbn [pv_fill]. rewrite EC. simpl rbind.
      destruct (@py_max_fin num NI cs) as [[mv my] [EM [MI [MF MG]]]].
      { apply Forall_forall. intros m HI. apply MC in HI.
        destruct HI as [x [v [p [HX [GX ->]]]]].
        rewrite Forall_forall in FP. destruct (FP x HX) as [PX _].
        destruct (step_dec x y) as [S|S].
        - left. eapply FINC; eauto.
        - right. simpl. rewrite (@prob_inf x y S PX). apply i_inf_add; [|apply emit_fin; auto].
          eapply i_add_inf; eauto. }
      { destruct SY as [x [HX S]]. rewrite Forall_forall in FP.
        destruct (FP x HX) as [PX [v [p GX]]].
        exists ((v + prob_of T x y) + emit_of T y c, x). split; [|eapply FINC; eauto].
        apply MC. exists x, v, p. auto. }
      rewrite EM. simpl rbind. cbn [fst snd].
      apply MC in MI. destruct MI as [x0 [v0 [p0 [HX0 [GX0 E0]]]]]. injection E0 as -> ->.
      assert (S0 : step T x0 y).
      { destruct (step_dec x0 y) as [|NS]; auto. exfalso.
        rewrite Forall_forall in FP. destruct (FP x0 HX0) as [PX _].
        simpl in MF. rewrite (@prob_inf x0 y NS PX) in MF.
        assert (I : i_inf NI (v0 + f_neg_inf num + emit_of T y c)).
        { apply i_inf_add; [|apply emit_fin; auto]. eapply i_add_inf; eauto. }
        destruct MF as [k' MF]. destruct (@i_inf_lt _ NI k' _ _ I MF) as [A [B _]].
        rewrite (@i_lt_irrefl _ NI _ _ MF) in A. discriminate. }
      set (new1 := dset pstate_eqb new y _).
      assert (NK : map fst new1 = map fst new ++ [y]).
      { unfold new1. rewrite dset_keys. unfold dmem. destruct (pget new y) eqn:EG; auto.
        exfalso. apply (NN y); [left; auto|]. apply dget_In in EG; [|apply pstate_eqb_ok].
        apply in_map_iff. exists (y, p). auto. }
      destruct (IH FY' new1 FS' NY') as [new' [E' [ND' [K' [O' G']]]]].
      { intros z HI. rewrite NK, in_app_iff. simpl. intros [A|[->|[]]].
        - apply (NN z); [right|]; auto.
        - contradiction. }
      { unfold new1. apply dset_NoDup; auto using pstate_eqb_ok. }
      exists new'. split; auto. split; auto. split; [|split].
      + rewrite K', NK, <- app_assoc. reflexivity.
      + intros z NZ. rewrite O' by (intros HI; apply NZ; right; auto).
        unfold new1. apply dget_dset_other; [apply pstate_eqb_ok|].
        intros ->. apply NZ. left. auto.
      + intros z [<-|HI]; [|apply G'; auto].
        rewrite O' by auto. unfold new1. rewrite dget_dset_same by apply pstate_eqb_ok.
        exists x0, v0, p0. repeat split; auto.
        intros y1 v1 p1 HI1 G1 S1. apply MG; [|eapply FINC; eauto].
        apply MC. exists y1, v1, p1. auto.
  Qed.

  Lemma pget_keys (col : pcol num) y : In y (map fst col) <-> exists v p, pget col y = Some (v, p).
  Proof.
    split.
    - intros HI. destruct (pget col y) as [[v p]|] eqn:E; eauto.
      apply dget_None in E; [contradiction|apply pstate_eqb_ok].
    - intros [v [p E]]. apply dget_In in E; [|apply pstate_eqb_ok].
      apply in_map_iff. exists (y, (v, p)). auto.
  Qed.

  Lemma pv_step_ok obs t ro col c :
    ro <> [] -> col_inv ro col -> i_lim NI (2 * length (c :: ro)) ->
    exists col', pv_step T ord obs t col c = Ok col' /\ col_inv (c :: ro) col' /\ linked c col col'.
  Proof.
    intros NE CI LIM. unfold pv_step.
    assert (FK : Forall (is_pstate T) (map fst col)).
    { apply Forall_forall. intros y HI. apply (ci_keys CI) in HI. eapply ci_state; eauto. }
    destruct (pv_prev_ok FK) as [prev [-> PV]]. simpl rbind.
    assert (PK : forall x, In x prev <-> kept T ro x /\ live T x).
    { intros x. rewrite PV, (ci_keys CI). tauto. }
    assert (RE : forall y, (exists x, In x prev /\ step T x y) <-> exists x, kept T ro x /\ step T x y).
    { intros y. split; intros [x [A S]]; exists x; split; auto.
      - apply PK in A. tauto.
      - apply PK. split; auto. exists y. auto. }
    assert (EX : exists x y, In x prev /\ step T x y).
    { destruct (ci_live CI) as [x [A [y S]]]. exists x, y. split; auto. apply PK. split; auto. exists y; auto. }
    destruct (@pv_obs_ok obs t c prev EX) as [ON OI].
    set (ys := pv_obs T ord obs t c prev) in *.
    assert (KY : forall y, In y ys <-> kept T (c :: ro) y).
    { intros y. rewrite OI. cbn [kept]. destruct ro as [|b ro']; [congruence|].
      rewrite RE. split; intros [A B]; split; auto; destruct B as [B|B]; auto;
        right; intros z Z; apply B; apply RE; auto. }
    assert (SY : Forall (fun y => exists x, In x prev /\ step T x y) ys).
    { apply Forall_forall. intros y HI. apply OI in HI. tauto. }
    assert (FY : Forall (is_pstate T) ys).
    { apply Forall_forall. intros y HI. rewrite Forall_forall in SY.
      destruct (SY y HI) as [x [_ S]]. apply step_dst in S. tauto. }
    assert (FP : Forall (fun x => is_pstate T x /\ exists v p, pget col x = Some (v, p)) prev).
    { apply Forall_forall. intros x HI. apply PK in HI. destruct HI as [KX LX].
      split; [apply live_pstate; auto|]. apply pget_keys. apply (ci_keys CI). auto. }
    assert (LIM2 : i_lim NI (S (S (2 * length ro)))).
    { eapply i_lim_down; [|exact LIM]. simpl. lia. }
    destruct (@pv_fill_ok col c prev ys [] (2 * length ro) FY FP) as [new [E [ND [K [_ G]]]]]; auto.
    { intros. eapply ci_fin; eauto. }
    { constructor. }
    exists new. split; auto. simpl in K.
    assert (LK : linked c col new).
    { intros y v p EG. assert (HI : In y ys).
      { rewrite <- K. apply pget_keys. eauto. }
      destruct (G y HI) as [y0 [v0 [p0 [EG' [HI0 [G0 [S0 MX]]]]]]].
      rewrite EG in EG'. injection EG' as -> ->.
      exists y0, v0, p0. repeat split; auto.
      intros y1 v1 p1 G1 S1. apply (MX y1 v1 p1); auto. apply PK. split; [|exists y; auto].
      apply (ci_keys CI). apply pget_keys. eauto. }
    split; auto. constructor; auto.
    - intros y. rewrite K. apply KY.
    - intros y v p EG. destruct (LK y v p EG) as [y0 [v0 [p0 [_ [G0 [S0 [-> _]]]]]]].
      replace (2 * length (c :: ro)) with (S (S (2 * length ro))) by (simpl; lia).
      assert (i_lim NI (S (2 * length ro))) by (eapply i_lim_down; [|exact LIM2]; lia).
      apply i_add; auto.
      + apply i_add; auto.
        * eapply ci_fin; eauto.
        * apply prob_fin; auto.
      + apply emit_fin. eapply step_dst; eauto.
    - destruct EX as [x [y [HX S]]].
      assert (EY : exists y, In y ys).
      { destruct ys as [|y1 ys'] eqn:EY; [|exists y1; left; auto].
        exfalso.
        assert (NC : ~ char_state T c y).
        { intros C. apply (OI y). split; eauto. }
        assert (forall z, (exists x, In x prev /\ step T x z) -> ~ char_state T c z).
        { intros z R C. apply (OI z). auto. }
        apply (OI y). split; eauto. }
      destruct EY as [y1 HY]. exists y1. split; [apply KY; auto|].
      rewrite Forall_forall in SY. destruct (SY y1 HY) as [x1 [_ S1]]. apply step_dst in S1. tauto.
    - intros y KK. apply KY in KK. rewrite Forall_forall in FY. auto.
  Qed.

  (** all columns of a text, latest first *)
  Inductive cols_inv : str -> pcol num -> list (pcol num) -> Prop :=
  | cols_first c col :
      col_inv [c] col ->
      (forall y v p, pget col y = Some (v, p) -> v = start_of T y + emit_of T y c) ->
      cols_inv [c] col []
  | cols_next c ro col col' older :
      cols_inv ro col older -> col_inv (c :: ro) col' -> linked c col col' ->
      cols_inv (c :: ro) col' (col :: older).

  Lemma cols_inv_col ro col older : cols_inv ro col older -> col_inv ro col /\ ro <> [].
  Proof. intros C. inversion C; subst; split; auto; discriminate. Qed.

  Lemma pv_loop_ok obs t rest ro col older :
    cols_inv ro col older -> i_lim NI (2 * (length ro + length rest)) ->
    exists col' older', pv_loop T ord obs t rest col older = Ok (col', older')
      /\ cols_inv (rev rest ++ ro) col' older'.
  Proof.
    revert t ro col older. induction rest as [|c rest IH]; intros t ro col older CI LIM.
    - exists col, older. auto.
    - destruct (cols_inv_col CI) as [CI1 NE]. cbn [pv_loop].
      destruct (@pv_step_ok obs t ro col c NE CI1) as [col' [-> [CI' LK]]].
      { eapply i_lim_down; [|exact LIM]. simpl. lia. }
      simpl rbind. destruct (IH (S t) (c :: ro) col' (col :: older)) as [c2 [o2 [E2 CI2]]].
      + constructor; auto.
      + eapply i_lim_down; [|exact LIM]. simpl. lia.
      + exists c2, o2. split; auto. simpl. rewrite <- app_assoc. auto.
  Qed.
  End Orders.

  (** ** The route *)

  Lemma steps_snoc ys x y : steps T (ys ++ [x]) -> step T x y -> steps T ((ys ++ [x]) ++ [y]).
  Proof.
    induction ys as [|a ys IH]; intros S1 S2.
    - simpl. auto.
    - cbn [app] in *. destruct S1 as [A B]. split; [|apply IH; auto].
      destruct (ys ++ [x]) eqn:E; simpl; auto. destruct ys; discriminate.
  Qed.

  Lemma steps_snoc_inv ys x y : steps T ((ys ++ [x]) ++ [y]) -> steps T (ys ++ [x]) /\ step T x y.
  Proof.
    induction ys as [|a ys IH]; intros S1.
    - simpl in *. tauto.
    - cbn [app] in *. destruct S1 as [A B]. apply IH in B. destruct B as [B1 B2]. split; auto.
      split; auto. destruct (ys ++ [x]) eqn:E; simpl in *; auto.
  Qed.

  Lemma tag_score_from_snoc acc z cs ys c x y :
    length cs = length (ys ++ [x]) ->
    tag_score_from T acc z (cs ++ [c]) ((ys ++ [x]) ++ [y])
    = (tag_score_from T acc z cs (ys ++ [x]) + prob_of T x y) + emit_of T y c.
  Proof.
    revert acc z cs. induction ys as [|a ys IH]; intros acc z cs L.
    - destruct cs as [|c1 [|c2 cs]]; simpl in L; try lia. reflexivity.
    - destruct cs as [|c1 cs]; simpl in L; [lia|]. injection L as L. apply (IH _ a cs L).
  Qed.

  Lemma tag_score_snoc cs ys c x y :
    length cs = length (ys ++ [x]) ->
    tag_score T (cs ++ [c]) ((ys ++ [x]) ++ [y])
    = (tag_score T cs (ys ++ [x]) + prob_of T x y) + emit_of T y c.
  Proof.
    intros L. destruct ys as [|a ys].
    - destruct cs as [|c1 [|c2 cs]]; simpl in L; try lia. reflexivity.
    - destruct cs as [|c1 cs]; simpl in L; [lia|]. injection L as L.
      apply (@tag_score_from_snoc _ a cs ys c x y L).
  Qed.

  (** [considered], from the end *)
  Lemma considered_snoc cs ys c x y :
    considered T cs (ys ++ [x]) -> step T x y -> kept T (rev (cs ++ [c])) y ->
    considered T (cs ++ [c]) ((ys ++ [x]) ++ [y]).
  Proof.
    intros [L [ST K]] SY KY. split; [|split].
    - rewrite (app_length (ys ++ [x])), (app_length cs), L. reflexivity.
    - apply steps_snoc; auto.
    - intros i z E. destruct (Nat.lt_ge_cases i (length (ys ++ [x]))) as [LT|GE].
      + rewrite nth_error_app1 in E by auto. specialize (K i z E).
        rewrite firstn_app. replace (S i - length cs) with 0 by lia. simpl firstn at 2.
        rewrite app_nil_r. auto.
      + rewrite nth_error_app2 in E by auto.
        destruct (i - length (ys ++ [x])) as [|n] eqn:EN; simpl in E; [|destruct n; discriminate].
        injection E as <-. rewrite firstn_all2; auto. rewrite app_length. simpl. lia.
  Qed.

  Lemma considered_snoc_inv cs ys c x y :
    considered T (cs ++ [c]) ((ys ++ [x]) ++ [y]) ->
    considered T cs (ys ++ [x]) /\ step T x y /\ kept T (rev (cs ++ [c])) y.
  Proof.
    intros [L [S K]]. apply steps_snoc_inv in S. destruct S as [S SY].
    assert (LL : length (ys ++ [x]) = length cs).
    { rewrite (app_length (ys ++ [x])), (app_length cs) in L. simpl in L. lia. }
    split; [split; [|split]|split]; auto.
    - intros i z E. assert (LT : i < length (ys ++ [x])) by (apply nth_error_Some; congruence).
      specialize (K i z). rewrite nth_error_app1 in K by auto. specialize (K E).
      rewrite firstn_app in K. replace (Datatypes.S i - length cs) with 0 in K by lia.
      simpl firstn at 2 in K. rewrite app_nil_r in K. auto.
    - specialize (K (length cs) y). rewrite nth_error_app2 in K by lia.
      replace (length cs - length (ys ++ [x])) with 0 in K by lia. specialize (K eq_refl).
      rewrite firstn_all2 in K; auto. rewrite app_length. simpl. lia.
  Qed.

  Lemma pv_back_ok ro col older :
    cols_inv ro col older -> forall y v p, pget col y = Some (v, p) ->
    exists ys, pv_back col older y = Ok (ys ++ [y])
      /\ considered T (rev ro) (ys ++ [y]) /\ tag_score T (rev ro) (ys ++ [y]) = v.
  Proof.
    induction 1 as [c col CI V|c ro col col' older C IH CI' LK]; intros y v p G; cbn [pv_back]; rewrite G.
    - exists []. split; auto. split.
      + split; [|split]; simpl; auto.
        intros [|i] z; simpl; [|destruct i; discriminate].
        intros [= <-]. apply (ci_keys CI). apply pget_keys. eauto.
      + simpl. symmetry. eapply V; eauto.
    - destruct (LK y v p G) as [y0 [v0 [p0 [-> [G0 [S0 [EV _]]]]]]].
      destruct (IH y0 v0 p0 G0) as [ys [-> [CO SC]]]. simpl rbind.
      exists (ys ++ [y0]). split; auto. simpl rev. split.
      + apply considered_snoc; auto. rewrite rev_app_distr, rev_involutive. simpl.
        apply (ci_keys CI'). apply pget_keys. eauto.
      + rewrite tag_score_snoc, SC; auto. destruct CO as [L _]. auto.
  Qed.

  (** ** Optimality *)

  Lemma score_fin cs ys k :
    length cs = k -> considered T cs ys -> cs <> [] -> i_lim NI (2 * k) ->
    i_fin NI (2 * k) (tag_score T cs ys).
  Proof.
    revert cs ys. induction k as [|k IH]; intros cs ys L CO NE LIM.
    { destruct cs; [congruence|discriminate]. }
    destruct (exists_last NE) as [cs' [c ->]]. clear NE.
    assert (LY : length ys = length (cs' ++ [c])) by apply CO.
    assert (NY : ys <> []) by (intros ->; rewrite app_length in LY; simpl in LY; lia).
    destruct (exists_last NY) as [ys' [y ->]]. rewrite app_length in *. simpl in *.
    assert (LIM1 : i_lim NI (2 * k + 1)) by (eapply i_lim_down; [|exact LIM]; lia).
    destruct ys' as [|a ys'].
    - destruct cs'; simpl in *; [|rewrite app_length in LY; simpl in LY; lia].
      assert (k = 0) as -> by lia. simpl.
      destruct CO as [_ [_ K]]. specialize (K 0 y eq_refl). simpl in K. apply char_state_pstate in K.
      apply i_add; auto.
      + apply start_fin; auto.
      + apply emit_fin; auto.
    - assert (NA : a :: ys' <> []) by discriminate.
      destruct (exists_last NA) as [ys2 [x EX]]. rewrite EX in *. clear NA EX a ys'.
      apply considered_snoc_inv in CO. destruct CO as [CO [S K]].
      assert (L2 : length cs' = length (ys2 ++ [x])) by (symmetry; apply CO).
      rewrite tag_score_snoc by auto.
      replace (Nat.add k (Datatypes.S (Nat.add k 0))) with (Datatypes.S (2 * k)) in * by lia.
      assert (i_lim NI (Datatypes.S (2 * k))) by (eapply i_lim_down; [|exact LIM]; lia).
      apply i_add; auto; [apply i_add; auto|].
      + apply IH; auto; [lia| |].
        * intros ->. rewrite app_length in L2. simpl in L2. lia.
        * eapply i_lim_down; [|exact LIM]. lia.
      + apply prob_fin; auto.
      + apply emit_fin. eapply step_dst; eauto.
  Qed.

  (** the entry of [y] is at least the score of each considered tagging that ends
      with [y] *)
  Lemma cols_best ro col older :
    cols_inv ro col older -> i_lim NI (2 * length ro) ->
    forall ys y, considered T (rev ro) (ys ++ [y]) ->
    exists v p, pget col y = Some (v, p) /\ f_lt num v (tag_score T (rev ro) (ys ++ [y])) = false.
  Proof.
    induction 1 as [c col CI V|c ro col col' older C IH CI' LK]; intros LIM ys y CO.
    - destruct CO as [L [S K]]. simpl in L. rewrite app_length in L. simpl in L.
      destruct ys; simpl in L; [|lia]. specialize (K 0 y eq_refl). simpl in K.
      assert (KK : kept T [c] y) by exact K.
      apply (ci_keys CI) in KK. apply pget_keys in KK. destruct KK as [v [p G]].
      exists v, p. split; auto. rewrite (V y v p G). simpl.
      apply (@i_lt_irrefl _ NI 2). apply i_add.
      + apply start_fin. eapply char_state_pstate; eauto.
      + apply emit_fin. eapply char_state_pstate; eauto.
      + auto.
    - assert (LY : length (ys ++ [y]) = length (rev (c :: ro))) by apply CO.
      destruct (cols_inv_col C) as [CI NE].
      assert (ys <> []) as NY.
      { intros ->. destruct ro; [congruence|]. simpl in LY. rewrite !app_length in LY. simpl in LY. lia. }
      destruct (exists_last NY) as [ys2 [x ->]]. clear NY.
      simpl rev in *. apply considered_snoc_inv in CO. destruct CO as [CO [S K]].
      assert (LIM' : i_lim NI (2 * length ro)) by (eapply i_lim_down; [|exact LIM]; simpl; lia).
      destruct (IH LIM' ys2 x CO) as [v1 [p1 [G1 B1]]].
      rewrite rev_app_distr, rev_involutive in K. simpl app in K.
      apply (ci_keys CI') in K. apply pget_keys in K. destruct K as [v [p G]].
      exists v, p. split; auto.
      destruct (LK y v p G) as [y0 [v0 [p0 [-> [G0 [S0 [EV MX]]]]]]].
      specialize (MX x v1 p1 G1 S).
      assert (L2 : length (rev ro) = length (ys2 ++ [x])) by (symmetry; apply CO).
      rewrite tag_score_snoc by auto.
      assert (LIMS : i_lim NI (Datatypes.S (Datatypes.S (2 * length ro)))).
      { eapply i_lim_down; [|exact LIM]. simpl. lia. }
      assert (LIMS1 : i_lim NI (Datatypes.S (2 * length ro))).
      { eapply i_lim_down; [|exact LIM]. simpl. lia. }
      assert (PY : is_pstate T y) by (eapply step_dst; eauto).
      assert (F1 : i_fin NI (2 * length ro) v1) by (eapply ci_fin; eauto).
      assert (FT : i_fin NI (2 * length ro) (tag_score T (rev ro) (ys2 ++ [x]))).
      { apply score_fin; auto.
        - apply rev_length.
        - intros E. apply NE. rewrite <- (rev_involutive ro), E. reflexivity. }
      assert (FP : i_fin NI 1 (prob_of T x y)) by (apply prob_fin; auto).
      assert (FE : i_fin NI 1 (emit_of T y c)) by (apply emit_fin; auto).
      assert (FV : i_fin NI (Datatypes.S (Datatypes.S (2 * length ro))) v).
      { rewrite EV. apply i_add; auto. apply i_add; auto.
        - eapply ci_fin; eauto.
        - apply prob_fin; auto. }
      set (w := (tag_score T (rev ro) (ys2 ++ [x]) + prob_of T x y) + emit_of T y c).
      set (w1 := (v1 + prob_of T x y) + emit_of T y c) in *.
      assert (FW : i_fin NI (Datatypes.S (Datatypes.S (2 * length ro))) w).
      { unfold w. apply i_add; auto. apply i_add; auto. }
      assert (FW1 : i_fin NI (Datatypes.S (Datatypes.S (2 * length ro))) w1).
      { unfold w1. apply i_add; auto. apply i_add; auto. }
      assert (W : f_lt num w1 w = false).
      { unfold w, w1. eapply i_mono; eauto using i_add. eapply i_mono; eauto. }
      assert (W1 : f_lt num v w1 = false).
      { apply not_true_iff_false. intros LT.
        assert (pv_gt num (w1, x) (v, y0) = true); [|congruence].
        apply (@gt_cases num NI); simpl; auto; eexists; eauto. }
      apply not_true_iff_false. intros LT.
      destruct (@lt_split num NI v w1 w) as [M|M]; try congruence; eexists; eauto.
  Qed.

  (** ** The whole search *)

  Lemma pviterbi_ok ord obs :
    fair_order ord -> obs <> [] -> i_lim NI (2 * length obs) ->
    exists p route, pviterbi T ord obs = Ok (p, route)
      /\ considered T obs route /\ tag_score T obs route = p
      /\ forall ys, considered T obs ys -> f_lt num p (tag_score T obs ys) = false.
  Proof.
    intros FAIR NE LIM. destruct obs as [|c rest]; [congruence|]. unfold pviterbi.
    destruct (@col0_ok c) as [col0 [-> [CI0 V0]]].
    { eapply i_lim_down; [|exact LIM]. simpl. lia. }
    simpl rbind.
    destruct (@pv_loop_ok ord FAIR (c :: rest) 1 rest [c] col0 []) as [col [older [-> CI]]].
    { constructor; auto. }
    { eapply i_lim_down; [|exact LIM]. simpl. lia. }
    simpl rbind. change (rev rest ++ [c]) with (rev (c :: rest)) in CI.
    destruct (cols_inv_col CI) as [CC _].
    set (cands := map (fun e => (fst (snd e), fst e)) col).
    assert (CIN : forall v y, In (v, y) cands <-> exists p, pget col y = Some (v, p)).
    { intros v y. unfold cands. rewrite in_map_iff. split.
      - intros [[y' [v' p]] [E HI]]. simpl in E. injection E as -> ->. exists p.
        apply In_dget; auto using pstate_eqb_ok. apply (ci_nodup CC).
      - intros [p G]. exists (y, (v, p)). split; auto. eapply dget_In; [|eauto]. apply pstate_eqb_ok. }
    assert (LR : length (rev (c :: rest)) = length (c :: rest)) by apply rev_length.
    assert (FINE : forall m, In m cands -> i_fin NI (2 * length (c :: rest)) (fst m)).
    { intros [v y] HI. apply CIN in HI. destruct HI as [p G]. simpl fst. rewrite <- LR. eapply ci_fin; eauto. }
    destruct (@py_max_fin num NI cands) as [[mv my] [-> [MI [MF MG]]]].
    { apply Forall_forall. intros m HI. left. eexists. apply FINE. auto. }
    { destruct (ci_live CC) as [y [K _]]. apply (ci_keys CC) in K. apply pget_keys in K.
      destruct K as [v [p G]]. exists (v, y). split; [apply CIN; eauto|].
      eexists. apply FINE. apply CIN. eauto. }
    simpl rbind. apply CIN in MI. destruct MI as [p G]. simpl.
    destruct (pv_back_ok CI my G) as [ys [-> [CO SC]]]. simpl rbind.
    exists mv, (ys ++ [my]). change (rev rest ++ [c]) with (rev (c :: rest)) in *.
    rewrite rev_involutive in *. split; auto. split; auto. split; auto.
    intros zs CZ.
    assert (zs <> []) as NZ by (intros ->; destruct CZ as [L _]; discriminate).
    destruct (exists_last NZ) as [zs' [z ->]].
    destruct (@cols_best _ _ _ CI) with (ys := zs') (y := z) as [v [q [GZ BZ]]].
    { rewrite LR. auto. }
    { rewrite rev_involutive. auto. }
    rewrite rev_involutive in BZ.
    assert (HZ : In (v, z) cands) by (apply CIN; eauto).
    specialize (MG (v, z) HZ). apply not_true_iff_false. intros LT.
    assert (FV : fin NI v) by (eexists; apply (FINE _ HZ)).
    destruct (@lt_split num NI mv v (tag_score T (c :: rest) (zs' ++ [z]))) as [M|M]; auto; try congruence.
    - eexists. apply score_fin; eauto.
    - specialize (MG FV).
      assert (pv_gt num (v, z) (mv, my) = true); [|congruence].
      apply (@gt_cases num NI); simpl; auto.
  Qed.

  (** ** The order of iteration over sets does not matter *)

  Definition col_eq (c1 c2 : pcol num) : Prop := forall y, pget c1 y = pget c2 y.

  Lemma linked_unique c ro old1 old2 new1 new2 :
    col_inv (c :: ro) new1 -> col_inv (c :: ro) new2 ->
    (forall y v p, pget new1 y = Some (v, p) -> fin NI v) ->
    (forall y v p, pget new2 y = Some (v, p) -> fin NI v) ->
    linked c old1 new1 -> linked c old2 new2 -> col_eq old1 old2 -> col_eq new1 new2.
  Proof.
    intros I1 I2 F1 F2 L1 L2 EQ y.
    destruct (pget new1 y) as [[v1 p1]|] eqn:G1.
    - assert (K : kept T (c :: ro) y) by (apply (ci_keys I1); apply pget_keys; eauto).
      apply (ci_keys I2) in K. apply pget_keys in K. destruct K as [v2 [p2 G2]]. rewrite G2.
      destruct (L1 y v1 p1 G1) as [y1 [w1 [q1 [-> [O1 [S1 [E1 M1]]]]]]].
      destruct (L2 y v2 p2 G2) as [y2 [w2 [q2 [-> [O2 [S2 [E2 M2]]]]]]].
      assert (y1 = y2) as <-.
      { pose proof (M1 y2 w2 q2) as A. rewrite EQ in A. specialize (A O2 S2).
        pose proof (M2 y1 w1 q1) as B. rewrite <- EQ in B. specialize (B O1 S1).
        rewrite <- E1 in B. rewrite <- E2 in A.
        destruct (@gt_total num NI (v1, y1) (v2, y2)) as [G|[G|G]]; simpl; eauto; congruence. }
      rewrite EQ in O1. rewrite O1 in O2. injection O2 as <- <-. congruence.
    - destruct (pget new2 y) as [[v2 p2]|] eqn:G2; auto.
      assert (K : kept T (c :: ro) y) by (apply (ci_keys I2); apply pget_keys; eauto).
      apply (ci_keys I1) in K. apply pget_keys in K. destruct K as [v [p G]]. congruence.
  Qed.

  (** the route found from equal columns *)
  Lemma pv_back_eq older1 older2 col1 col2 y :
    col_eq col1 col2 -> Forall2 col_eq older1 older2 ->
    pv_back col1 older1 y = pv_back col2 older2 y.
  Proof.
    intros EQ FA. revert col1 col2 y EQ. induction FA as [|a b older1 older2 E FA IH];
      intros col1 col2 y EQ; cbn [pv_back]; rewrite EQ; auto.
    destruct (pget col2 y) as [[v [p|]]|]; auto. rewrite (IH a b p E). reflexivity.
  Qed.

  Lemma pv_loop_eq ord1 ord2 obs1 obs2 t1 t2 rest ro col1 col2 older1 older2 :
    fair_order ord1 -> fair_order ord2 ->
    cols_inv ro col1 older1 -> cols_inv ro col2 older2 ->
    col_eq col1 col2 -> Forall2 col_eq older1 older2 ->
    i_lim NI (2 * (length ro + length rest)) ->
    exists c1 o1 c2 o2, pv_loop T ord1 obs1 t1 rest col1 older1 = Ok (c1, o1)
      /\ pv_loop T ord2 obs2 t2 rest col2 older2 = Ok (c2, o2)
      /\ col_eq c1 c2 /\ Forall2 col_eq o1 o2.
  Proof.
    intros FA1 FA2. revert t1 t2 ro col1 col2 older1 older2.
    induction rest as [|c rest IH]; intros t1 t2 ro col1 col2 older1 older2 C1 C2 EQ EO LIM.
    - exists col1, older1, col2, older2. auto.
    - destruct (cols_inv_col C1) as [I1 NE]. destruct (cols_inv_col C2) as [I2 _]. cbn [pv_loop].
      assert (LIM' : i_lim NI (2 * length (c :: ro))).
      { eapply i_lim_down; [|exact LIM]. simpl. lia. }
      destruct (@pv_step_ok ord1 FA1 obs1 t1 ro col1 c NE I1 LIM') as [n1 [-> [J1 L1]]].
      destruct (@pv_step_ok ord2 FA2 obs2 t2 ro col2 c NE I2 LIM') as [n2 [-> [J2 L2]]].
      simpl rbind. apply (IH _ _ (c :: ro)); auto.
      + constructor; auto.
      + constructor; auto.
      + apply (@linked_unique c ro col1 col2 n1 n2); auto.
        * intros y v p G. eexists. eapply (ci_fin J1); eauto.
        * intros y v p G. eexists. eapply (ci_fin J2); eauto.
      + eapply i_lim_down; [|exact LIM]. simpl. lia.
  Qed.

  Lemma py_max_unique l1 l2 :
    (forall m, In m l1 <-> In m l2) ->
    Forall (fun m => fin NI (fst m)) l1 ->
    (forall v1 v2 y, In (v1, y) l1 -> In (v2, y) l1 -> v1 = v2) ->
    l1 <> [] -> py_max (pv_gt num) l1 = py_max (pv_gt num) l2.
  Proof.
    intros SAME FI UN NE.
    assert (FI2 : Forall (fun m => fin NI (fst m)) l2).
    { apply Forall_forall. intros m HI. apply SAME in HI. rewrite Forall_forall in FI. auto. }
    destruct l1 as [|a l1']; [congruence|]. set (l1 := a :: l1') in *.
    assert (HA : In a l1) by (left; auto).
    assert (P : forall l, Forall (fun m => fin NI (fst m)) l -> In a l -> exists r,
      py_max (pv_gt num) l = Ok r /\ In r l /\ fin NI (fst r)
      /\ forall z, In z l -> fin NI (fst z) -> pv_gt num z r = false).
    { intros l FL IA. apply py_max_fin.
      - eapply Forall_impl; [|exact FL]. intros m FM. left. auto.
      - exists a. split; auto. rewrite Forall_forall in FL. auto. }
    destruct (P l1 FI HA) as [r1 [-> [R1 [F1 M1]]]].
    destruct (P l2 FI2 (proj1 (SAME a) HA)) as [r2 [-> [R2 [F2 M2]]]].
    f_equal. destruct r1 as [v1 y1], r2 as [v2 y2].
    destruct (@gt_total num NI (v1, y1) (v2, y2) F1 F2) as [G|[G|G]].
    - rewrite M2 in G; auto; [discriminate|]. apply SAME. auto.
    - rewrite M1 in G; auto; [discriminate|]. apply SAME. auto.
    - simpl in G. subst y2. rewrite (UN v1 v2 y1); auto. apply SAME. auto.
  Qed.

  Lemma pviterbi_order ord1 ord2 obs :
    fair_order ord1 -> fair_order ord2 -> i_lim NI (2 * length obs) ->
    pviterbi T ord1 obs = pviterbi T ord2 obs.
  Proof.
    intros FA1 FA2 LIM. destruct obs as [|c rest]; [reflexivity|]. unfold pviterbi.
    destruct (@col0_ok c) as [col0 [-> [CI0 V0]]].
    { eapply i_lim_down; [|exact LIM]. simpl. lia. }
    simpl rbind.
    assert (C0 : cols_inv [c] col0 []) by (constructor; auto).
    assert (LIM' : i_lim NI (2 * (length [c] + length rest))).
    { eapply i_lim_down; [|exact LIM]. simpl. lia. }
    destruct (@pv_loop_eq ord1 ord2 (c :: rest) (c :: rest) 1 1 rest [c] col0 col0 [] [] FA1 FA2 C0 C0)
      as [c1 [o1 [c2 [o2 [E1 [E2 [EQ EO]]]]]]]; auto.
    { intros y. reflexivity. }
    destruct (@pv_loop_ok ord1 FA1 (c :: rest) 1 rest [c] col0 [] C0 LIM') as [c1' [o1' [E1' CI1]]].
    destruct (@pv_loop_ok ord2 FA2 (c :: rest) 1 rest [c] col0 [] C0 LIM') as [c2' [o2' [E2' CI2]]].
    rewrite E1 in E1'. injection E1' as <- <-. rewrite E2 in E2'. injection E2' as <- <-.
    rewrite E1, E2. simpl rbind.
    destruct (cols_inv_col CI1) as [I1 _]. destruct (cols_inv_col CI2) as [I2 _].
    assert (CIN : forall col : pcol num, NoDup (map fst col) -> forall v y,
      In (v, y) (map (fun e => (fst (snd e), fst e)) col) <-> exists p, pget col y = Some (v, p)).
    { intros col ND v y. rewrite in_map_iff. split.
      - intros [[y' [v' p]] [E HI]]. simpl in E. injection E as -> ->. exists p.
        apply In_dget; auto using pstate_eqb_ok.
      - intros [p G]. exists (y, (v, p)). split; auto. eapply dget_In; [|eauto]. apply pstate_eqb_ok. }
    rewrite (@py_max_unique (map (fun e => (fst (snd e), fst e)) c1)
                            (map (fun e => (fst (snd e), fst e)) c2)).
    - destruct (py_max _ _) as [m|e]; simpl; auto. rewrite (@pv_back_eq o1 o2 c1 c2); auto.
    - intros [v y]. rewrite (CIN c1 (ci_nodup I1)), (CIN c2 (ci_nodup I2)), EQ. tauto.
    - apply Forall_forall. intros [v y] HI. apply (CIN c1 (ci_nodup I1)) in HI.
      destruct HI as [p G]. eexists. exact (ci_fin I1 _ G).
    - intros v1 v2 y A B. apply (CIN c1 (ci_nodup I1)) in A.
      apply (CIN c1 (ci_nodup I1)) in B. destruct A as [p A], B as [q B]. congruence.
    - destruct (ci_live I1) as [y [K _]]. apply (ci_keys I1) in K.
      destruct c1; [destruct K|discriminate].
  Qed.
End Vit.
