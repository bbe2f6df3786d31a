(** * C78: which dictionary a generator of the module sees when parallel mode is switched *)
From Coq Require Import Lia.
From Verif Require Import PyBase PyRegex PyNum InstQ ModelFinalseg ModelSeg ModelDict ModelApi ModelParallel ModelPosseg
  ModelPosParallel ModelNames SpecBase SpecSeg Demo ProofsBase ProofsDemo ProofsPosLocal DemoPos PropsParallel PropsPosseg PropsPosParallel.

(** the event does not advance generator [i] *)
Definition untouched (i : nat) (ev : nevent) : Prop :=
  match ev with NNext j | NList j => j <> i | _ => True end.

Lemma set_nth_other {A} (l : list A) i j x : i <> j -> nth_error (set_nth l i x) j = nth_error l j.
Proof.
  revert i j. induction l as [|y l IH]; intros [|i] [|j] N; cbn; auto; try congruence.
Qed.
Lemma set_nth_same {A} (l : list A) i x y : nth_error l i = Some y -> nth_error (set_nth l i x) i = Some x.
Proof. revert i. induction l as [|z l IH]; intros [|i] E; cbn in *; try discriminate; auto. Qed.

Section Frame.
  Variable num : Num.
  Variable H : hmm num.
  Variable T : ptables num.
  Variable ord : orders.
  Notation nstep := (nstep num H T ord).
  Notation nrun := (nrun num H T ord).

  Lemma step_object n ev n' r i o : nstep n ev n' r -> untouched i ev ->
    nth_error (nm_objs n) i = Some o -> nth_error (nm_objs n') i = Some o.
  Proof.
    intros S U E. inversion S; subst; cbn [nm_objs untouched] in *; auto.
    - rewrite nth_error_app1; auto. apply nth_error_Some. congruence.
    - rewrite nth_error_app1; auto. apply nth_error_Some. congruence.
    - rewrite set_nth_other; auto.
    - rewrite set_nth_other; auto.
    - rewrite set_nth_other; auto.
    - rewrite set_nth_other; auto.
  Qed.

  Lemma run_object n evs n' i o : nrun n evs n' -> Forall (untouched i) evs ->
    nth_error (nm_objs n) i = Some o -> nth_error (nm_objs n') i = Some o.
  Proof.
    induction 1 as [|n ev evs n1 n2 r S R IH]; intros F E; auto. inversion F; subst.
    apply IH; auto. eapply step_object; eauto.
  Qed.

  Lemma step_mode n ev n' r : nstep n ev n' r -> ev <> NEnable -> ev <> NDisable ->
    nm_par n' = nm_par n /\ nm_pool n' = nm_pool n.
  Proof. intros S A B. inversion S; subst; cbn; auto; congruence. Qed.

  Lemma run_sequential n evs n' : nrun n evs n' -> ~ In NEnable evs ->
    nm_par n = false /\ nm_pool n = None -> nm_par n' = false /\ nm_pool n' = None.
  Proof.
    induction 1 as [|n ev evs n1 n2 r S R IH]; intros A E; auto. cbn in A. apply IH; [tauto|].
    inversion S; subst; cbn; auto; exfalso; auto.
  Qed.

  Lemma run_parallel n evs n' w : nrun n evs n' -> ~ In NEnable evs -> ~ In NDisable evs ->
    nm_par n = true /\ nm_pool n = Some w -> nm_par n' = true /\ nm_pool n' = Some w.
  Proof.
    induction 1 as [|n ev evs n1 n2 r S R IH]; intros A B E; auto. cbn in A, B. apply IH; try tauto.
    destruct (step_mode _ _ _ _ S) as [P Q]; [intros ->; auto|intros ->; auto|]. rewrite P, Q. exact E.
  Qed.

  Lemma run_par_only n evs n' : nrun n evs n' -> ~ In NDisable evs -> nm_par n = true -> nm_par n' = true.
  Proof.
    induction 1 as [|n ev evs n1 n2 r S R IH]; intros B E; auto. cbn in B. apply IH; try tauto.
    inversion S; subst; cbn; auto; exfalso; auto.
  Qed.

  Lemma make_object n f p s n' i : nstep n (NMake f p s) n' (NObj i) ->
    nth_error (nm_objs n') i = Some (if nm_par n then JPar f s else JSeq f s) /\
    nm_w n' = nm_w n /\ nm_pool n' = nm_pool n /\ nm_par n' = nm_par n.
  Proof.
    intros S. inversion S; subst. cbn. split; auto. rewrite nth_error_app2, Nat.sub_diag; auto.
  Qed.
  Lemma tag_object n h s n' i : nstep n (NTag h s) n' (NObj i) ->
    nth_error (nm_objs n') i = Some (TNew h s) /\ nm_pool n' = nm_pool n.
  Proof. intros S. inversion S; subst. cbn. split; auto. rewrite nth_error_app2, Nat.sub_diag; auto. Qed.
End Frame.

(** After [disable_parallel], until [enable_parallel] is called, [jieba.cut] and
    [jieba.cut_for_search] are sequential again and use the dictionary of this process.  A
    generator made in that time stays sequential even if [enable_parallel] is called before it
    is consumed. *)
Theorem C78_sequential_after_disable :
  forall (num : Num) (H : hmm num) (T : ptables num) (ord : orders) n0 n1 r1 evs n2 f p s n3 i evs2 n4 n5 r,
    nstep num H T ord n0 NDisable n1 r1 -> nrun num H T ord n1 evs n2 -> ~ In NEnable evs ->
    nstep num H T ord n2 (NMake f p s) n3 (NObj i) ->
    nrun num H T ord n3 evs2 n4 -> Forall (untouched i) evs2 ->
    nstep num H T ord n4 (NList i) n5 r ->
    r = NWords (g_list (match f with
                        | FCut cut_all HMM =>
                            cut num H (mode_of cut_all HMM) (d_freq (pw_d (nm_w n4))) (d_total (pw_d (nm_w n4)))
                                (d_force (pw_d (nm_w n4))) s
                        | FSearch HMM =>
                            cut_for_search num H HMM (d_freq (pw_d (nm_w n4))) (d_total (pw_d (nm_w n4)))
                                (d_force (pw_d (nm_w n4))) s
                        end)).
Proof.
  intros num H T ord n0 n1 r1 evs n2 f p s n3 i evs2 n4 n5 r S1 R1 NE S2 R2 U S3.
  assert (M : nm_par n2 = false /\ nm_pool n2 = None).
  { eapply run_sequential; eauto. inversion S1; subst; auto. }
  destruct (make_object _ _ _ _ _ _ _ _ _ _ S2) as (O & _). rewrite (proj1 M) in O.
  pose proof (run_object _ _ _ _ _ _ _ _ _ R2 U O) as O2.
  inversion S3 as [| | | | | | | |j o g E RW|j o w' g E RT]; subst; rewrite O2 in E; injection E as <-.
  - inversion RW; subst. reflexivity.
  - inversion RT.
Qed.

(** A generator made in parallel mode looks for the workers when it is first advanced.  If
    [disable_parallel] has been called by then, it raises [AttributeError]. *)
Theorem C78_parallel_generator_after_disable :
  forall (num : Num) (H : hmm num) (T : ptables num) (ord : orders) n0 n1 r1 evs n2 f p s n3 i evs3 n4 n5 r5 evs5 n6,
    nstep num H T ord n0 NEnable n1 r1 -> nrun num H T ord n1 evs n2 -> ~ In NDisable evs ->
    nstep num H T ord n2 (NMake f p s) n3 (NObj i) ->
    nrun num H T ord n3 evs3 n4 -> Forall (untouched i) evs3 ->
    nstep num H T ord n4 NDisable n5 r5 ->
    nrun num H T ord n5 evs5 n6 -> Forall (untouched i) evs5 -> ~ In NEnable evs5 ->
    (forall n7 r, nstep num H T ord n6 (NNext i) n7 r -> r = NExn AttributeError) /\
    (forall n7 r, nstep num H T ord n6 (NList i) n7 r -> r = NWords (Err AttributeError)).
Proof.
  intros num H T ord n0 n1 r1 evs n2 f p s n3 i evs3 n4 n5 r5 evs5 n6 S1 R1 ND S2 R2 U2 S3 R3 U3 NE.
  assert (M : nm_par n2 = true) by (eapply run_par_only; eauto; inversion S1; subst; auto).
  destruct (make_object _ _ _ _ _ _ _ _ _ _ S2) as (O & _). rewrite M in O.
  pose proof (run_object _ _ _ _ _ _ _ _ _ R2 U2 O) as O2.
  assert (O3 : nth_error (nm_objs n5) i = Some (JPar f s)) by (eapply step_object; eauto; exact I).
  pose proof (run_object _ _ _ _ _ _ _ _ _ R3 U3 O3) as O4.
  assert (P : nm_par n6 = false /\ nm_pool n6 = None) by (eapply run_sequential; eauto; inversion S3; subst; auto).
  destruct P as [_ P]. split; intros n7 r S.
  - inversion S as [| | | | | |j o g E G RW|j o w' g E G RT| |]; subst; rewrite O4 in E; injection E as <-.
    + inversion RW; subst; [congruence|]. reflexivity.
    + inversion RT.
  - inversion S as [| | | | | | | |j o g E RW|j o w' g E RT]; subst; rewrite O4 in E; injection E as <-.
    + inversion RW; subst; [congruence|]. reflexivity.
    + inversion RT.
Qed.

(** If parallel mode is on when it is first advanced, its words are those of the dictionary at
    the last [enable_parallel], even if it was made before that call. *)
Theorem C78_last_workers :
  forall (num : Num) (H : hmm num) (T : ptables num) (ord : orders) n0 n1 r1 evs n2 HMM p s n3 i evs3 n4 n5 r5 evs5 n6 n7 r ws,
    nstep num H T ord n0 NEnable n1 r1 -> nrun num H T ord n1 evs n2 -> ~ In NDisable evs ->
    nstep num H T ord n2 (NMake (FCut false HMM) p s) n3 (NObj i) ->
    nrun num H T ord n3 evs3 n4 -> Forall (untouched i) evs3 ->
    nstep num H T ord n4 NEnable n5 r5 ->
    nrun num H T ord n5 evs5 n6 -> Forall (untouched i) evs5 -> ~ In NEnable evs5 -> ~ In NDisable evs5 ->
    let d := pw_d (nm_w n4) in
    cut num H (mode_of false HMM) (d_freq d) (d_total d) (d_force d) s = gof ws ->
    nstep num H T ord n6 (NList i) n7 r -> r = NWords (Ok ws).
Proof.
  intros num H T ord n0 n1 r1 evs n2 HMM p s n3 i evs3 n4 n5 r5 evs5 n6 n7 r ws S1 R1 ND S2 R2 U2 S3 R3 U3 NE ND2 d EC S.
  assert (M : nm_par n2 = true) by (eapply run_par_only; eauto; inversion S1; subst; auto).
  destruct (make_object _ _ _ _ _ _ _ _ _ _ S2) as (O & _). rewrite M in O.
  pose proof (run_object _ _ _ _ _ _ _ _ _ R2 U2 O) as O2.
  assert (O3 : nth_error (nm_objs n5) i = Some (JPar (FCut false HMM) s)) by (eapply step_object; eauto; exact I).
  pose proof (run_object _ _ _ _ _ _ _ _ _ R3 U3 O3) as O4.
  assert (P : nm_par n6 = true /\ nm_pool n6 = Some (nm_w n4)) by (eapply run_parallel; eauto; inversion S3; subst; auto).
  destruct P as [_ P].
  inversion S as [| | | | | | | |j o g E RW|j o w' g E RT]; subst; rewrite O4 in E; injection E as <-.
  - inversion RW as [|? ? w0 ? PS PW|? ? PN|]; subst; [|congruence]. rewrite P in PS. injection PS as <-.
    cbn [par_words] in PW. apply (C30_parallel_same_words _ _ _ _ _ _ EC) in PW. subst g. reflexivity.
  - inversion RT.
Qed.

(** Once advanced, its words are fixed: whatever is done then, the rest are the words that the
    workers of that moment found. *)
Theorem C78_started_generator_is_fixed :
  forall (num : Num) (H : hmm num) (T : ptables num) (ord : orders) n0 n1 r1 evs n2 HMM p s n3 i n4 x evs4 n5 n6 r ws,
    nstep num H T ord n0 NEnable n1 r1 -> nrun num H T ord n1 evs n2 -> ~ In NEnable evs -> ~ In NDisable evs ->
    let d := pw_d (nm_w n0) in
    cut num H (mode_of false HMM) (d_freq d) (d_total d) (d_force d) s = gof ws ->
    nstep num H T ord n2 (NMake (FCut false HMM) p s) n3 (NObj i) ->
    nstep num H T ord n3 (NNext i) n4 (NWord x) ->
    nrun num H T ord n4 evs4 n5 -> Forall (untouched i) evs4 ->
    nstep num H T ord n5 (NList i) n6 r ->
    exists rest, ws = x :: rest /\ r = NWords (Ok rest).
Proof.
  intros num H T ord n0 n1 r1 evs n2 HMM p s n3 i n4 x evs4 n5 n6 r ws S1 R1 NE ND d EC S2 S3 R4 U S.
  assert (M : nm_par n2 = true /\ nm_pool n2 = Some (nm_w n0)) by (eapply run_parallel; eauto; inversion S1; subst; auto).
  destruct M as [M1 M2]. destruct (make_object _ _ _ _ _ _ _ _ _ _ S2) as (O & _ & P & _). rewrite M1 in O. rewrite M2 in P.
  assert (O4 : exists rest, ws = x :: rest /\ nth_error (nm_objs n4) i = Some (JRest (gof rest))).
  { inversion S3 as [| | | | | |j o g E G RW EQ1 EQ2 EQ3|j o w' g E G RT EQ1 EQ2 EQ3| |]; subst; rewrite O in E; injection E as <-.
    - inversion RW as [|? ? w0 ? PS PW|? ? PN|]; subst; [|congruence]. rewrite P in PS. injection PS as <-.
      cbn [par_words] in PW. apply (C30_parallel_same_words _ _ _ _ _ _ EC) in PW. subst g.
      destruct ws as [|y rest]; cbn in EQ3; [discriminate|]. injection EQ3 as ->. exists rest. split; auto.
      cbn [nm_objs next_word gof fst snd]. eapply set_nth_same. exact O.
    - inversion RT. }
  destruct O4 as (rest & -> & O4). exists rest. split; auto.
  pose proof (run_object _ _ _ _ _ _ _ _ _ R4 U O4) as O5.
  inversion S as [| | | | | | | |j o g E RW|j o w' g E RT]; subst; rewrite O5 in E; injection E as <-.
  - inversion RW; subst. reflexivity.
  - inversion RT.
Qed.

(** A generator that has been consumed, or has ended or raised once, stays empty whatever
    is done afterwards. *)
Theorem C78_used_up :
  forall (num : Num) (H : hmm num) (T : ptables num) (ord : orders) n0 ev r0 n1 i evs n2,
    nstep num H T ord n0 ev n1 r0 ->
    ev = NList i \/ (ev = NNext i /\ (r0 = NStop \/ exists e, r0 = NExn e)) ->
    nrun num H T ord n1 evs n2 ->
    (forall n3 r, nstep num H T ord n2 (NNext i) n3 r -> r = NStop) /\
    (forall n3 r, nstep num H T ord n2 (NList i) n3 r -> r = NWords (Ok []) \/ r = NTags (Ok [])).
Proof.
  intros num H T ord n0 ev r0 n1 i evs n2 S0 EV R.
  set (spent := fun n : names => nth_error (nm_objs n) i = Some (JRest gnil) \/ nth_error (nm_objs n) i = Some (TRest gnil)).
  assert (NW : forall n n' r, spent n -> nstep num H T ord n (NNext i) n' r -> r = NStop /\ spent n').
  { intros n n' r SP S. inversion S as [| | | | | |j o g E OG RW|j o w' g E OG RT| |]; subst.
    - destruct SP as [SP|SP]; rewrite SP in E; injection E as <-; [|inversion RW].
      inversion RW; subst. split; [reflexivity|]. left. cbn. eapply set_nth_same; eauto.
    - destruct SP as [SP|SP]; rewrite SP in E; injection E as <-; [inversion RT|].
      inversion RT; subst. split; [reflexivity|]. right. cbn. eapply set_nth_same; eauto. }
  assert (NL : forall n n' r, spent n -> nstep num H T ord n (NList i) n' r ->
                 (r = NWords (Ok []) \/ r = NTags (Ok [])) /\ spent n').
  { intros n n' r SP S. inversion S as [| | | | | | | |j o g E RW|j o w' g E RT]; subst.
    - destruct SP as [SP|SP]; rewrite SP in E; injection E as <-; [|inversion RW].
      inversion RW; subst. split; [left; reflexivity|]. left. cbn. eapply set_nth_same; eauto.
    - destruct SP as [SP|SP]; rewrite SP in E; injection E as <-; [inversion RT|].
      inversion RT; subst. split; [right; reflexivity|]. right. cbn. eapply set_nth_same; eauto. }
  assert (SP : spent n2).
  { assert (SP1 : spent n1).
    { destruct EV as [->|[-> Q]].
      - inversion S0; subst; [left|right]; cbn; eapply set_nth_same; eauto.
      - inversion S0 as [| | | | | |j o g E OG RW|j o w' g E OG RT| |]; subst; [left|right]; cbn;
          destruct g as [[|x l] [e|]]; cbn in Q |- *; try (eapply set_nth_same; eauto);
          destruct Q as [Q|[e' Q]]; discriminate Q. }
    clear S0 EV. induction R as [|n e evs n1 n2 r S R IH]; auto. apply IH.
    assert (U : untouched i e \/ e = NNext i \/ e = NList i).
    { destruct e as [| | | | |j|j]; cbn; auto; (destruct (Nat.eq_dec j i) as [->|]; auto). }
    destruct U as [U|[->| ->]].
    - destruct SP1 as [X|X]; [left|right]; eapply step_object; eauto.
    - apply (NW _ _ _ SP1 S).
    - apply (NL _ _ _ SP1 S). }
  split; intros n3 r S; [apply (NW _ _ _ SP S)|apply (NL _ _ _ SP S)].
Qed.

(** [jieba.lcut] is not switched.  Directly after [enable_parallel] it agrees with
    [list(jieba.cut(...))] in accurate mode ... *)
Theorem C78_lcut_same_at_once :
  forall (num : Num) (H : hmm num) (T : ptables num) (ord : orders) n0 n1 r1 HMM s n2 i n3 r n4 ws,
    nstep num H T ord n0 NEnable n1 r1 ->
    nstep num H T ord n1 (NMake (FCut false HMM) false s) n2 (NObj i) ->
    nstep num H T ord n2 (NList i) n3 r ->
    nstep num H T ord n3 (NOp (PTok (OpCut false HMM s))) n4 (NRes (POut (OutWords (gof ws)))) ->
    r = NWords (Ok ws).
Proof.
  intros num H T ord n0 n1 r1 HMM s n2 i n3 r n4 ws S1 S2 S3 S4.
  inversion S1; subst. destruct (make_object _ _ _ _ _ _ _ _ _ _ S2) as (O & W & P & _). cbn in O, W, P.
  assert (W3 : nm_w n3 = nm_w n2).
  { inversion S3 as [| | | | | | | |j o g E RW|j o w' g E RT]; subst; rewrite O in E; injection E as <-; cbn; auto. inversion RT. }
  assert (EC : cut num H (mode_of false HMM) (d_freq (pw_d (nm_w n0))) (d_total (pw_d (nm_w n0))) (d_force (pw_d (nm_w n0))) s = gof ws).
  { inversion S4; subst. rewrite <- W, <- W3. try assumption; reflexivity. }
  inversion S3 as [| | | | | | | |j o g E RW|j o w' g E RT]; subst; rewrite O in E; injection E as <-.
  - inversion RW as [|? ? w0 ? PS PW|? ? PN|]; subst; [|congruence]. rewrite P in PS. injection PS as <-.
    cbn [par_words] in PW. apply (C30_parallel_same_words _ _ _ _ _ _ EC) in PW. subst g. reflexivity.
  - inversion RT.
Qed.

(** ... but after [add_word] it does not: 大学生北京 *)
Definition name_w : pworld := mkPW demo [demo_tab].
Definition name_new : nevent := NOp (PTok (OpAddWord new_word None None)).
Theorem C78_lcut_same_refuted :
  ~ (forall (num : Num) (H : hmm num) (T : ptables num) (ord : orders) n0 n1 r1 ev n2 r2 HMM s n3 i n4 r n5 ws,
      nstep num H T ord n0 NEnable n1 r1 ->
      nstep num H T ord n1 ev n2 r2 ->
      nstep num H T ord n2 (NMake (FCut false HMM) false s) n3 (NObj i) ->
      nstep num H T ord n3 (NList i) n4 r ->
      nstep num H T ord n4 (NOp (PTok (OpCut false HMM s))) n5 (NRes (POut (OutWords (gof ws)))) ->
      r = NWords (Ok ws)).
Proof.
  intros A.
  set (w1 := fst (do_pop numE no_hmm demo_T demo_ord name_w (PTok (OpAddWord new_word None None)))).
  assert (E : NWords (Ok [[c_da; c_xue; c_sheng]; [c_bei; c_jing]]) = NWords (Ok [new_word])); [|discriminate E].
  apply (A numE no_hmm demo_T demo_ord (mkNames name_w None false []) (mkNames name_w (Some name_w) true []) NUnit
    name_new (mkNames w1 (Some name_w) true []) (NRes (POut OutUnit)) false new_word
    (mkNames w1 (Some name_w) true [JPar (FCut false false) new_word]) 0
    (mkNames w1 (Some name_w) true [JRest gnil]) _ (mkNames w1 (Some name_w) true [JRest gnil]) [new_word]).
  - apply n_enable.
  - exact (n_op numE no_hmm _ demo_ord (mkNames name_w (Some name_w) true []) (PTok (OpAddWord new_word None None))).
  - exact (n_make numE no_hmm _ demo_ord (mkNames w1 (Some name_w) true []) (FCut false false) false new_word eq_refl).
  - refine (n_list numE no_hmm _ demo_ord (mkNames w1 (Some name_w) true [JPar (FCut false false) new_word]) 0
             (JPar (FCut false false) new_word) (gof [[c_da; c_xue; c_sheng]; [c_bei; c_jing]]) eq_refl _).
    eapply rw_par; [reflexivity|]. cbn [par_words].
    refine (proj2 (C30_parallel_same_words numE no_hmm demo false new_word _ _ _) eq_refl). vm_compute. reflexivity.
  - refine (eq_rect _ (fun x => nstep numE no_hmm _ demo_ord (mkNames w1 (Some name_w) true [JRest gnil])
        (NOp (PTok (OpCut false false new_word))) (mkNames w1 (Some name_w) true [JRest gnil]) (NRes (POut (OutWords x)))) _ _ _);
      [exact (n_op numE no_hmm _ demo_ord (mkNames w1 (Some name_w) true [JRest gnil]) (PTok (OpCut false false new_word)))|].
    vm_compute. reflexivity.
Qed.

(** [posseg.cut] looks at the pool in any case when it is first advanced, so it follows the last
    switch, and does not fail after [disable_parallel]. *)
Theorem C78_tagger_follows_the_last_switch :
  forall (num : Num) (H : hmm num) (T : ptables num) (ord : orders) n2 HMM s n3 i evs3 n4 sw n5 r5 evs5 n6 n7 r,
    nstep num H T ord n2 (NTag HMM s) n3 (NObj i) ->
    nrun num H T ord n3 evs3 n4 -> Forall (untouched i) evs3 ->
    nstep num H T ord n4 sw n5 r5 ->
    nrun num H T ord n5 evs5 n6 -> Forall (untouched i) evs5 -> ~ In NEnable evs5 -> ~ In NDisable evs5 ->
    nstep num H T ord n6 (NList i) n7 r ->
    forall ws,
      (sw = NDisable -> snd (do_pop num H T ord (nm_w n6) (PCut 0 HMM s)) = PWords (gof ws) -> r = NTags (Ok ws)) /\
      (sw = NEnable -> snd (do_pop num H T ord (nm_w n4) (PCut 0 HMM s)) = PWords (gof ws) -> r = NTags (Ok ws)).
Proof.
  intros num H T ord n2 HMM s n3 i evs3 n4 sw n5 r5 evs5 n6 n7 r S2 R2 U2 S3 R3 U3 NE ND S ws.
  destruct (tag_object _ _ _ _ _ _ _ _ _ S2) as (O & _).
  pose proof (run_object _ _ _ _ _ _ _ _ _ R2 U2 O) as O2.
  split; intros -> EW.
  - assert (O3 : nth_error (nm_objs n5) i = Some (TNew HMM s)) by (eapply step_object; eauto; exact I).
    pose proof (run_object _ _ _ _ _ _ _ _ _ R3 U3 O3) as O4.
    assert (P : nm_par n6 = false /\ nm_pool n6 = None) by (eapply run_sequential; eauto; inversion S3; subst; auto).
    destruct P as [_ P].
    inversion S as [| | | | | | | |j o g E RW|j o w' g E RT]; subst; rewrite O4 in E; injection E as <-; [inversion RW|].
    inversion RT as [? ? ? ? PN DP|? ? w0 ? PS PC|]; subst; [|congruence]. rewrite DP in EW. cbn in EW. injection EW as ->. reflexivity.
  - assert (O3 : nth_error (nm_objs n5) i = Some (TNew HMM s)) by (eapply step_object; eauto; exact I).
    pose proof (run_object _ _ _ _ _ _ _ _ _ R3 U3 O3) as O4.
    assert (P : nm_par n6 = true /\ nm_pool n6 = Some (nm_w n4)) by (eapply run_parallel; eauto; inversion S3; subst; auto).
    destruct P as [_ P].
    inversion S as [| | | | | | | |j o g E RW|j o w' g E RT]; subst; rewrite O4 in E; injection E as <-; [inversion RW|].
    inversion RT as [? ? ? ? PN DP|? ? w0 ? PS PC|]; subst; [congruence|]. rewrite P in PS. injection PS as <-.
    apply (C61_parallel_same_tags num H T ord (nm_w n4) HMM s ws EW) in PC. subst g. reflexivity.
Qed.

(** In parallel mode the argument [use_paddle] is refused. *)
Theorem C78_use_paddle_argument :
  forall (num : Num) (H : hmm num) (T : ptables num) (ord : orders) n0 sw n1 r1 evs n2 cut_all HMM s n3 r,
    nstep num H T ord n0 sw n1 r1 -> nrun num H T ord n1 evs n2 -> ~ In NEnable evs -> ~ In NDisable evs ->
    nstep num H T ord n2 (NMake (FCut cut_all HMM) true s) n3 r ->
    (sw = NEnable -> r = NExn TypeError /\ n3 = n2) /\
    (sw = NDisable -> exists i, r = NObj i).
Proof.
  intros num H T ord n0 sw n1 r1 evs n2 cut_all HMM s n3 r S1 R1 NE ND S.
  split; intros ->.
  - assert (M : nm_par n2 = true /\ nm_pool n2 = Some (nm_w n0)) by (eapply run_parallel; eauto; inversion S1; subst; auto).
    inversion S as [| | |f p t TP|f p t TP| | | | |]; subst; rewrite (proj1 M) in TP; cbn in TP; [discriminate|auto].
  - assert (M : nm_par n2 = false /\ nm_pool n2 = None) by (eapply run_sequential; eauto; inversion S1; subst; auto).
    inversion S as [| | |f p t TP|f p t TP| | | | |]; subst; rewrite (proj1 M) in TP; cbn in TP; [eauto|discriminate].
Qed.

(** A history with all of it: 来到北京 is asked for in parallel mode twice; one generator is
    advanced, then parallel mode is switched off. *)
Definition name_s : str := [c_lai; c_dao; c_bei; c_jing].
Definition name_f : jfun := FCut false false.
Definition name_n (pool : option pworld) (par : bool) (os : list gobj) : names := mkNames name_w pool par os.
Example C78_nonvacuous :
  let st := nstep numE no_hmm demo_T demo_ord in
  let ws := [[c_lai; c_dao]; [c_bei; c_jing]] in
  cut numE no_hmm (mode_of false false) (d_freq demo) (d_total demo) (d_force demo) name_s = gof ws /\
  st (name_n None false []) NEnable (name_n (Some name_w) true []) NUnit /\
  st (name_n (Some name_w) true []) (NMake name_f false name_s) (name_n (Some name_w) true [JPar name_f name_s]) (NObj 0) /\
  st (name_n (Some name_w) true [JPar name_f name_s]) (NMake name_f false name_s)
     (name_n (Some name_w) true [JPar name_f name_s; JPar name_f name_s]) (NObj 1) /\
  st (name_n (Some name_w) true [JPar name_f name_s; JPar name_f name_s]) (NNext 0)
     (name_n (Some name_w) true [JRest (gof [[c_bei; c_jing]]); JPar name_f name_s]) (NWord [c_lai; c_dao]) /\
  st (name_n (Some name_w) true [JRest (gof [[c_bei; c_jing]]); JPar name_f name_s]) NDisable
     (name_n None false [JRest (gof [[c_bei; c_jing]]); JPar name_f name_s]) NUnit /\
  st (name_n None false [JRest (gof [[c_bei; c_jing]]); JPar name_f name_s]) (NList 0)
     (name_n None false [JRest gnil; JPar name_f name_s]) (NWords (Ok [[c_bei; c_jing]])) /\
  st (name_n None false [JRest gnil; JPar name_f name_s]) (NNext 1)
     (name_n None false [JRest gnil; JRest gnil]) (NExn AttributeError).
Proof.
  cbv zeta. split; [vm_compute; reflexivity|]. split; [apply n_enable|].
  split; [exact (n_make numE no_hmm _ demo_ord (name_n (Some name_w) true []) name_f false name_s eq_refl)|].
  split; [exact (n_make numE no_hmm _ demo_ord (name_n (Some name_w) true [JPar name_f name_s]) name_f false name_s eq_refl)|].
  split.
  { refine (n_next numE no_hmm _ demo_ord (name_n (Some name_w) true [JPar name_f name_s; JPar name_f name_s]) 0
             (JPar name_f name_s) (gof [[c_lai; c_dao]; [c_bei; c_jing]]) eq_refl eq_refl _).
    eapply rw_par; [reflexivity|]. cbn [par_words name_f].
    refine (proj2 (C30_parallel_same_words numE no_hmm demo false name_s _ _ _) eq_refl). vm_compute. reflexivity. }
  split; [apply n_disable|]. split.
  - exact (n_list numE no_hmm _ demo_ord (name_n None false [JRest (gof [[c_bei; c_jing]]); JPar name_f name_s]) 0 _ _ eq_refl
             (rw_rest _ _ _ _ (gof [[c_bei; c_jing]]))).
  - exact (n_next numE no_hmm _ demo_ord (name_n None false [JRest gnil; JPar name_f name_s]) 1 (JPar name_f name_s) _ eq_refl eq_refl
             (rw_par_none _ _ _ _ name_f name_s eq_refl)).
Qed.

Print Assumptions C78_sequential_after_disable.
Print Assumptions C78_parallel_generator_after_disable.
Print Assumptions C78_last_workers.
Print Assumptions C78_started_generator_is_fixed.
Print Assumptions C78_used_up.
Print Assumptions C78_lcut_same_at_once.
Print Assumptions C78_lcut_same_refuted.
Print Assumptions C78_tagger_follows_the_last_switch.
Print Assumptions C78_use_paddle_argument.
