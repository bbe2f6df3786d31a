(** * Tagging in parallel mode (C61) *)
From Coq Require Import Lia.
From Verif Require Import PyBase PyRegex PyNum ModelFinalseg ModelSeg ModelDict ModelApi ModelParallel ModelPosseg
  ModelPosParallel SpecBase SpecSeg SpecPosseg SpecTagging Demo ProofsBase ProofsRegex ProofsSplit ProofsLocal
  ProofsPosseg ProofsPosTags ProofsPosLocal DataPossegOk PropsParallel DemoPos PropsPosseg.

Lemma Forall2_impl {A B} (P Q : A -> B -> Prop) l m :
  (forall a b, P a b -> Q a b) -> Forall2 P l m -> Forall2 Q l m.
Proof. intros I. induction 1; constructor; auto. Qed.

Section P.
  Variable num : Num.
  Variable H : hmm num.
  Variable T : ptables num.
  Variable ord : orders.

  (** a worker's copy: as forked, or with the user tags taken over *)
  Lemma worker_state w0 os : 0 < length (pw_tabs w0) -> forallb is_cut0 os = true ->
    do_pops num H T ord w0 os = w0 \/ do_pops num H T ord w0 os = makesure_userdict_loaded w0 0.
  Proof.
    intros L. induction os as [|o os IH] using rev_ind; intros A; [left; reflexivity|].
    rewrite forallb_app in A. apply andb_true_iff in A. destruct A as [A1 A2]. right.
    unfold do_pops in *. rewrite fold_left_app. cbn [fold_left].
    destruct o as [o|j h s|]; try discriminate A2. destruct j; [|discriminate A2].
    destruct (IH A1) as [->| ->].
    - apply pop_cut_world; auto.
    - rewrite pop_cut_world by (rewrite makesure_length; auto). apply makesure_twice.
  Qed.

  (** the lines of a text, tagged one after the other *)
  Lemma lines_tagged HMM tab fr total s :
    gfor (splitlines_keep s) (ps_cut T ord HMM tab fr total) = ps_cut T ord HMM tab fr total s.
  Proof.
    apply lines_gfor; [reflexivity|]. intros u v (N & u0 & c & E & B). apply ps_cut_local. split; [exact N|].
    left. exists u0, c. split; [exact E|]. apply linebreak_class in B. destruct B as [_ B].
    destruct (pos_word_char c) eqn:P; auto. rewrite <- B. symmetry.
    revert P. unfold pos_word_char, word_char, alnum_char. cbn [existsb].
    rewrite !Bool.orb_true_iff. tauto.
  Qed.

  (** the pool gives exactly the sequential result *)
  Lemma worker_same w0 HMM part r : 0 < length (pw_tabs w0) ->
    (worker num H T ord w0 HMM part r <->
     r = g_list (ps_cut T ord HMM (nth 0 (pw_tabs (makesure_userdict_loaded w0 0)) [])
                        (d_freq (pw_d w0)) (d_total (pw_d w0)) part)).
  Proof.
    intros L.
    assert (FD : d_freq (pw_d (makesure_userdict_loaded w0 0)) = d_freq (pw_d w0) /\
                 d_total (pw_d (makesure_userdict_loaded w0 0)) = d_total (pw_d w0)).
    { unfold makesure_userdict_loaded. destruct (nth_error (pw_tabs w0) 0); auto. destruct (d_tags (pw_d w0)); auto. }
    split.
    - intros (os & g & A & E & ->). destruct (worker_state w0 os L A) as [S|S]; rewrite S in E.
      + rewrite pop_cut in E by auto. injection E as <-. reflexivity.
      + rewrite pop_cut in E by (rewrite makesure_length; auto). rewrite makesure_twice in E.
        destruct FD as [F1 F2]. rewrite F1, F2 in E. injection E as <-. reflexivity.
    - intros ->. exists [], (ps_cut T ord HMM (nth 0 (pw_tabs (makesure_userdict_loaded w0 0)) [])
                        (d_freq (pw_d w0)) (d_total (pw_d w0)) part).
      split; [reflexivity|]. split; [|reflexivity]. unfold do_pops. cbn [fold_left]. apply pop_cut. auto.
  Qed.

  Lemma ppos_pool w0 HMM s r : 0 < length (pw_tabs w0) ->
    let f := ps_cut T ord HMM (nth 0 (pw_tabs (makesure_userdict_loaded w0 0)) []) (d_freq (pw_d w0)) (d_total (pw_d w0)) in
    (pool_any (worker num H T ord w0 HMM) (splitlines_keep s) r <->
     pool_map (fun p => g_list (f p)) (splitlines_keep s) r).
  Proof.
    intros L f. split.
    - intros [(rs & -> & F)|(p & e & -> & I & W)].
      + left. exists rs. split; auto. eapply Forall2_impl; [|exact F]. intros p x W. apply (worker_same w0 HMM p _ L) in W. symmetry. exact W.
      + right. exists p, e. split; auto. split; auto. apply (worker_same w0 HMM p _ L) in W. symmetry. exact W.
    - intros [(rs & -> & F)|(p & e & -> & I & W)].
      + left. exists rs. split; auto. eapply Forall2_impl; [|exact F]. intros p x W. apply (worker_same w0 HMM p _ L). symmetry. exact W.
      + right. exists p, e. split; auto. split; auto. apply (worker_same w0 HMM p _ L). symmetry. exact W.
  Qed.
End P.

(** ** C61 *)

(** With workers forked from the present state, the parallel tagger has exactly one
    possible result if the sequential one does not raise: the same tagged words. *)
Theorem C61_parallel_same_tags :
  forall (num : Num) (H : hmm num) (T : ptables num) (ord : orders) (w : pworld) (HMM : bool) (s : str) (ws : list tagged),
    snd (do_pop num H T ord w (PCut 0 HMM s)) = PWords (gof ws) ->
    forall g, ppos_cut num H T ord w HMM s g <-> g = gof ws.
Proof.
  intros num H T ord w HMM s ws E.
  assert (L : 0 < length (pw_tabs w)).
  { cbn [do_pop] in E. destruct (nth_error (pw_tabs w) 0) eqn:N; [|discriminate].
    apply nth_error_Some. congruence. }
  rewrite pop_cut in E by auto. injection E as E.
  set (f := ps_cut T ord HMM (nth 0 (pw_tabs (makesure_userdict_loaded w 0)) []) (d_freq (pw_d w)) (d_total (pw_d w))).
  assert (G : gfor (splitlines_keep s) f = gof ws) by (unfold f; rewrite lines_tagged; exact E).
  intros g. rewrite <- (pool_one f (splitlines_keep s) ws G g). unfold ppos_cut.
  split; intros (r & P & ->); exists r; split; auto; apply (ppos_pool num H T ord w HMM s r L); exact P.
Qed.

(** with the shipped tables it never raises *)
Theorem C61_parallel_total :
  forall (num : Num) (NI : NumInf num) (H : hmm num) (v : pvalues num) (ord : orders) (w : pworld) (HMM : bool) (s : str),
    values_ok NI v -> fair_order ord -> sane (sget (d_freq (pw_d w))) (d_total (pw_d w)) ->
    i_lim NI (2 * length s) -> 0 < length (pw_tabs w) ->
    exists ws, concat (map fst ws) = s /\
      forall g, ppos_cut num H (shipped num v) ord w HMM s g <-> g = gof ws.
Proof.
  intros num NI H v ord w HMM s V FO SA LIM L.
  destruct (C33_shipped_tables num NI v ord HMM (nth 0 (pw_tabs (makesure_userdict_loaded w 0)) [])
             (d_freq (pw_d w)) (d_total (pw_d w)) s V FO SA LIM) as (ws & E & C & _).
  exists ws. split; [exact C|]. apply C61_parallel_same_tags. rewrite pop_cut by auto. rewrite E. reflexivity.
Qed.

(** Between [enable_parallel] and the next [enable_parallel] or [disable_parallel] the
    tagged words are those of the state at [enable_parallel], whatever is added to the
    dictionaries in between. *)
Theorem C61_workers_keep_tags :
  forall (num : Num) (H : hmm num) (T : ptables num) (ord : orders) (m m1 m2 : pmodule) (evs : list pmevent)
         (HMM : bool) (s : str) (ws : list tagged) (r : pout),
    pmrun num H T ord m (PmEnable :: evs) m1 ->
    ~ In PmEnable evs -> ~ In PmDisable evs ->
    snd (do_pop num H T ord (pm_w m) (PCut 0 HMM s)) = PWords (gof ws) ->
    pmstep num H T ord m1 (PmCut HMM s) m2 r -> r = PWords (gof ws).
Proof.
  intros num H T ord m m1 m2 evs HMM s ws r R NE ND E ST.
  inversion R as [|ev evs' m0 m3 r0 S0 R0]; subst. inversion S0; subst. clear R S0.
  assert (PM : forall evs m m1, pmrun num H T ord m evs m1 -> ~ In PmEnable evs -> ~ In PmDisable evs ->
               pm_pool m <> None -> pm_pool m1 = pm_pool m).
  { clear. induction 1 as [|m ev evs m1 m2 r S R IH]; intros A B C; auto.
    assert (PE : pm_pool m1 = pm_pool m).
    { inversion S; subst; simpl; auto; simpl in A, B; try tauto; congruence. }
    rewrite IH; auto; simpl in A, B; try tauto. congruence. }
  pose proof (PM _ _ _ R0 NE ND) as PP. cbn [pm_pool] in PP. specialize (PP ltac:(discriminate)).
  inversion ST as [| | |? ? PN|? ? w0 g PS PC]; subst; [congruence|].
  rewrite PP in PS. injection PS as <-. f_equal. apply (C61_parallel_same_tags num H T ord (pm_w m) HMM s ws E). exact PC.
Qed.

(** so a tag given after [enable_parallel] is not honoured *)
Definition late_w : pworld := mkPW bj_d [demo_tab].
Definition late_op : op := OpAddWord [c_bei; c_jing] None (Some s_n).
Definition late_m : pmodule :=
  mkPM (fst (do_pop numE no_hmm demo_T demo_ord late_w (PTok late_op))) (Some late_w).

Lemma late_run num H T ord w o :
  pmrun num H T ord (mkPM w None) [PmEnable; PmCall o] (mkPM (fst (do_pop num H T ord w o)) (Some w)).
Proof. econstructor; [apply pm_enable|]. econstructor; [apply pm_call|]. apply pmrun_nil. Qed.

Theorem C61_later_tag_refuted :
  pmrun numE no_hmm demo_T demo_ord (mkPM late_w None) [PmEnable; PmCall (PTok late_op)] late_m /\
  snd (do_pop numE no_hmm demo_T demo_ord (pm_w late_m) (PCut 0 false [c_bei; c_jing])) =
    PWords (gof [([c_bei; c_jing], s_n)]) /\
  forall m2 r, pmstep numE no_hmm demo_T demo_ord late_m (PmCut false [c_bei; c_jing]) m2 r ->
               r = PWords (gof [([c_bei; c_jing], s_ns)]).
Proof.
  split; [apply late_run|]. split; [vm_compute; reflexivity|]. intros m2 r ST.
  apply (C61_workers_keep_tags numE no_hmm demo_T demo_ord (mkPM late_w None) late_m m2
           [PmCall (PTok late_op)] false [c_bei; c_jing] _ r (late_run _ _ _ _ _ _)).
  - simpl. intuition discriminate.
  - simpl. intuition discriminate.
  - vm_compute. reflexivity.
  - exact ST.
Qed.

(** two lines *)
Example C61_nonvacuous :
  let s := [c_bei; c_jing; 13; 10; c_da; c_xue]%N in
  splitlines_keep s = [[c_bei; c_jing; 13; 10]; [c_da; c_xue]]%N /\
  snd (do_pop numE no_hmm demo_T demo_ord (mkPW bj_d [demo_tab]) (PCut 0 true s)) =
    PWords (gof [([c_bei; c_jing], s_ns); ([13; 10], [120]); ([c_da; c_xue], s_n)]%N).
Proof. split; vm_compute; reflexivity. Qed.
Print Assumptions C61_parallel_same_tags.
Print Assumptions C61_parallel_total.
Print Assumptions C61_workers_keep_tags.
Print Assumptions C61_later_tag_refuted.
