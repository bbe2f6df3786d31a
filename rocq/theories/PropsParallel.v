(** * Parallel mode (C30-C32) *)
From Coq Require Import Lia.
From Verif Require Import PyBase PyRegex PyNum InstQ ModelFinalseg ModelSeg ModelDict ModelApi ModelParallel
  SpecBase SpecSeg Demo ProofsBase ProofsRegex ProofsSplit ProofsSeg ProofsSearch ProofsLocal ProofsDemo.

(** ** Line boundaries *)

(** the end of a line: after a line break, not inside CR LF *)
Definition line_end (u v : str) : Prop :=
  not_in_crlf u v /\ exists u0 c, u = u0 ++ [c] /\ is_linebreak c = true.

Lemma linebreak_class c : is_linebreak c = true -> is_space c = true /\ word_char c = false.
Proof.
  unfold is_linebreak, is_space, word_char, han_char, in_range. cbn [existsb]. intros E.
  repeat rewrite Bool.orb_true_iff in *. rewrite !Bool.andb_true_iff, !N.leb_le, !N.eqb_eq in *. split.
  - lia.
  - repeat rewrite Bool.orb_false_iff. rewrite !Bool.andb_false_iff, !N.leb_gt, !N.eqb_neq. lia.
Qed.

Lemma lines_step s : forall acc,
  match splitlines_keep_from acc s with
  | [] => acc = [] /\ s = []
  | l :: ls => exists s', rev acc ++ s = l ++ s' /\ ls = splitlines_keep s' /\ length s' <= length s /\
                          (s <> [] -> length s' < length s) /\ (s' = [] \/ line_end l s')
  end.
Proof.
  assert (LE : forall acc c s', is_linebreak c = true -> c <> 13%N -> line_end (rev (c :: acc)) s').
  { intros acc c s' B N. split.
    - intros (x & y & E & _). simpl in E. apply app_inj_tail in E. destruct E as [_ E]. congruence.
    - exists (rev acc), c. auto. }
  induction s as [|c s IH]; intros acc.
  - simpl. destruct acc as [|a acc]; [auto|]. exists []. rewrite app_nil_r. simpl. repeat split; auto. now intros [].
  - cbn [splitlines_keep_from]. destruct (c =? 13)%N eqn:E13.
    + apply N.eqb_eq in E13. subst c. destruct s as [|d s].
      * exists []. simpl. rewrite app_nil_r. repeat split; auto; lia.
      * destruct (d =? 10)%N eqn:E10.
        -- apply N.eqb_eq in E10. subst d. exists s. simpl rev. rewrite <- !app_assoc. simpl. repeat split; auto; try lia.
           right. change [13; 10]%N with ([13] ++ [10])%N. rewrite app_assoc. split.
           ++ intros (x & y & E & _). apply app_inj_tail in E. destruct E as [_ E]. discriminate.
           ++ exists (rev acc ++ [13%N]), 10%N. auto.
        -- exists (d :: s). simpl rev. rewrite <- app_assoc. simpl. repeat split; auto; try lia.
           right. split.
           ++ intros (x & y & _ & E). injection E as E _. apply N.eqb_neq in E10. congruence.
           ++ exists (rev acc), 13%N. auto.
    + destruct (is_linebreak c) eqn:B.
      * exists s. simpl rev. rewrite <- app_assoc. simpl. repeat split; auto; try lia.
        right. apply LE; auto. now apply N.eqb_neq.
      * specialize (IH (c :: acc)). destruct (splitlines_keep_from (c :: acc) s) as [|l ls]; [destruct IH; discriminate|].
        destruct IH as (s' & E1 & E2 & E3 & E4 & E5). exists s'. simpl in E1. rewrite <- app_assoc in E1. simpl in E1.
        repeat split; auto; simpl; lia.
Qed.

(** what distributes over ends of lines distributes over splitlines(True) *)
Lemma lines_gfor {B} (f : str -> gen B) :
  f [] = gnil -> (forall u v, line_end u v -> f (u ++ v) = gapp (f u) (f v)) ->
  forall s, gfor (splitlines_keep s) f = f s.
Proof.
  intros F0 FA s. remember (length s) as n eqn:En. assert (L : length s <= n) by lia. clear En. revert s L.
  induction n as [|n IH]; intros s L.
  - destruct s; [|simpl in L; lia]. symmetry. exact F0.
  - pose proof (lines_step s []) as LS. unfold splitlines_keep. destruct (splitlines_keep_from [] s) as [|l ls].
    + destruct LS as [_ ->]. symmetry. exact F0.
    + destruct LS as (s' & E1 & -> & E3 & E4 & E5). simpl in E1. subst s. cbn [gfor].
      assert (LL : length s' <= n).
      { destruct (l ++ s') eqn:E.
        - destruct l; [simpl in E; subst; simpl; lia|discriminate].
        - specialize (E4 ltac:(discriminate)). simpl in *. lia. }
      rewrite IH by exact LL. destruct E5 as [->|E5].
      * rewrite app_nil_r, F0. apply gapp_nil_r.
      * symmetry. now apply FA.
Qed.

Lemma line_end_boundary u v : line_end u v -> boundary u v.
Proof.
  intros (N & u0 & c & E & B). split; [exact N|]. left. exists u0, c. split; [exact E|]. now apply linebreak_class.
Qed.

Section P.
  Variable num : Num.
  Variable H : hmm num.

  (** the result of the parallel function from the results for the lines *)
  Lemma pool_ok {B} (f : str -> gen B) parts r :
    pool_map (fun p => g_list (f p)) parts r ->
    match snd (gfor parts f) with
    | None => r = Ok (map (fun p => fst (f p)) parts) /\ concat (map (fun p => fst (f p)) parts) = fst (gfor parts f)
    | Some _ => exists e, r = Err e
    end.
  Proof.
    assert (OK : forall parts rs, Forall2 (fun p x => g_list (f p) = Ok x) parts rs ->
               rs = map (fun p => fst (f p)) parts /\ gfor parts f = gof (concat rs)).
    { induction 1 as [|p x parts' rs E F [-> IH]]; [split; reflexivity|].
      unfold g_list in E. destruct (f p) as [w [e|]] eqn:EP; simpl in E; [discriminate|]. injection E as <-. simpl.
      rewrite EP, IH. split; reflexivity. }
    intros [(rs & -> & F)|(p & e & -> & I & E)].
    - destruct (OK _ _ F) as [-> G]. rewrite G. simpl. auto.
    - destruct (snd (gfor parts f)) eqn:G; [eauto|]. exfalso. revert G I.
      induction parts as [|q parts IH]; simpl; [tauto|]. unfold gapp. destruct (snd (f q)) eqn:Q; [congruence|].
      simpl. intros G [->|I]; [unfold g_list in E; rewrite Q in E; discriminate|]. auto.
  Qed.

  Lemma pool_exists {B} (f : str -> gen B) parts : exists r, pool_map (fun p => g_list (f p)) parts r.
  Proof.
    destruct (snd (gfor parts f)) as [e|] eqn:E.
    - assert (G : exists p e', In p parts /\ g_list (f p) = Err e').
      { clear -E. revert e E. induction parts as [|p parts IH]; intros e E; [discriminate|]. simpl in E. unfold gapp in E.
        destruct (snd (f p)) as [e'|] eqn:P.
        - exists p, e'. split; [left; auto|]. unfold g_list. now rewrite P.
        - simpl in E. destruct (IH e E) as (q & e' & I & Q). exists q, e'. split; [right; auto|auto]. }
      destruct G as (p & e' & I & P). exists (Err e'). right. eauto.
    - exists (Ok (map (fun p => fst (f p)) parts)). left. eexists. split; [reflexivity|].
      clear -E. induction parts as [|p parts IH]; [constructor|]. simpl in E. unfold gapp in E.
      destruct (snd (f p)) eqn:P; [congruence|]. constructor; [unfold g_list; now rewrite P|]. auto.
  Qed.

  Lemma pool_one {B} (f : str -> gen B) parts ws : gfor parts f = gof ws ->
    forall g, (exists r, pool_map (fun p => g_list (f p)) parts r /\ g = give_out r) <-> g = gof ws.
  Proof.
    intros E.
    assert (ON : forall r, pool_map (fun p => g_list (f p)) parts r -> give_out r = gof ws).
    { intros r P. apply pool_ok in P. rewrite E in P. simpl in P. destruct P as [-> P]. simpl. now rewrite P. }
    intros g. split.
    - intros (r & P & ->). now apply ON.
    - intros ->. destruct (pool_exists f parts) as [r P]. exists r. split; [exact P|]. symmetry. now apply ON.
  Qed.

  Lemma pool_raises {B} (f : str -> gen B) parts e : snd (gfor parts f) = Some e ->
    forall g, (exists r, pool_map (fun p => g_list (f p)) parts r /\ g = give_out r) -> exists e', g = gerr e'.
  Proof.
    intros E g (r & P & ->). apply pool_ok in P. rewrite E in P. destruct P as [e' ->]. exists e'. reflexivity.
  Qed.

  Lemma lines_cut m fr total force s : is_full m = false ->
    gfor (splitlines_keep s) (cut num H m fr total force) = cut num H m fr total force s.
  Proof.
    intros M. apply lines_gfor; [reflexivity|]. intros u v L. apply cut_local; [exact M|].
    now apply line_end_boundary.
  Qed.

  Lemma gbind_gapp_gof {A B} (g h : gen A) (f : A -> list B) :
    gbind (gapp g h) (fun x => gof (f x)) = gapp (gbind g (fun x => gof (f x))) (gbind h (fun x => gof (f x))).
  Proof.
    assert (G : forall l, gfor l (fun x => gof (f x)) = gof (flat_map f l)).
    { induction l as [|x l IH]; [reflexivity|]. simpl. rewrite IH. reflexivity. }
    unfold gbind, gapp. rewrite !G. destruct g as [lg [e|]], h as [lh eh]; simpl; rewrite ?G; simpl;
      rewrite ?flat_map_app, ?app_nil_r; reflexivity.
  Qed.

  Lemma lines_search hmm fr total force s :
    gfor (splitlines_keep s) (cut_for_search num H hmm fr total force) = cut_for_search num H hmm fr total force s.
  Proof.
    apply lines_gfor; [reflexivity|]. intros u v L. unfold cut_for_search.
    rewrite cut_local; [|now destruct hmm|now apply line_end_boundary]. apply gbind_gapp_gof.
  Qed.
End P.

(** ** C30 *)

(** In accurate mode the parallel function has exactly one possible result if the
    sequential one does not raise: the same words. *)
Theorem C30_parallel_same_words :
  forall num (H : hmm num) (d : dstate) (HMM : bool) (s : str) (ws : list str),
    cut num H (mode_of false HMM) (d_freq d) (d_total d) (d_force d) s = gof ws ->
    forall g, pcut num H d false HMM s g <-> g = gof ws.
Proof.
  intros num H d HMM s ws E.
  apply (pool_one (cut num H (mode_of false HMM) (d_freq d) (d_total d) (d_force d)) (splitlines_keep s)).
  rewrite lines_cut; [exact E|now destruct HMM].
Qed.
Print Assumptions C30_parallel_same_words.

(** If the sequential function raises, so does the parallel one, before any word. *)
Theorem C30_parallel_raises :
  forall num (H : hmm num) (d : dstate) (HMM : bool) (s : str) (e : exn),
    snd (cut num H (mode_of false HMM) (d_freq d) (d_total d) (d_force d) s) = Some e ->
    forall g, pcut num H d false HMM s g -> exists e', g = gerr e'.
Proof.
  intros num H d HMM s e E.
  apply (pool_raises (cut num H (mode_of false HMM) (d_freq d) (d_total d) (d_force d)) (splitlines_keep s) e).
  rewrite lines_cut; [exact E|now destruct HMM].
Qed.
Print Assumptions C30_parallel_raises.

(** The same for search mode. *)
Theorem C30_parallel_search :
  forall num (H : hmm num) (d : dstate) (HMM : bool) (s : str) (ws : list str),
    cut_for_search num H HMM (d_freq d) (d_total d) (d_force d) s = gof ws ->
    forall g, pcut_for_search num H d HMM s g <-> g = gof ws.
Proof.
  intros num H d HMM s ws E.
  apply (pool_one (cut_for_search num H HMM (d_freq d) (d_total d) (d_force d)) (splitlines_keep s)).
  now rewrite lines_search.
Qed.
Print Assumptions C30_parallel_search.

(** With a positive total and no negative frequency nothing raises. *)
Theorem C30_parallel_total :
  forall num (H : hmm num) (d : dstate) (HMM : bool) (s : str),
    sane (sget (d_freq d)) (d_total d) ->
    forall g, pcut num H d false HMM s g <->
              g = cut num H (mode_of false HMM) (d_freq d) (d_total d) (d_force d) s.
Proof.
  intros num H d HMM s SA g.
  destruct (@cut_lossless num H (mode_of false HMM) (d_freq d) (d_total d) (d_force d) s) as [ws [E _]];
    [now destruct HMM|exact SA|]. rewrite E. now apply C30_parallel_same_words.
Qed.
Print Assumptions C30_parallel_total.

(** lines ending in CR LF, CR, LF and U+2028, and an empty line *)
Definition demo_lines : str :=
  demo_text ++ [13; 10; 13]%N ++ demo_text ++ [10]%N ++ [c_bei; 0x2028; c_jing]%N.
Example C30_nonvacuous :
  length (splitlines_keep demo_lines) = 7 /\
  sane (sget (d_freq demo)) (d_total demo) /\
  exists ws, cut numQ demo_hmm WithHMM demo_fr demo_total [] demo_lines = gof ws /\ 10 < length ws.
Proof.
  split; [vm_compute; reflexivity|]. split; [apply saneb_ok; vm_compute; reflexivity|].
  eexists. split; [vm_compute; reflexivity|]. simpl. lia.
Qed.

(** ** C31 *)

(** In full mode the results agree up to empty strings; nothing raises. *)
Theorem C31_full_up_to_empty :
  forall num (H : hmm num) (d : dstate) (HMM : bool) (s : str) (g : gen str),
    let full := cut num H (mode_of true HMM) (d_freq d) (d_total d) (d_force d) s in
    pcut num H d true HMM s g ->
    snd g = None /\ snd full = None /\
    filter (fun w => negb (str_eqb w [])) (fst g) = filter (fun w => negb (str_eqb w [])) (fst full).
Proof.
  intros num H d HMM s g full (r & P & ->). subst full. cbn [mode_of].
  assert (NE : forall l, filter (fun w => negb (str_eqb w [])) l = filter nonempty l).
  { induction l as [|w l IH]; [reflexivity|]. simpl. rewrite IH. destruct w; reflexivity. }
  set (f := cut num H Full (d_freq d) (d_total d) (d_force d)) in *.
  assert (EX : forall t, exists ps, f t = gof ps /\ filter nonempty ps = full_nonempty (d_freq d) t)
    by (intros t; apply cut_full_nonempty).
  assert (L : gfor (splitlines_keep s) (fun t => gof (full_nonempty (d_freq d) t)) = gof (full_nonempty (d_freq d) s)).
  { apply (lines_gfor (fun t => gof (full_nonempty (d_freq d) t))); [reflexivity|].
    intros u v (N & u0 & c & E & B). rewrite full_nonempty_local; [reflexivity|exact N|].
    exists u0, c. apply linebreak_class in B. tauto. }
  assert (G : forall parts, exists ps, gfor parts f = gof ps /\
               gfor parts (fun t => gof (full_nonempty (d_freq d) t)) = gof (filter nonempty ps)).
  { induction parts as [|p parts [ps [E1 E2]]]; [exists []; split; reflexivity|]. simpl.
    destruct (EX p) as [qs [Q1 Q2]]. rewrite Q1, E1, E2, <- Q2. exists (qs ++ ps). rewrite filter_app.
    split; reflexivity. }
  destruct (G (splitlines_keep s)) as [ps [G1 G2]]. destruct (EX s) as [qs [Q1 Q2]].
  unfold w_lcut in P. cbn [mode_of] in P. fold f in P. apply (pool_ok f) in P. rewrite G1 in P. simpl in P.
  destruct P as [-> P]. rewrite Q1. cbn [give_out fst snd gof]. split; [reflexivity|]. split; [reflexivity|].
  rewrite !NE, P, Q2. rewrite L in G2. injection G2 as G2. symmetry. exact G2.
Qed.
Print Assumptions C31_full_up_to_empty.

(** Exact equality is false: "，\n，" *)
Theorem C31_equality_refuted :
  exists num (H : hmm num) d s g,
    sane (sget (d_freq d)) (d_total d) /\
    pcut num H d true false s g /\ g <> cut num H (mode_of true false) (d_freq d) (d_total d) (d_force d) s.
Proof.
  exists numQ, demo_hmm, demo, [c_comma; 10; c_comma]%N.
  destruct (pool_exists (cut numQ demo_hmm (mode_of true false) (d_freq demo) (d_total demo) (d_force demo))
              (splitlines_keep [c_comma; 10; c_comma]%N)) as [r P].
  exists (give_out r). split; [apply saneb_ok; vm_compute; reflexivity|].
  split; [exists r; split; [exact P|reflexivity]|].
  apply pool_ok in P. vm_compute in P. destruct P as [-> _]. vm_compute. discriminate.
Qed.
Print Assumptions C31_equality_refuted.

Example C31_nonvacuous :
  exists g, pcut numQ demo_hmm demo true true demo_lines g /\ 10 < length (fst g).
Proof.
  destruct (pool_exists (cut numQ demo_hmm (mode_of true true) (d_freq demo) (d_total demo) (d_force demo))
              (splitlines_keep demo_lines)) as [r P].
  exists (give_out r). split; [exists r; split; [exact P|reflexivity]|].
  apply pool_ok in P. vm_compute in P. destruct P as [-> _]. vm_compute. lia.
Qed.

(** ** C32 *)

Definition enables (ev : pevent) : bool := match ev with PEnable | PDisable => true | _ => false end.

(** After enable_parallel(), whatever is then done to the dictionary, jieba.cut and
    jieba.cut_for_search give what they would have given at once. *)
Theorem C32_workers_keep_dictionary :
  forall num (H : hmm num) nt md0 md1 evs md2 r0,
    pstep num H nt md0 PEnable md1 r0 -> nt = false ->
    prun num H nt md1 evs md2 -> forallb (fun ev => negb (enables ev)) evs = true ->
    forall ev r, match ev with PCut _ _ _ | PSearch _ _ => True | _ => False end ->
      ((exists md3, pstep num H nt md2 ev md3 r) <-> (exists md3, pstep num H nt md1 ev md3 r)).
Proof.
  intros num H nt md0 md1 evs md2 r0 E NT R. 
  assert (K : md_parallel md1 = true /\ md_pool md1 = Some (md_dt md0)).
  { inversion E; subst; [split; reflexivity|congruence]. }
  clear E. intros F.
  assert (K2 : md_parallel md2 = true /\ md_pool md2 = Some (md_dt md0)).
  { induction R as [|md ev evs md' md'' r S R IH]; [exact K|]. simpl in F. apply andb_prop in F. destruct F as [F1 F2].
    apply IH; [|exact F2]. destruct S; try discriminate; exact K. }
  assert (SY : forall a b, md_parallel a = true /\ md_pool a = Some (md_dt md0) ->
             md_parallel b = true /\ md_pool b = Some (md_dt md0) ->
             forall ev r, match ev with PCut _ _ _ | PSearch _ _ => True | _ => False end ->
             (exists md3, pstep num H nt a ev md3 r) -> exists md3, pstep num H nt b ev md3 r).
  { intros a b [A1 A2] [B1 B2] ev r EV [md3 S]. destruct S; try tauto; try congruence.
    - exists b. eapply ps_pcut; [exact B1|exact B2|]. congruence.
    - exists b. eapply ps_psearch; [exact B1|exact B2|]. congruence. }
  intros ev r EV. split; apply SY; auto.
Qed.
Print Assumptions C32_workers_keep_dictionary.

(** Enabling it again takes over the changes. *)
Theorem C32_enable_again :
  forall num (H : hmm num) nt md0 md1 r0 cut_all hmm s md2 r,
    pstep num H nt md0 PEnable md1 r0 -> nt = false ->
    pstep num H nt md1 (PCut cut_all hmm s) md2 r ->
    exists g, r = OutWords g /\ pcut num H (md_dt md0) cut_all hmm s g.
Proof.
  intros num H nt md0 md1 r0 cut_all hmm s md2 r E NT S.
  inversion E; subst; [|congruence]. inversion S; subst; simpl in *; [discriminate|].
  match goal with E : Some _ = Some _ |- _ => injection E as <- end. eauto.
Qed.
Print Assumptions C32_enable_again.

(** 大学生北京 is added after enable_parallel(): jieba.cut does not know it, dt.cut
    does *)
Definition new_word : str := [c_da; c_xue; c_sheng; c_bei; c_jing].
Example C32_nonvacuous :
  let md1 := mkModule demo (Some demo) true in
  pstep numQ demo_hmm false (mkModule demo None false) PEnable md1 OutUnit /\
  exists md2, prun numQ demo_hmm false md1 [PCall (OpAddWord new_word None None)] md2 /\
    pstep numQ demo_hmm false md2 (PCut false false new_word) md2
          (OutWords (gof [[c_da; c_xue; c_sheng]; [c_bei; c_jing]])) /\
    snd (do_op numQ demo_hmm (md_dt md2) (OpCut false false new_word)) = OutWords (gof [new_word]).
Proof.
  cbv zeta. split; [now apply ps_enable|].
  exists (mkModule (fst (do_op numQ demo_hmm demo (OpAddWord new_word None None))) (Some demo) true).
  split; [eapply prun_cons; [apply ps_call|apply prun_nil]|]. split.
  - eapply ps_pcut; [reflexivity|reflexivity|]. refine (proj2 (C30_parallel_same_words numQ demo_hmm demo false new_word _ _ _) eq_refl).
    vm_compute. reflexivity.
  - vm_compute. reflexivity.
Qed.

(** After disable_parallel(), and until it is enabled again, jieba.cut and
    jieba.cut_for_search are those of the Tokenizer as it is then. *)
Theorem C32_disabled :
  forall num (H : hmm num) nt md0 md1 evs md2 r0,
    pstep num H nt md0 PDisable md1 r0 ->
    prun num H nt md1 evs md2 -> forallb (fun ev => negb (enables ev)) evs = true ->
    (forall cut_all hmm s r, (exists md3, pstep num H nt md2 (PCut cut_all hmm s) md3 r) <->
       r = snd (do_op num H (md_dt md2) (OpCut cut_all hmm s))) /\
    (forall hmm s r, (exists md3, pstep num H nt md2 (PSearch hmm s) md3 r) <->
       r = snd (do_op num H (md_dt md2) (OpCutForSearch hmm s))).
Proof.
  intros num H nt md0 md1 evs md2 r0 E R F.
  assert (K : md_parallel md1 = false) by (inversion E; reflexivity).
  assert (K2 : md_parallel md2 = false).
  { clear E. induction R as [|md ev evs md' md'' r S R IH]; [exact K|]. simpl in F. apply andb_prop in F. destruct F as [F1 F2].
    apply IH; [exact F2|]. destruct S; try discriminate; exact K. }
  split; intros; split.
  - intros [md3 S]. inversion S; subst; [reflexivity|congruence].
  - intros ->. exists md2. apply ps_cut. exact K2.
  - intros [md3 S]. inversion S; subst; [reflexivity|congruence].
  - intros ->. exists md2. apply ps_search. exact K2.
Qed.

(** Whatever was called before, every call comes to an end. *)
Theorem C32_always_answers :
  forall num (H : hmm num) nt d evs md, prun num H nt (mkModule d None false) evs md ->
    forall ev, exists md' r, pstep num H nt md ev md' r.
Proof.
  intros num H nt d evs md R.
  assert (K : md_parallel md = true -> exists d', md_pool md = Some d').
  { remember (mkModule d None false) as m0. assert (K0 : md_parallel m0 = true -> exists d', md_pool m0 = Some d') by (subst; discriminate).
    clear Heqm0. induction R as [|m ev evs m' m'' r S R IH]; [exact K0|]. apply IH.
    destruct S; simpl; auto; try discriminate. intros _. eauto. }
  intros [| |o|d'|cut_all hmm s|hmm s].
  - destruct nt; eexists _, _; [apply ps_enable_nt|apply ps_enable]; reflexivity.
  - eexists _, _. apply ps_disable.
  - eexists _, _. apply ps_call.
  - eexists _, _. apply ps_change.
  - destruct (md_parallel md) eqn:P; [|eexists _, _; apply ps_cut; exact P]. destruct (K eq_refl) as [d' Q].
    destruct (pool_exists (cut num H (mode_of cut_all hmm) (d_freq d') (d_total d') (d_force d')) (splitlines_keep s)) as [r PM].
    eexists _, _. eapply ps_pcut; [exact P|exact Q|]. exists r. split; [exact PM|reflexivity].
  - destruct (md_parallel md) eqn:P; [|eexists _, _; apply ps_search; exact P]. destruct (K eq_refl) as [d' Q].
    destruct (pool_exists (cut_for_search num H hmm (d_freq d') (d_total d') (d_force d')) (splitlines_keep s)) as [r PM].
    eexists _, _. eapply ps_psearch; [exact P|exact Q|]. exists r. split; [exact PM|reflexivity].
Qed.
Print Assumptions C32_disabled.
Print Assumptions C32_always_answers.
