(** * C123: get_FREQ, calc and user_word_tag_tab of the module *)
From Verif Require Import PyBase PyRegex PyNum PyUtf8 SpecBase SpecSeg SpecDict SpecLines SpecStop SpecWorld ProofsBase
  ModelFinalseg ModelSeg ModelDict ModelApi ModelInit ModelWorld ModelTagRace ModelGlobals
  ProofsInit ProofsWorld InstQ Demo DemoInit PropsDict PropsFile PropsInit PropsWorld PropsTagRace.
From Coq Require Import Lia.

(** an event that does not make [dt] look at its dictionary: no initialize() of it, and of
    its calls only the segmentation of texts without word characters *)
Definition not_loading (ev : event) : bool :=
  match ev with
  | EInit 0 _ _ => false
  | ECall 0 o _ => negb (needs_dict o)
  | _ => true
  end.

Lemma needs_query o : needs_dict o = false -> query o = true.
Proof. destruct o; simpl; congruence. Qed.

Lemma not_loading_empty e num (H : hmm num) w ev : not_loading ev = true ->
  m_freq (w_tok w 0) = [] -> m_total (w_tok w 0) = 0%Z ->
  let w' := fst (do_event e num H w ev) in m_freq (w_tok w' 0) = [] /\ m_total (w_tok w' 0) = 0%Z.
Proof.
  intros N E1 E2. cbv zeta.
  assert (X : forall k, (forall j, j <> k -> w_tok (fst (do_event e num H w ev)) j = w_tok w j) -> k <> 0 ->
    m_freq (w_tok (fst (do_event e num H w ev)) 0) = [] /\ m_total (w_tok (fst (do_event e num H w ev)) 0) = 0%Z).
  { intros k J K. rewrite J by auto. auto. }
  destruct ev as [k p|k arg how|k p|k o how|fs now].
  - destruct k as [|k]; [split; reflexivity|]. apply (X (S k)); [|discriminate]. intros j J. apply elsewhere_tok. simpl. auto.
  - destruct k as [|k]; [discriminate|]. apply (X (S k)); [|discriminate]. intros j J. apply elsewhere_tok. simpl. auto.
  - destruct k as [|k].
    + cbn [do_event]. unfold set_dictionary. destruct (w_fs w (e_abs e p)); cbn [fst]; [|auto].
      cbn [with_mem w_tok]. rewrite upd_same. cbn [set_init set_dict m_freq m_total]. auto.
    + apply (X (S k)); [|discriminate]. intros j J. apply elsewhere_tok. simpl. auto.
  - destruct k as [|k].
    + cbn [not_loading] in N. destruct (needs_dict o) eqn:ND; [discriminate|]. cbn [do_event]. unfold do_call. rewrite ND.
      pose proof (query_same num H (dstate_of w 0) o (needs_query o ND)) as Q.
      destruct (do_op num H (dstate_of w 0) o) as [d r]. cbn [fst] in *. subst d.
      destruct (put_same w 0) as (_ & _ & T & _). rewrite T. auto.
    + apply (X (S k)); [|discriminate]. intros j J. apply elsewhere_tok. simpl. auto.
  - auto.
Qed.

(** before anything made [dt] load its dictionary, get_FREQ gives its default for every word,
    and calc raises ValueError (the logarithm of 0) whatever it is asked *)
Theorem C123_before_loading :
  forall e num (H : hmm num) w0 p evs,
    forallb not_loading evs = true ->
    let w := do_events e num H (fst (do_event e num H w0 (ENew 0 p))) evs in
    (forall k d, get_FREQ w k d = d) /\
    (forall sentence DAG, mod_calc num w sentence DAG = Err ValueError).
Proof.
  intros e num H w0 p evs F w.
  assert (X : m_freq (w_tok w 0) = [] /\ m_total (w_tok w 0) = 0%Z).
  { subst w. set (w1 := fst (do_event e num H w0 (ENew 0 p))).
    assert (E : m_freq (w_tok w1 0) = [] /\ m_total (w_tok w1 0) = 0%Z) by (split; reflexivity).
    clearbody w1. revert w1 E. unfold do_events. induction evs as [|ev evs IH]; intros w1 [E1 E2]; [auto|].
    cbn [fold_left]. cbn [forallb] in F. apply andb_prop in F. destruct F as [F1 F2].
    apply IH; auto. apply not_loading_empty; auto. }
  destruct X as [E1 E2]. split.
  - intros k d. unfold get_FREQ. now rewrite E1.
  - intros s D. unfold mod_calc, calc. rewrite E2. reflexivity.
Qed.

(** once it is loaded, get_FREQ tells what the calls of [dt] use *)
Theorem C123_loaded :
  forall e num (H : hmm num) w, m_init (w_tok w 0) = true ->
    exists fr total tags,
      (forall o how, snd (do_event e num H w (ECall 0 o how)) = snd (do_op num H (mkD fr total tags (w_force w)) o)) /\
      (forall k d, get_FREQ w k d = match sget fr k with Some n => Some n | None => d end) /\
      (forall sentence DAG, mod_calc num w sentence DAG = calc num fr total sentence DAG).
Proof.
  intros e num H w I. exists (m_freq (w_tok w 0)), (m_total (w_tok w 0)), (m_tags (w_tok w 0)). split; [|split; reflexivity].
  intros o how. cbn [do_event]. rewrite call_initialised by exact I.
  change (mkD (m_freq (w_tok w 0)) (m_total (w_tok w 0)) (m_tags (w_tok w 0)) (w_force w)) with (dstate_of w 0).
  destruct (do_op num H (dstate_of w 0) o). reflexivity.
Qed.

(** after initialize() from a file without a cache: the frequency in the last line of the word, 0
    (not the default) for what is only the beginning of a word *)
Theorem C123_file :
  forall e num (H : hmm num) w p f ls es how,
    w_fs w (e_abs e p) = Some f -> p <> [] -> lines_of (f_bytes f) ls ->
    Forall2 (fun line x => dict_line line (fst x) (snd x)) ls es ->
    m_init (w_tok w 0) = false ->
    (forall c, w_fs w (cache_path e (w_tok w 0) (Some (e_abs e p))) = Some c -> (f_mtime c <= f_mtime f)%Z) ->
    let r := do_event e num H w (EInit 0 (Some p) how) in
    snd r = OutUnit /\
    forall k d, get_FREQ (fst r) k d =
      match last_freq es k with
      | Some n => Some n
      | None => if existsb (fun x => is_prefix k (fst x)) es then Some 0%Z else d
      end.
Proof.
  intros e num H w p f ls es how D NE LO F I C. cbv zeta.
  destruct (C24_dictionary_file e (w_fs w) (Some (e_abs e p)) f ls es D LO F) as (fr & B & K).
  destruct p as [|ch p]; [congruence|]. cbn [do_event]. unfold initialize, init_arg. rewrite I, andb_false_r.
  unfold load_dict. cbn [m_init set_init]. unfold from_cache. cbn [m_dict set_init set_dict].
  assert (CP : cache_path e (set_init (set_dict (w_tok w 0) (Some (e_abs e (ch :: p)))) false) (Some (e_abs e (ch :: p))) =
    cache_path e (w_tok w 0) (Some (e_abs e (ch :: p)))) by reflexivity.
  rewrite CP.
  assert (GO : forall fs', let r := (mkWorld fs' (w_now w)
      (upd (w_tok w) 0 (loaded_mem (set_init (set_dict (w_tok w 0) (Some (e_abs e (ch :: p)))) false)
         (fr, fold_right Z.add 0%Z (map snd es)))) (w_force w)) in
    forall k d, get_FREQ r k d = match last_freq es k with Some n => Some n
      | None => if existsb (fun x => is_prefix k (fst x)) es then Some 0%Z else d end).
  { intros fs' r k d. unfold get_FREQ, r. cbn [w_tok]. rewrite upd_same. cbn [loaded_mem m_freq set_init set_total set_freq fst snd].
    rewrite K. destruct (last_freq es k); [reflexivity|]. destruct (existsb _ es); reflexivity. }
  destruct (w_fs w (cache_path e (w_tok w 0) (Some (e_abs e (ch :: p))))) as [c|] eqn:EC.
  - rewrite D. assert (LT : (f_mtime f <? f_mtime c)%Z = false) by (apply Z.ltb_ge; auto). rewrite LT, B.
    cbn [fst snd]. split; [reflexivity|]. apply GO.
  - rewrite B. cbn [fst snd]. split; [reflexivity|]. apply GO.
Qed.

(** set_dictionary does not change what get_FREQ tells *)
Theorem C123_set_dictionary :
  forall e num (H : hmm num) w p k d,
    get_FREQ (fst (do_event e num H w (ESetDict 0 p))) k d = get_FREQ w k d.
Proof.
  intros e num H w p k d. cbn [do_event]. unfold set_dictionary. destruct (w_fs w (e_abs e p)); [|reflexivity].
  unfold get_FREQ. cbn [fst with_mem w_tok]. rewrite upd_same. reflexivity.
Qed.

(** so it is not what the next segmentation uses: after set_dictionary the word ab still has its
    frequency, but the next cut does not know it *)
Theorem C123_next_cut_refuted :
  exists e num (H : hmm num) w p k n r0 r,
    m_init (w_tok w 0) = true /\
    snd (do_event e num H w (ECall 0 (OpCut true false k) Dumped)) = OutWords (gof [k]) /\
    do_event e num H w (ESetDict 0 p) = r0 /\ snd r0 = OutUnit /\
    get_FREQ (fst r0) k None = Some n /\ (0 < n)%Z /\
    do_event e num H (fst r0) (ECall 0 (OpCut true false k) Dumped) = r /\
    get_FREQ (fst r) k None = None /\ snd r <> OutWords (gof [k]).
Proof.
  pose (k := [c_bei; c_jing]).
  exists demo_env, numQ, demo_hmm,
    (mkWorld (one_file path_u file_1 10) 20 (fun _ => mkMem None [([c_bei], 0%Z); (k, 3%Z)] 3 [] true None None) []), path_u, k, 3%Z.
  eexists _, _. repeat (split; [vm_compute; reflexivity|]). vm_compute. discriminate.
Qed.

(** ** The tags *)

(** one call after the other, with the objects *)
Definition tagcall (d : tagdata) (c : top) : tagdata :=
  match c with
  | TAdd w t => mkTD (d_tab d) (put_nth (d_objs d) (d_cur d) (sset (obj d (d_cur d)) w t)) (d_cur d)
  | TTag => match obj d (d_cur d) with
            | [] => d
            | tags => mkTD (dupdate str_eqb (d_tab d) tags) (d_objs d ++ [[]]) (length (d_objs d))
            end
  end.

Definition seq_inv (d0 d : tagdata) (th : tthread) : Prop :=
  let s := fold_left tagcall (tt_done th) d0 in
  match tt_cur th with
  | None => d = s
  | Some (TAdd _ _, AtSet r) => r = d_cur d /\ d = s
  | Some (TTag, AtTest r) => r = d_cur d /\ d = s
  | Some (TTag, AtGet) => d = s /\ obj d (d_cur d) <> []
  | Some (TTag, AtUpdate r) => r = d_cur d /\ d = s /\ obj d (d_cur d) <> []
  | Some (TTag, AtReset) =>
      obj s (d_cur s) <> [] /\ d = mkTD (dupdate str_eqb (d_tab s) (obj s (d_cur s))) (d_objs s) (d_cur s)
  | _ => False
  end.

Lemma seq_step d0 d th d' th' : seq_inv d0 d th -> tstep d th = Some (d', th') -> seq_inv d0 d' th'.
Proof.
  unfold seq_inv, tstep. destruct th as [dn [[c p]|] td]; cbn [tt_cur tt_done tt_todo]; intros I T.
  2:{ destruct td as [|[v t|] td]; inversion T; subst; cbn [tt_cur tt_done]; auto. }
  destruct p, c; try contradiction; try discriminate.
  - destruct I as [-> I]. inversion T; subst. cbn [tt_cur tt_done]. rewrite fold_left_app. reflexivity.
  - destruct I as [-> I]. destruct (obj d (d_cur d)) eqn:O; inversion T; subst; cbn [tt_cur tt_done].
    + rewrite fold_left_app. cbn [fold_left tagcall]. now rewrite O.
    + split; [reflexivity|congruence].
  - inversion T; subst. cbn [tt_cur tt_done]. tauto.
  - destruct I as (-> & I & N). inversion T; subst. cbn [tt_cur tt_done]. split; [exact N|reflexivity].
  - destruct I as (N & ->). inversion T; subst. cbn [tt_cur tt_done d_tab d_objs d_cur].
    rewrite fold_left_app. cbn [fold_left tagcall].
    destruct (obj (fold_left tagcall dn d0) (d_cur (fold_left tagcall dn d0))) eqn:O; [congruence|reflexivity].
Qed.

Lemma seq_run tab pend calls d ts :
  tsteps (tstart tab pend [calls]) (d, ts) ->
  Forall (fun th => tt_cur th = None /\ tt_todo th = []) ts ->
  d = fold_left tagcall calls (mkTD tab [pend] 0).
Proof.
  intros S F.
  assert (X : exists th, ts = [th] /\ seq_inv (mkTD tab [pend] 0) d th).
  { clear F. remember (d, ts) as x eqn:E. revert d ts E.
    induction S as [|d0 ts0 i th d' th' S IH N T]; intros d ts E; inversion E; subst.
    - eexists. split; reflexivity.
    - destruct (IH d0 ts0 eq_refl) as (th0 & -> & I). destruct i as [|[|i]]; try discriminate.
      injection N as ->. exists th'. split; [reflexivity|]. eapply seq_step; eauto. }
  destruct X as (th & -> & I). pose proof (tsteps_calls _ _ _ S) as OC. inversion F as [|? ? [C D] _]; subst.
  unfold seq_inv in I. rewrite C in I. rewrite I. cbn in OC. injection OC as OC. unfold own_calls in OC. rewrite C, D, !app_nil_r in OC.
  now rewrite OC.
Qed.

(** the name user_word_tag_tab of the module shows all tags that were given as long as
    nothing was tagged; the first tagging after a tag was given is the last time it changes *)
Theorem C123_tags_before_tagging :
  forall tab calls d ts,
    tsteps (tstart tab [] [calls]) (d, ts) -> Forall (fun th => tt_cur th = None /\ tt_todo th = []) ts ->
    ~ In TTag calls ->
    mod_user_word_tag_tab d = fold_left (fun m c => match c with TAdd w t => sset m w t | TTag => m end) calls [].
Proof.
  intros tab calls d ts S F N. rewrite (seq_run _ _ _ _ _ S F). unfold mod_user_word_tag_tab.
  assert (X : forall m, obj (fold_left tagcall calls (mkTD tab [m] 0)) 0 =
    fold_left (fun m c => match c with TAdd w t => sset m w t | TTag => m end) calls m); [|apply X].
  clear S F. induction calls as [|[w t|] calls IH]; intros m; [reflexivity| |exfalso; apply N; left; auto].
  cbn [fold_left tagcall d_objs d_cur d_tab put_nth]. rewrite IH; [reflexivity|]. intros I. apply N. right. auto.
Qed.

Lemma later_calls calls : forall d, 0 < d_cur d -> 0 < length (d_objs d) ->
  obj (fold_left tagcall calls d) 0 = obj d 0 /\ 0 < d_cur (fold_left tagcall calls d).
Proof.
  induction calls as [|c calls IH]; intros d C L; [auto|]. cbn [fold_left].
  assert (X : obj (tagcall d c) 0 = obj d 0 /\ 0 < d_cur (tagcall d c) /\ 0 < length (d_objs (tagcall d c))).
  { destruct c as [w t|]; cbn [tagcall].
    - unfold obj at 1. cbn [d_objs d_cur]. destruct (d_objs d) as [|o os] eqn:O; [cbn in L; lia|].
      destruct (d_cur d) as [|i] eqn:CU; [lia|]. cbn [put_nth nth length]. unfold obj. rewrite O. repeat split; lia.
    - destruct (obj d (d_cur d)) eqn:O; [auto|]. unfold obj at 1. cbn [d_objs d_cur]. rewrite app_length.
      unfold obj. rewrite app_nth1 by auto. cbn [length]. repeat split; lia. }
  destruct X as (X1 & X2 & X3). destruct (IH _ X2 X3) as [Y1 Y2]. rewrite Y1. auto.
Qed.

Lemma stays_first calls : forall d, d_cur d = 0 -> length (d_objs d) = 1 -> ~ In TTag calls ->
  d_cur (fold_left tagcall calls d) = 0 /\ length (d_objs (fold_left tagcall calls d)) = 1.
Proof.
  induction calls as [|[w t|] calls IH]; intros d C L N; [auto| |exfalso; apply N; left; auto].
  cbn [fold_left]. apply IH; [exact C| |intros I; apply N; right; auto].
  cbn [tagcall d_objs]. rewrite put_nth_length. auto.
Qed.

Lemma tag_then x more : length (d_objs x) = 1 -> obj x (d_cur x) <> [] ->
  obj (fold_left tagcall more (tagcall x TTag)) 0 = obj x 0.
Proof.
  intros L P. cbn [tagcall]. destruct (obj x (d_cur x)) as [|t0 tags] eqn:O; [congruence|].
  match goal with |- obj (fold_left tagcall more ?y) 0 = _ => destruct (later_calls more y) as [E _] end.
  - cbn [d_cur]. lia.
  - cbn [d_objs]. rewrite app_length. cbn. lia.
  - rewrite E. unfold obj. cbn [d_objs]. rewrite app_nth1 by lia. reflexivity.
Qed.

Theorem C123_tags_after_tagging :
  forall tab adds more d ts d' ts',
    adds <> [] -> ~ In TTag adds ->
    tsteps (tstart tab [] [adds]) (d, ts) -> Forall (fun th => tt_cur th = None /\ tt_todo th = []) ts ->
    tsteps (tstart tab [] [adds ++ TTag :: more]) (d', ts') -> Forall (fun th => tt_cur th = None /\ tt_todo th = []) ts' ->
    mod_user_word_tag_tab d' = mod_user_word_tag_tab d.
Proof.
  intros tab adds more d ts d' ts' NE N S F S' F'.
  rewrite (seq_run _ _ _ _ _ S F), (seq_run _ _ _ _ _ S' F'). unfold mod_user_word_tag_tab.
  rewrite fold_left_app. cbn [fold_left].
  destruct (stays_first adds (mkTD tab [[]] 0) eq_refl eq_refl N) as [C L].
  set (x := fold_left tagcall adds (mkTD tab [[]] 0)) in *.
  assert (P : obj x (d_cur x) <> []).
  { rewrite C. pose proof (C123_tags_before_tagging tab adds d ts S F N) as E.
    rewrite (seq_run _ _ _ _ _ S F) in E. unfold mod_user_word_tag_tab in E.
    intros Z.
    assert (X : forall m, (m <> [] \/ adds <> []) -> ~ In TTag adds ->
      fold_left (fun m c => match c with TAdd w t => sset m w t | TTag => m end) adds m <> []).
    { clear. induction adds as [|[w t|] adds IH]; intros m [D|D] N; cbn [fold_left]; auto; try congruence.
      - apply IH; [left|intros I; apply N; right; auto]. destruct m as [|[k v] m]; cbn; [discriminate|]. destruct (str_eqb w k); discriminate.
      - apply IH; [left|intros I; apply N; right; auto]. destruct m as [|[k v] m]; cbn; [discriminate|]. destruct (str_eqb w k); discriminate.
      - exfalso. apply N. left. auto.
      - exfalso. apply N. left. auto. }
    exact (X [] (or_intror NE) N (eq_trans (eq_sym E) Z)). }
  exact (tag_then x more L P).
Qed.

(** ** Cases *)

(** a tag for a, one tagging, a tag for b *)
Example C123_tags_nonvacuous :
  exists (d : tagdata) (ts : list tthread) (d' : tagdata) (ts' : list tthread),
    tsteps (tstart [] [] [[TAdd [97%N] [110%N]]]) (d, ts) /\ Forall (fun th => tt_cur th = None /\ tt_todo th = []) ts /\
    tsteps (tstart [] [] [[TAdd [97%N] [110%N]] ++ TTag :: [TAdd [98%N] [118%N]]]) (d', ts') /\
    Forall (fun th => tt_cur th = None /\ tt_todo th = []) ts' /\
    mod_user_word_tag_tab d' = [([97%N], [110%N])] /\ obj d' (d_cur d') = [([98%N], [118%N])].
Proof.
  destruct (trun [0; 0] (tstart [] [] [[TAdd [97%N] [110%N]]])) as [[d ts]|] eqn:E; [|discriminate].
  destruct (trun [0; 0; 0; 0; 0; 0; 0; 0; 0] (tstart [] [] [[TAdd [97%N] [110%N]] ++ TTag :: [TAdd [98%N] [118%N]]])) as [[d' ts']|] eqn:E';
    [|discriminate].
  exists d, ts, d', ts'.
  pose proof (trun_steps _ _ _ _ (t_zero _) E) as S1. pose proof (trun_steps _ _ _ _ (t_zero _) E') as S2.
  vm_compute in E, E'. injection E as <- <-. injection E' as <- <-.
  split; [exact S1|]. split; [repeat constructor|]. split; [exact S2|]. split; [repeat constructor|]. split; reflexivity.
Qed.

(** another tokenizer is loaded and [dt] cuts a text without word characters; then [dt] is
    initialised from the lines "a 3" and "ab 2" *)
Example C123_nonvacuous :
  let w0 := mkWorld (one_file path_u file_1 10) 20 (fun _ => new_mem demo_env None) [] in
  let evs := [ENew 1 (Some path_u); EInit 1 None Dumped; ECall 0 (OpCut false true [44%N]) Dumped; ESetDict 0 path_u] in
  let w := do_events demo_env numQ demo_hmm (fst (do_event demo_env numQ demo_hmm w0 (ENew 0 None))) evs in
  let w' := fst (do_event demo_env numQ demo_hmm w (EInit 0 (Some path_u) Dumped)) in
  forallb not_loading evs = true /\ m_init (w_tok w 1) = true /\ sget (m_freq (w_tok w 1)) [97%N] = Some 3%Z /\
  get_FREQ w [97%N] (Some 7%Z) = Some 7%Z /\ m_init (w_tok w 0) = false /\
  m_init (w_tok w' 0) = true /\ get_FREQ w' [97%N] (Some 7%Z) = Some 3%Z /\ get_FREQ w' [98%N] (Some 7%Z) = Some 7%Z /\
  lines_of file_1 [[97; 32; 51; 10]%N; [97; 98; 32; 50; 10]%N] /\
  Forall2 (fun line x => dict_line line (fst x) (snd x)) [[97; 32; 51; 10]%N; [97; 98; 32; 50; 10]%N]
    [([97%N], 3%Z); ([97; 98]%N, 2%Z)].
Proof.
  cbv zeta. repeat (split; [vm_compute; reflexivity|]). split.
  - apply C24_lines_of_a_file. vm_compute. reflexivity.
  - repeat constructor; cbn [fst snd].
    + exists [51%N], None, [97; 32; 51]%N, [10%N].
      repeat split; try discriminate; repeat constructor. vm_compute. intuition discriminate.
    + exists [50%N], None, [97; 98; 32; 50]%N, [10%N].
      repeat split; try discriminate; repeat constructor. vm_compute. intuition discriminate.
Qed.

Print Assumptions C123_before_loading.
Print Assumptions C123_loaded.
Print Assumptions C123_file.
Print Assumptions C123_set_dictionary.
Print Assumptions C123_next_cut_refuted.
Print Assumptions C123_tags_before_tagging.
Print Assumptions C123_tags_after_tagging.
