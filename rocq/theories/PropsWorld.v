(** * Properties of several Tokenizers and of set_dictionary (C21, C46, C47) *)
From Coq Require Import Lia.
From Verif Require Import PyBase PyRegex PyNum InstQ ModelFinalseg ModelSeg ModelDict ModelApi ModelInit ModelWorld
  SpecInit SpecWorld Demo DemoInit ProofsBase ProofsInit ProofsCache ProofsWorld ProofsSolo.

(** ** C21 *)

(** A query on an initialised tokenizer changes nothing: no tokenizer, no forced
    split, no file. *)
Theorem C21_query_changes_nothing :
  forall e num (H : hmm num) w k o how,
    query o = true -> m_init (w_tok w k) = true ->
    same_world (fst (do_event e num H w (ECall k o how))) w.
Proof.
  intros e num H w k o how Q I. simpl. rewrite call_initialised by exact I.
  pose proof (query_same num H (dstate_of w k) o Q) as E.
  destruct (do_op _ _ _ _) as [d r]. simpl in *. subst d. apply put_same.
Qed.
Print Assumptions C21_query_changes_nothing.

(** On a tokenizer that is not initialised it changes nothing or exactly what
    initialize() changes. *)
Theorem C21_query_only_initialises :
  forall e num (H : hmm num) w k o how,
    query o = true ->
    same_world (fst (do_event e num H w (ECall k o how))) w \/
    same_world (fst (do_event e num H w (ECall k o how))) (fst (do_event e num H w (EInit k None how))).
Proof.
  intros e num H w k o how Q.
  destruct (m_init (w_tok w k)) eqn:I; [left; now apply C21_query_changes_nothing|].
  simpl. unfold do_call. destruct (needs_dict o).
  - right. unfold do_check. rewrite I.
    destruct (initialize _ _ _ _ _ _) as [[m fs] [x|]]; simpl; [apply same_world_refl|].
    match goal with |- context [do_op _ _ ?d _] => pose proof (query_same num H d o Q) as E end.
    destruct (do_op _ _ _ _) as [d r]. simpl in *. subst d. apply put_same.
  - left. pose proof (query_same num H (dstate_of w k) o Q) as E.
    destruct (do_op _ _ _ _) as [d r]. simpl in *. subst d. apply put_same.
Qed.
Print Assumptions C21_query_only_initialises.

(** two tokenizers with the same words *)
Definition demo_mem : mem := mkMem None demo_fr demo_total [] true None None.
Definition demo_world : world := mkWorld (one_file path_u file_1 10) 20 (fun _ => demo_mem) [].

(** suggest_freq(tune=True) and add_word do change the tokenizer *)
Example C21_nonvacuous :
  let after ev := w_tok (fst (do_event demo_env numQ demo_hmm demo_world ev)) 0 in
  after (ECall 0 (OpSuggest (Parts [[c_bei]; [c_jing]]) false) Dumped) = demo_mem /\
  after (ECall 0 (OpSuggest (Parts [[c_bei]; [c_jing]]) true) Dumped) <> demo_mem /\
  after (ECall 0 (OpCut false true demo_text) Dumped) = demo_mem.
Proof. cbv zeta. repeat split; vm_compute; try reflexivity. discriminate. Qed.

(** ** C46 *)

(** Whatever calls are made on other tokenizers, and whatever happens to files, a
    segmentation without HMM on an initialised tokenizer gives the same result. *)
Theorem C46_independent :
  forall e num (H : hmm num) w evs i o how how',
    m_init (w_tok w i) = true -> Forall (elsewhere i) evs -> without_hmm o = true ->
    snd (do_event e num H (do_events e num H w evs) (ECall i o how)) =
    snd (do_event e num H w (ECall i o how')).
Proof.
  intros e num H w evs i o how how' I F Q. simpl. rewrite !call_result by exact Q.
  rewrite elsewhere_toks by exact F. cbv zeta. rewrite I. reflexivity.
Qed.
Print Assumptions C46_independent.

(** The same before it is initialised, when the result depends on its dictionary
    and its cache file: other tokenizers may share the cache file if they share the
    dictionary. *)
Theorem C46_independent_uninitialised :
  forall e num (H : hmm num) w evs i o how how',
    (forall x, e_load e (e_dump e x) = Some x) ->
    Forall (elsewhere i) evs -> all_keep_off e num H (w_tok w i) w evs -> without_hmm o = true ->
    snd (do_event e num H (do_events e num H w evs) (ECall i o how)) =
    snd (do_event e num H w (ECall i o how')).
Proof.
  intros e num H w evs i o how how' M F K Q. simpl. rewrite !call_result by exact Q.
  rewrite elsewhere_toks by exact F. cbv zeta. rewrite keep_woulds by assumption. reflexivity.
Qed.
Print Assumptions C46_independent_uninitialised.

(** 学北学 is not in the dictionary; HMM keeps it together *)
Definition word_xbx : str := [c_xue; c_bei; c_xue].

(** With HMM the claim is false: deleting a word on tokenizer 0 changes how
    tokenizer 1 cuts. *)
Theorem C46_with_hmm_refuted :
  exists e num (H : hmm num) w ev i s,
    m_init (w_tok w i) = true /\ elsewhere i ev /\
    snd (do_event e num H (fst (do_event e num H w ev)) (ECall i (OpCut false true s) Dumped)) <>
    snd (do_event e num H w (ECall i (OpCut false true s) Dumped)).
Proof.
  exists demo_env, numQ, demo_hmm, demo_world, (ECall 0 (OpDelWord word_xbx) Dumped), 1, word_xbx.
  split; [reflexivity|]. split; [simpl; discriminate|]. vm_compute. discriminate.
Qed.
Print Assumptions C46_with_hmm_refuted.

(** tokenizer 0 has a user dictionary and tokenizer 1 uses the same file; 0 loads it,
    writes the cache, gets new words and another dictionary, 2 loads something else *)
Definition fresh_world : world :=
  mkWorld (fun q => if str_eqb q path_u then Some (mkFile file_1 10)
                    else if str_eqb q path_v then Some (mkFile file_2 11) else None) 20
    (fun k => new_mem demo_env (Some (if (k =? 2)%nat then path_v else path_u))) [].
Definition busy : list event :=
  [EInit 0 None Dumped; ECall 0 (OpAddWord [97; 98; 97]%N (Some 7%Z) None) Dumped;
   ECall 0 (OpDelWord [97; 98]%N) Dumped; ESetDict 0 path_v;
   ECall 0 (OpCut false true [98; 97]%N) (NotDumped (Some (path_tmp 49, [0%N])));
   ECall 2 (OpGetDAG [98; 97]%N) Dumped].

Local Ltac off :=
  cbv zeta; split; [vm_compute; discriminate|]; split;
  [vm_compute; intros E; try discriminate E; reflexivity
  |intros q b E; try discriminate E; injection E as <- <-; split; vm_compute; discriminate].

Example C46_nonvacuous :
  Forall (elsewhere 1) busy /\
  all_keep_off demo_env numQ demo_hmm (w_tok fresh_world 1) fresh_world busy /\
  snd (do_event demo_env numQ demo_hmm fresh_world (ECall 1 (OpCut false false [97; 98; 97]%N) Dumped))
    = OutWords ([[97; 98]; [97]]%N, None) /\
  snd (do_event demo_env numQ demo_hmm fresh_world (ECall 1 (OpGetDAG [97; 98; 97]%N) Dumped))
    = OutDAG [[0; 1]; [1]; [2]].
Proof.
  split; [unfold busy; repeat constructor; simpl; discriminate|]. split.
  - unfold busy. cbn [all_keep_off].
    repeat (split; [split; [discriminate|]; intros m' how E; cbn [loads_as init_arg option_map] in E;
                    first [discriminate E|injection E as <- <-; off]|]).
    exact I.
  - split; vm_compute; reflexivity.
Qed.

(** ** C47 *)

(** A missing file: set_dictionary raises and nothing is different. *)
Theorem C47_missing_file_changes_nothing :
  forall e num (H : hmm num) w k p,
    w_fs w (e_abs e p) = None ->
    do_event e num H w (ESetDict k p) = (w, OutExn PlainException).
Proof. intros e num H w k p E. simpl. unfold set_dictionary. now rewrite E. Qed.
Print Assumptions C47_missing_file_changes_nothing.

(** An existing file without a newer cache: the next call that needs the dictionary
    works on the words of the file alone, with the tags and forced splits from
    before; a malformed file makes it raise. *)
Theorem C47_next_use_rebuilds :
  forall e num (H : hmm num) w k p d o how,
    let a := e_abs e p in
    let m := w_tok w k in
    let w1 := fst (do_event e num H w (ESetDict k p)) in
    let w2 := fst (do_event e num H w1 (ECall k o how)) in
    let r := snd (do_event e num H w1 (ECall k o how)) in
    w_fs w a = Some d ->
    (forall f, w_fs w (cache_path e m (Some a)) = Some f -> (f_mtime f <= f_mtime d)%Z) ->
    needs_dict o = true ->
    match gen_pfdict (file_lines (f_bytes d)) with
    | Ok (fr, total) =>
        let d' := fst (do_op num H (mkD fr total (m_tags m) (w_force w)) o) in
        r = snd (do_op num H (mkD fr total (m_tags m) (w_force w)) o) /\
        m_freq (w_tok w2 k) = d_freq d' /\ m_total (w_tok w2 k) = d_total d' /\
        m_tags (w_tok w2 k) = d_tags d' /\ w_force w2 = d_force d' /\ m_init (w_tok w2 k) = true
    | Err x => r = OutExn x /\ m_init (w_tok w2 k) = false /\ m_freq (w_tok w2 k) = m_freq m
    end.
Proof.
  intros e num H w k p d o how. cbv zeta. intros D C N. cbn [do_event]. unfold set_dictionary. rewrite D.
  unfold do_call. rewrite N. cbn [fst]. unfold do_check. cbn [w_tok with_mem]. rewrite upd_same. cbn [m_init set_init].
  unfold initialize. cbn [init_arg]. unfold load_dict. cbn [m_init set_init m_dict set_dict w_fs with_mem].
  assert (Fc : from_cache e (w_fs w) (Some (e_abs e p))
                 (cache_path e (set_init (set_dict (w_tok w k) (Some (e_abs e p))) false) (Some (e_abs e p))) = Ok None).
  { change (cache_path e (set_init (set_dict (w_tok w k) (Some (e_abs e p))) false) (Some (e_abs e p)))
      with (cache_path e (w_tok w k) (Some (e_abs e p))).
    unfold from_cache. destruct (w_fs w (cache_path _ _ _)) as [f|] eqn:F; [|reflexivity].
    rewrite D. specialize (C f eq_refl). destruct (_ <? _)%Z eqn:L; [|reflexivity]. apply Z.ltb_lt in L. lia. }
  rewrite Fc. unfold ModelInit.build. cbn [dict_path]. rewrite D.
  destruct (gen_pfdict _) as [[fr total]|x].
  - cbn [fst snd]. unfold dstate_of. cbn [w_tok w_force]. rewrite !upd_same. cbn.
    destruct (do_op _ _ _ _) as [d' r]. cbn. rewrite !upd_same. repeat split.
  - cbn. rewrite !upd_same. repeat split.
Qed.
Print Assumptions C47_next_use_rebuilds.

(** With a newer cache the words come from there. *)
Theorem C47_next_use_reads_cache :
  forall e num (H : hmm num) w k p d f fr total o how,
    let a := e_abs e p in
    let m := w_tok w k in
    let w1 := fst (do_event e num H w (ESetDict k p)) in
    w_fs w a = Some d ->
    w_fs w (cache_path e m (Some a)) = Some f -> (f_mtime d < f_mtime f)%Z ->
    e_load e (f_bytes f) = Some (fr, total) ->
    needs_dict o = true ->
    snd (do_event e num H w1 (ECall k o how)) = snd (do_op num H (mkD fr total (m_tags m) (w_force w)) o).
Proof.
  intros e num H w k p d f fr total o how. cbv zeta. intros D C T L N. cbn [do_event]. unfold set_dictionary. rewrite D.
  unfold do_call. rewrite N. cbn [fst]. unfold do_check. cbn [w_tok with_mem]. rewrite upd_same. cbn [m_init set_init].
  unfold initialize. cbn [init_arg]. unfold load_dict. cbn [m_init set_init m_dict set_dict w_fs with_mem].
  change (cache_path e (set_init (set_dict (w_tok w k) (Some (e_abs e p))) false) (Some (e_abs e p)))
      with (cache_path e (w_tok w k) (Some (e_abs e p))).
  unfold from_cache. rewrite C, D. apply Z.ltb_lt in T. rewrite T, L.
  cbn [fst snd]. unfold dstate_of. cbn [w_tok w_force]. rewrite !upd_same. cbn.
  now destruct (do_op _ _ _ _) as [d' r].
Qed.
Print Assumptions C47_next_use_reads_cache.

(** ab was added by hand; after set_dictionary it is gone, its tag is not *)
Example C47_nonvacuous :
  let W ev w := fst (do_event demo_env numQ demo_hmm w ev) in
  let w1 := W (ECall 0 (OpAddWord [98; 98]%N (Some 7%Z) (Some [110%N])) Dumped) (W (EInit 0 None Dumped) fresh_world) in
  let w2 := W (ECall 0 (OpGetDAG [98; 97]%N) Dumped) (W (ESetDict 0 path_v) w1) in
  sget (m_freq (w_tok w1 0)) [98; 98]%N = Some 7%Z /\
  w_fs w1 path_v = Some (mkFile file_2 11) /\ w_fs w1 (cache_path demo_env (w_tok w1 0) (Some path_v)) = None /\
  w_fs w1 [47; 120]%N = None /\
  m_freq (w_tok w2 0) = fst dict_2 /\ m_total (w_tok w2 0) = snd dict_2 /\
  m_tags (w_tok w2 0) = [([98; 98]%N, [110%N])].
Proof. vm_compute. repeat split; reflexivity. Qed.

(** initialize() is not as careful: with the path of a missing file it raises, but
    the tokenizer is left uninitialised with the new path and every later call
    raises, too. *)
Theorem C47_initialize_missing_refuted :
  exists e num (H : hmm num) w k p s,
    w_fs w (e_abs e p) = None /\ m_init (w_tok w k) = true /\
    let (w1, r1) := do_event e num H w (EInit k (Some p) Dumped) in
    r1 = OutExn FileNotFound /\
    snd (do_event e num H w (ECall k (OpGetDAG s) Dumped)) <> OutExn FileNotFound /\
    snd (do_event e num H w1 (ECall k (OpGetDAG s) Dumped)) = OutExn FileNotFound.
Proof.
  exists demo_env, numQ, demo_hmm, demo_world, 0, path_v, [c_bei].
  split; [reflexivity|]. split; [reflexivity|]. vm_compute. repeat split; discriminate.
Qed.
Print Assumptions C47_initialize_missing_refuted.

(** ** The one-step initialize is the small-step one *)

(** A thread that runs alone ends initialize() as the one-step [initialize] of
    ModelWorld says, for some fate of the cache file. *)
Theorem C26_initialize_in_one_step :
  forall e tok_of proc_of t s s' arg,
    s_pc s t = PInit arg -> alone e tok_of proc_of t s s' ->
    (s_pc s' t = PPassed ->
       exists how fs', initialize e how (s_fs s) (s_now s) (s_tok s (tok_of t)) arg
                       = (s_tok s' (tok_of t), fs', None) /\ forall r, s_fs s' r = fs' r) /\
    (forall x, s_pc s' t = PRaised x ->
       exists how fs', initialize e how (s_fs s) (s_now s) (s_tok s (tok_of t)) arg
                       = (s_tok s' (tok_of t), fs', Some x) /\ forall r, s_fs s' r = fs' r).
Proof. exact initialize_alone. Qed.
Print Assumptions C26_initialize_in_one_step.
