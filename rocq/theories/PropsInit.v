(** * initialize(), its cache file, threads and crashes: C25-C29, part of C46

    The machine is in ModelInit.v, executions and the assumptions about the outside
    in SpecInit.v. *)
From Coq Require Import Lia.
From Verif Require Import PyBase PyRegex PyNum ModelSeg ModelDict ModelInit SpecInit ProofsBase ProofsDict
  ProofsInit ProofsCache ProofsInit2 ProofsStale DemoInit.

(** ** C28 *)

(** Any number of threads, tokenizers and processes, killed at any time, while the
    files change arbitrarily: a dictionary is loaded successfully at most once per
    tokenizer, and a thread that got past the check and then reads [FREQ] and
    [total] (at different times) sees exactly that dictionary, which is the content of
    one whole file. *)
Theorem C28_threads_see_one_complete_dictionary :
  forall e tok_of proc_of s0 s,
    start s0 -> exec e tok_of proc_of anything s0 s ->
    (forall k, length (loads s k) <= 1) /\
    forall t fr total, s_pc s t = PGot fr total ->
      loads s (tok_of t) = [(fr, total)] /\
      exists b, gen_pfdict (file_lines b) = Ok (fr, total) \/ e_load e b = Some (fr, total).
Proof.
  intros e tok_of proc_of s0 s S X. pose proof (data_exec _ _ _ _ _ _ S X) as D. split.
  - apply (do_once _ _ _ _ D).
  - intros t fr total P. pose proof (got_loads _ _ _ _ _ _ _ _ _ S X P) as G. split; [exact G|].
    destruct (do_log _ _ _ _ D _ _ (loads_log _ _ _ G)) as [[b B]|[b B]]; eauto.
Qed.

(** No deadlock: whatever happened before, if a thread has neither returned nor
    raised, then it or a thread of the same process inside initialize() can go on. *)
Theorem C28_no_deadlock :
  forall e tok_of proc_of s0 s t,
    start s0 -> exec e tok_of proc_of anything s0 s -> ~ finished (s_pc s t) ->
    exists u s', proc_of (tok_of u) = proc_of (tok_of t) /\ (u = t \/ inside (s_pc s u) = true) /\
      step e tok_of proc_of u s s'.
Proof.
  intros e tok_of proc_of s0 s t S X F.
  pose proof (data_exec _ _ _ _ _ _ S X) as D. pose proof (locks_exec _ _ _ _ _ _ S X) as L.
  destruct (progress e tok_of proc_of s t D L F) as [[s' H]|(v&V1&[s' V2]&V3)].
  - exists t, s'. auto.
  - exists v, s'. split; [exact V1|]. split; [right|exact V2].
    destruct (s_pc s v); simpl in *; congruence.
Qed.

(** No livelock: every schedule of finitely many threads is finite, and when none of
    them can go on all have returned or raised. *)
Theorem C28_every_schedule_ends :
  forall e tok_of proc_of ts s, Acc (fun s' s => exists t, In t ts /\ step e tok_of proc_of t s s') s.
Proof. intros. apply moves_wf. Qed.

Theorem C28_all_threads_finish :
  forall e tok_of proc_of s0 s ts,
    start s0 -> exec e tok_of proc_of anything s0 s ->
    (forall t, ~ In t ts -> inside (s_pc s t) = false) ->
    (forall t s', In t ts -> ~ step e tok_of proc_of t s s') ->
    forall t, In t ts -> finished (s_pc s t).
Proof.
  intros e tok_of proc_of s0 s ts S X OUT STUCK t I.
  assert (DEC : finished (s_pc s t) \/ ~ finished (s_pc s t)) by (destruct (s_pc s t); simpl; auto).
  destruct DEC as [|F]; [assumption|]. exfalso.
  destruct (C28_no_deadlock _ _ _ _ _ _ S X F) as (u&s'&_&[->|U]&H).
  - exact (STUCK _ _ I H).
  - destruct (in_dec Nat.eq_dec u ts) as [J|J]; [exact (STUCK _ _ J H)|]. rewrite (OUT _ J) in U. discriminate.
Qed.

(** ** C25 *)

(** Processes die at any points; no dictionary changes.  At all times each cache file
    is as it was or a complete dump of the dictionary, whatever the old caches are. *)
Theorem C25_cache_old_or_complete :
  forall e tok_of proc_of s0 s,
    setup e s0 -> start s0 -> exec e tok_of proc_of (stable e tok_of s0) s0 s ->
    forall k, s_fs s (cache_of e s0 k) = s_fs s0 (cache_of e s0 k) \/
      exists f x, s_fs s (cache_of e s0 k) = Some f /\ f_bytes f = e_dump e x /\
        build e (s_fs s0) (dict_of s0 k) = Ok x.
Proof. intros. now apply (stable_caches e tok_of proc_of). Qed.

(** Every thread that finishes, after any crashes, sees what the dictionary file
    says, or raises the error of that file. *)
Theorem C25_initialize_after_crash :
  forall e tok_of proc_of s0 s,
    setup e s0 -> start s0 -> caches_right e s0 (s_fs s0) ->
    exec e tok_of proc_of (stable e tok_of s0) s0 s ->
    forall t,
      (forall fr total, s_pc s t = PGot fr total -> build e (s_fs s0) (dict_of s0 (tok_of t)) = Ok (fr, total)) /\
      (forall x, s_pc s t = PRaised x -> build e (s_fs s0) (dict_of s0 (tok_of t)) = Err x).
Proof.
  intros e tok_of proc_of s0 s SU S CR X t. split.
  - intros fr total P. eapply stable_log; eauto. apply loads_log. eapply got_loads; eauto.
  - intros x P. eapply stable_raised; eauto.
Qed.

(** ** C26 *)

(** Dictionaries change while no thread initialises from them, and changed files get
    the current time.  Whatever is then loaded for a tokenizer, from the cache or
    not, is what its dictionary file says at that moment. *)
Theorem C26_loads_current_dictionary :
  forall e tok_of proc_of s0 s t s' k x,
    setup e s0 -> start s0 -> caches_right e s0 (s_fs s0) ->
    exec e tok_of proc_of (tidy e tok_of s0) s0 s ->
    step e tok_of proc_of t s s' -> s_log s' = (k, x) :: s_log s ->
    k = tok_of t /\ build e (s_fs s) (dict_of s0 k) = Ok x.
Proof. intros. eapply tidy_loads; eauto. Qed.

(** ** C29 *)

(** As long as no dictionary was loaded for a tokenizer, however many attempts
    failed, its attributes are as they were; a thread that raised holds no lock. *)
Theorem C29_failure_changes_nothing :
  forall e tok_of proc_of s0 s,
    start s0 -> exec e tok_of proc_of anything s0 s ->
    (forall k, loads s k = [] -> s_tok s k = s_tok s0 k) /\
    (forall t x l d, s_pc s t = PRaised x -> s_lock s l <> Some (t, d)).
Proof.
  intros e tok_of proc_of s0 s S X. split.
  - intros k. eapply tok_unchanged; eauto.
  - intros t x l d P H. pose proof (locks_exec _ _ _ _ _ _ S X) as L. destruct l.
    + destruct (lo_self_inv _ _ _ L _ _ _ H) as (_&_&[Q|Q]); rewrite P in Q; discriminate.
    + destruct (lo_w_inv _ _ _ L _ _ _ _ H) as (_&_&[Q|Q]); rewrite P in Q; discriminate.
Qed.

(** With a malformed dictionary file (some line is not one) nothing is ever
    loaded, so by the previous theorem the tokenizer stays as it was, and every
    thread that finishes raises ValueError. *)
Theorem C29_malformed_raises :
  forall e tok_of proc_of s0 s k f,
    setup e s0 -> start s0 -> caches_right e s0 (s_fs s0) ->
    exec e tok_of proc_of (stable e tok_of s0) s0 s ->
    s_fs s0 (dict_path e (dict_of s0 k)) = Some f ->
    (exists ln, In ln (file_lines (f_bytes f)) /\ parse_dict_line ln = None) ->
    loads s k = [] /\
    forall t, tok_of t = k -> finished (s_pc s t) -> s_pc s t = PRaised ValueError \/ s_pc s t = PDead.
Proof.
  intros e tok_of proc_of s0 s k f SU S CR X F BAD.
  assert (B : build e (s_fs s0) (dict_of s0 k) = Err ValueError).
  { unfold build. rewrite F. now apply gen_pfdict_bad. }
  assert (L : loads s k = []).
  { destruct (loads s k) as [|x [|y l]] eqn:E; [reflexivity| |].
    - apply loads_log in E. eapply stable_log in E; eauto. congruence.
    - pose proof (do_once _ _ _ _ (data_exec _ _ _ _ _ _ S X) k) as O. rewrite E in O. simpl in O. lia. }
  split; [exact L|]. intros t <- FI. destruct (s_pc s t) eqn:P; try contradiction; auto.
  - rewrite (got_loads _ _ _ _ _ _ _ _ _ S X P) in L. discriminate.
  - left. rewrite (stable_raised e tok_of proc_of s0 SU S CR s X t _ P) in B. congruence.
Qed.

(** A thread raises only if the dictionary file is missing or malformed at that very
    moment: after a repair no thread fails any more (and by C28 it finishes). *)
Theorem C29_repaired_succeeds :
  forall e tok_of proc_of s0 s t s' x,
    setup e s0 -> start s0 -> caches_right e s0 (s_fs s0) ->
    exec e tok_of proc_of (tidy e tok_of s0) s0 s ->
    step e tok_of proc_of t s s' -> s_pc s' t = PRaised x ->
    build e (s_fs s) (dict_of s0 (tok_of t)) = Err x.
Proof. intros. eapply tidy_raises; eauto. Qed.

(** ** C27 *)

(** The packaged dictionary: once its cache is there and readable, every tokenizer
    loads the cached dictionary, whatever becomes of the dictionary file. *)
Theorem C27_default_dictionary_never_reread :
  forall e tok_of proc_of s0 s c f x (may : state -> (path -> option file) -> Z -> Prop),
    (forall s fs now, may s fs now -> fs c = s_fs s c) -> (forall d, e_temp e d c = false) ->
    (forall k, cache_of e s0 k = c -> dict_of s0 k = None) ->
    start s0 -> s_fs s0 c = Some f -> e_load e (f_bytes f) = Some x ->
    exec e tok_of proc_of may s0 s ->
    forall t fr total, cache_of e s0 (tok_of t) = c -> s_pc s t = PGot fr total -> (fr, total) = x.
Proof.
  intros e tok_of proc_of s0 s c f x may M T SH S F L X t fr total E P.
  pose proof (stale_exec e tok_of proc_of s0 c f x may M T SH L F S s X) as C.
  eapply (so_log _ _ _ _ _ _ _ C); [|exact E]. apply loads_log. eapply got_loads; eauto.
Qed.

(** ** Concrete executions *)

Definition demo_tok : nat -> nat := fun t => t / 2.   (* threads 0 and 1: tokenizer 0, ... *)
Definition demo_proc : nat -> nat := fun k => k.       (* one tokenizer per process *)

(** all tokenizers use "/u" *)
Definition demo_u (b : bytes) : state :=
  demo_state (one_file path_u b 1%Z) 5%Z (fun _ => new_mem demo_env (Some path_u)).
(** all tokenizers use the packaged dictionary *)
Definition demo_d (b : bytes) : state :=
  demo_state (one_file path_d b 1%Z) 5%Z (fun _ => new_mem demo_env None).

Lemma demo_start fs now toks : (forall k, m_init (toks k) = false) -> start (demo_state fs now toks).
Proof. intros H. split; simpl; auto. Qed.

Lemma demo_setup p b : setup demo_env (demo_state (one_file p b 1%Z) 5%Z (fun _ => new_mem demo_env (Some path_u))).
Proof.
  split; intros; try reflexivity; try discriminate.
  - apply demo_marshal.
  - simpl in H. unfold one_file in H. destruct (str_eqb q p); [|discriminate]. injection H as <-. simpl. lia.
Qed.

Notation demo_run := (runf demo_env demo_tok demo_proc).
Notation demo_exec := (exec demo_env demo_tok demo_proc).

(** a file is changed and time passes *)
Definition demo_write (s : state) (p : path) (b : bytes) (now : Z) : state :=
  outside s (upd_fs (s_fs s) p (Some (mkFile b now))) now.
Definition demo_tick (s : state) (now : Z) : state := outside s (s_fs s) now.

Lemma exec_outside may s s1 fs now : demo_exec may s s1 -> may s1 fs now -> demo_exec may s (outside s1 fs now).
Proof. intros H M. eapply exec_snoc; [exact H|]. now apply sys_outside. Qed.

(** C25, C28: threads 0 and 1 share a tokenizer.  Thread 0 gets into initialize(),
    thread 1 runs into the lock; thread 0 writes its cache and finishes, so does
    thread 1.  Both saw the dictionary, which was loaded once, and the cache holds
    it. *)
Definition demo_two : state :=
  demo_run 30 GiveUp 1 (demo_run 30 (WriteTo (path_tmp 1%N)) 0 (demo_run 9 GiveUp 1 (demo_run 12 GiveUp 0 (demo_u file_1)))).

Example C28_nonvacuous :
  start (demo_u file_1) /\ demo_exec (stable demo_env demo_tok (demo_u file_1)) (demo_u file_1) demo_two /\
  s_pc demo_two 0 = PGot (fst dict_1) (snd dict_1) /\ s_pc demo_two 1 = PGot (fst dict_1) (snd dict_1) /\
  loads demo_two 0 = [dict_1] /\
  s_pc (demo_run 9 GiveUp 1 (demo_run 12 GiveUp 0 (demo_u file_1))) 1 = PLock (Some path_u) /\
  s_fs demo_two (cache_of demo_env (demo_u file_1) 0) = Some (mkFile (demo_dump dict_1) 5%Z).
Proof.
  split; [now apply demo_start|]. split.
  - unfold demo_two. repeat (eapply exec_trans; [|apply runf_exec]). constructor.
  - repeat split; vm_compute; reflexivity.
Qed.

(** C25: process 0 dies while writing its cache; the next process finishes with the
    dictionary and a complete cache. *)
Definition demo_crash : state :=
  demo_run 40 (WriteTo (path_tmp 2%N)) 2 (kill demo_tok demo_proc
    (demo_run 15 (WriteTo (path_tmp 1%N)) 0 (demo_u file_1)) 0).

Lemma no_cache_right b : caches_right demo_env (demo_u b) (s_fs (demo_u b)).
Proof. intros k f x H. vm_compute in H. discriminate. Qed.

Example C25_nonvacuous :
  setup demo_env (demo_u file_1) /\ start (demo_u file_1) /\ caches_right demo_env (demo_u file_1) (s_fs (demo_u file_1)) /\
  demo_exec (stable demo_env demo_tok (demo_u file_1)) (demo_u file_1) demo_crash /\
  s_pc demo_crash 0 = PDead /\ s_fs demo_crash (path_tmp 1%N) <> None /\
  s_pc demo_crash 2 = PGot (fst dict_1) (snd dict_1) /\
  s_fs demo_crash (cache_of demo_env (demo_u file_1) 0) = Some (mkFile (demo_dump dict_1) 5%Z).
Proof.
  split; [apply demo_setup|]. split; [now apply demo_start|]. split; [apply no_cache_right|]. split.
  - unfold demo_crash. eapply exec_trans; [|apply runf_exec]. eapply exec_snoc; [|apply sys_kill]. apply runf_exec.
  - split; [vm_compute; reflexivity|]. split; [vm_compute; discriminate|]. split; vm_compute; reflexivity.
Qed.

(** C26: the first process caches the dictionary, the second uses the cache; then the
    file is rewritten, and the third process reads the new one. *)
Definition demo_fresh1 : state :=
  demo_run 40 GiveUp 2 (demo_run 40 (WriteTo (path_tmp 1%N)) 0 (demo_u file_1)).
Definition demo_fresh : state := demo_run 40 GiveUp 4 (demo_write demo_fresh1 path_u file_2 7%Z).

Example C26_nonvacuous :
  demo_exec (tidy demo_env demo_tok (demo_u file_1)) (demo_u file_1) demo_fresh /\
  s_log demo_fresh = [(2, dict_2); (1, dict_1); (0, dict_1)] /\
  s_pc demo_fresh 4 = PGot (fst dict_2) (snd dict_2).
Proof.
  split; [|split; vm_compute; reflexivity].
  unfold demo_fresh, demo_write. eapply exec_trans; [|apply runf_exec]. apply exec_outside.
  - unfold demo_fresh1. repeat (eapply exec_trans; [|apply runf_exec]). constructor.
  - split; [vm_compute; discriminate|]. intros q. destruct (str_eqb q path_u) eqn:E.
    + right. apply str_eqb_eq in E. subst q. rewrite upd_fs_same. split; [|split; [|split; [|split]]].
      * intros k. vm_compute. discriminate.
      * reflexivity.
      * now intros f [= <-].
      * intros k _. vm_compute. discriminate.
      * intros t _. destruct t as [|[|[|t]]]; reflexivity.
    + left. apply upd_fs_other. intros ->. rewrite str_eqb_refl in E. discriminate.
Qed.

(** C26, the race: if the file is rewritten while thread 0 is between reading it and
    writing the cache, the cache is newer than the file but holds the old
    dictionary; a process that starts later, when nothing changes any more, uses
    it. *)
Definition demo_race1 : state :=
  demo_run 40 (WriteTo (path_tmp 1%N)) 0
    (demo_tick (demo_write (demo_run 12 GiveUp 0 (demo_u file_1)) path_u file_2 6%Z) 7%Z).
Definition demo_race : state := demo_run 40 GiveUp 2 demo_race1.

Theorem C26_race_refuted :
  setup demo_env (demo_u file_1) /\ start (demo_u file_1) /\ caches_right demo_env (demo_u file_1) (s_fs (demo_u file_1)) /\
  demo_exec anything (demo_u file_1) demo_race1 /\ s_pc demo_race1 2 = PCheck /\
  build demo_env (s_fs demo_race1) (Some path_u) = Ok dict_2 /\
  demo_exec (fun _ _ _ => False) demo_race1 demo_race /\
  s_pc demo_race 2 = PGot (fst dict_1) (snd dict_1).
Proof.
  split; [apply demo_setup|]. split; [now apply demo_start|]. split; [apply no_cache_right|].
  split; [|split; [vm_compute; reflexivity|split; [vm_compute; reflexivity|split; [apply runf_exec|vm_compute; reflexivity]]]].
  unfold demo_race1, demo_tick, demo_write. eapply exec_trans; [|apply runf_exec].
  apply exec_outside; [|exact I]. apply exec_outside; [|exact I]. apply runf_exec.
Qed.

(** C27: the packaged dictionary is replaced after it was cached; the next process
    still gets the old one. *)
Definition demo_stale1 : state :=
  demo_write (demo_run 40 (WriteTo (path_tmp 1%N)) 0 (demo_d file_1)) path_d file_2 9%Z.
Definition demo_stale : state := demo_run 40 GiveUp 2 demo_stale1.

Theorem C27_default_freshness_refuted :
  start (demo_d file_1) /\ demo_exec anything (demo_d file_1) demo_stale1 /\ s_pc demo_stale1 2 = PCheck /\
  build demo_env (s_fs demo_stale1) None = Ok dict_2 /\
  demo_exec (fun _ _ _ => False) demo_stale1 demo_stale /\
  s_pc demo_stale 2 = PGot (fst dict_1) (snd dict_1).
Proof.
  split; [now apply demo_start|].
  split; [|split; [vm_compute; reflexivity|split; [vm_compute; reflexivity|split; [apply runf_exec|vm_compute; reflexivity]]]].
  unfold demo_stale1, demo_write. apply exec_outside; [|exact I]. apply runf_exec.
Qed.

Definition demo_cached : state :=
  demo_state (upd_fs (one_file path_d file_2 9%Z) (e_join demo_env [47; 116]%N s_jieba_cache)
                (Some (mkFile (demo_dump dict_1) 5%Z))) 9%Z (fun _ => new_mem demo_env None).

Example C27_nonvacuous :
  let c := cache_of demo_env demo_cached 0 in
  (forall d, e_temp demo_env d c = false) /\ (forall k, cache_of demo_env demo_cached k = c -> dict_of demo_cached k = None) /\
  start demo_cached /\ s_fs demo_cached c = Some (mkFile (demo_dump dict_1) 5%Z) /\
  e_load demo_env (demo_dump dict_1) = Some dict_1 /\
  demo_exec (fun s fs now => fs c = s_fs s c) demo_cached (demo_run 40 GiveUp 2 demo_cached) /\
  s_pc (demo_run 40 GiveUp 2 demo_cached) 2 = PGot (fst dict_1) (snd dict_1).
Proof.
  split; [reflexivity|]. split; [reflexivity|]. split; [now apply demo_start|].
  split; [vm_compute; reflexivity|]. split; [apply demo_marshal|]. split; [apply runf_exec|vm_compute; reflexivity].
Qed.

(** C29: the file is malformed, thread 0 raises; the file is repaired and thread 1 of
    the same tokenizer succeeds. *)
Definition demo_fail1 : state := demo_run 40 GiveUp 0 (demo_u file_bad).
Definition demo_fail : state := demo_run 40 GiveUp 1 (demo_write demo_fail1 path_u file_1 6%Z).

Example C29_nonvacuous :
  demo_exec (stable demo_env demo_tok (demo_u file_bad)) (demo_u file_bad) demo_fail1 /\
  s_pc demo_fail1 0 = PRaised ValueError /\ s_tok demo_fail1 0 = s_tok (demo_u file_bad) 0 /\
  loads demo_fail1 0 = [] /\ s_writing demo_fail1 0 (Some path_u) = Some 0 /\
  demo_exec anything demo_fail1 demo_fail /\ s_pc demo_fail 1 = PGot (fst dict_1) (snd dict_1).
Proof.
  split; [apply runf_exec|]. split; [vm_compute; reflexivity|]. split; [vm_compute; reflexivity|].
  split; [vm_compute; reflexivity|]. split; [vm_compute; reflexivity|]. split; [|vm_compute; reflexivity].
  unfold demo_fail, demo_write. eapply exec_trans; [|apply runf_exec]. apply exec_outside; [constructor|exact I].
Qed.

(** C46: two tokenizers with different dictionaries but the same [cache_file]: the
    second to be initialised gets the dictionary of the first. *)
Definition shared_mem (p : path) : mem :=
  mkMem (Some p) [] 0 [] false None (Some [99%N]).
Definition demo_shared0 : state :=
  demo_state (upd_fs (one_file path_u file_1 1%Z) path_v (Some (mkFile file_2 1%Z))) 5%Z
    (fun k => shared_mem (if (k =? 0)%nat then path_u else path_v)).
Definition demo_shared : state :=
  demo_run 40 GiveUp 2 (demo_run 40 (WriteTo (path_tmp 1%N)) 0 demo_shared0).

Theorem C46_shared_cache_file_refuted :
  start demo_shared0 /\ demo_exec (fun _ _ _ => False) demo_shared0 demo_shared /\
  build demo_env (s_fs demo_shared0) (m_dict (s_tok demo_shared0 1)) = Ok dict_2 /\
  build demo_env (s_fs demo_shared) (m_dict (s_tok demo_shared0 1)) = Ok dict_2 /\
  s_pc demo_shared 2 = PGot (fst dict_1) (snd dict_1).
Proof.
  split; [now apply demo_start|].
  split; [|split; [vm_compute; reflexivity|split; vm_compute; reflexivity]].
  unfold demo_shared. repeat (eapply exec_trans; [|apply runf_exec]). constructor.
Qed.

Print Assumptions C25_cache_old_or_complete.
Print Assumptions C25_initialize_after_crash.
Print Assumptions C26_loads_current_dictionary.
Print Assumptions C26_race_refuted.
Print Assumptions C27_default_dictionary_never_reread.
Print Assumptions C27_default_freshness_refuted.
Print Assumptions C28_threads_see_one_complete_dictionary.
Print Assumptions C28_no_deadlock.
Print Assumptions C28_every_schedule_ends.
Print Assumptions C28_all_threads_finish.
Print Assumptions C29_failure_changes_nothing.
Print Assumptions C29_malformed_raises.
Print Assumptions C29_repaired_succeeds.
Print Assumptions C46_shared_cache_file_refuted.
