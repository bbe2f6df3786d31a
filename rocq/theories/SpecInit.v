(** * Executions of any number of threads and processes

    Used to state the properties of initialize() (C25-C29). *)
From Verif Require Import PyBase PyNum ModelSeg ModelDict ModelInit.

Section Exec.
  Variable e : env.
  Variable tok_of proc_of : nat -> nat.

  (** a process dies: its threads never go on; nothing is released or cleaned up *)
  Definition kill (s : state) (proc : nat) : state :=
    mkState (s_fs s) (s_now s) (s_tok s) (s_lock s) (s_writing s) (s_next s)
            (fun t => if (proc_of (tok_of t) =? proc)%nat then PDead else s_pc s t) (s_log s).

  (** somebody else changes files, or time passes *)
  Definition outside (s : state) (fs : path -> option file) (now : Z) : state :=
    mkState fs now (s_tok s) (s_lock s) (s_writing s) (s_next s) (s_pc s) (s_log s).

  (** what the outside may do, depending on the state *)
  Variable may : state -> (path -> option file) -> Z -> Prop.

  Inductive sys (s : state) : state -> Prop :=
  | sys_thread t s' : step e tok_of proc_of t s s' -> sys s s'
  | sys_kill proc : sys s (kill s proc)
  | sys_outside fs now : may s fs now -> sys s (outside s fs now).

  Inductive exec (s : state) : state -> Prop :=
  | exec_nil : exec s s
  | exec_snoc s1 s2 : exec s s1 -> sys s1 s2 -> exec s s2.
End Exec.

(** before anything ran: every thread is about to call check_initialized() (as every
    segmentation function does) or initialize(), no tokenizer is initialised, no
    lock is held *)
Record start (s : state) : Prop := {
  start_pc : forall t, s_pc s t = PCheck \/ s_pc s t = PInit None;
  start_init : forall k, m_init (s_tok s k) = false;
  start_lock : forall l, s_lock s l = None;
  start_writing : forall i p, s_writing s i p = None;
  start_log : s_log s = [];
}.

(** the outside may do anything to the files *)
Definition anything (s : state) (fs : path -> option file) (now : Z) : Prop := True.

(** the dictionaries successfully loaded for tokenizer [k], latest first *)
Definition loads (s : state) (k : nat) : list (freqs * Z) :=
  map snd (filter (fun a => (fst a =? k)%nat) (s_log s)).

(** what a finished thread saw *)
Definition saw (c : pc) : option (freqs * Z) :=
  match c with PGot fr total => Some (fr, total) | _ => None end.

(** ** Files (C25, C26, C29) *)

(** the dictionary and the cache file of tokenizer [k], as set up in [s] *)
Definition dict_of (s : state) (k : nat) : option path := m_dict (s_tok s k).
Definition cache_of (e : env) (s : state) (k : nat) : path :=
  cache_path e (s_tok s k) (m_dict (s_tok s k)).

(** the set-up: marshal reads back what it wrote; mkstemp never makes a file that is
    a dictionary or a cache; a dictionary is not a cache; tokenizers share a cache
    file only if they share the dictionary; no file is from the future *)
Record setup (e : env) (s0 : state) : Prop := {
  su_marshal : forall x, e_load e (e_dump e x) = Some x;
  su_temp_dict : forall c k, e_temp e c (dict_path e (dict_of s0 k)) = false;
  su_temp_cache : forall c k, e_temp e c (cache_of e s0 k) = false;
  su_dict_cache : forall k k', dict_path e (dict_of s0 k) <> cache_of e s0 k';
  su_shared : forall k k', cache_of e s0 k = cache_of e s0 k' -> dict_of s0 k = dict_of s0 k';
  su_time : forall q f, s_fs s0 q = Some f -> (f_mtime f <= s_now s0)%Z;
}.

(** [initialize] would use the cache [f] for the dictionary [p] *)
Definition usable (e : env) (fs : path -> option file) (p : option path) (f : file) : Prop :=
  match p with
  | None => True
  | Some a => exists d, fs a = Some d /\ (f_mtime d < f_mtime f)%Z
  end.

(** a usable cache that can be read holds the dictionary *)
Definition caches_right (e : env) (s0 : state) (fs : path -> option file) : Prop :=
  forall k f x, fs (cache_of e s0 k) = Some f -> usable e fs (dict_of s0 k) f ->
    e_load e (f_bytes f) = Some x -> build e fs (dict_of s0 k) = Ok x.

(** thread [t] is inside initialize() *)
Definition inside (c : pc) : bool :=
  match c with
  | PCheck | PInit _ | PPassed | PGotFreq _ | PGot _ _ | PRaised _ | PDead => false
  | _ => true
  end.

(** the outside leaves caches and temporary files alone, the clock does not go back,
    a changed file gets the current time, and a custom dictionary is not changed
    while a thread is inside initialize() for it; the packaged dictionary is never
    changed *)
Definition tidy (e : env) (tok_of : nat -> nat) (s0 s : state) (fs : path -> option file) (now : Z) : Prop :=
  (s_now s <= now)%Z /\
  forall q, fs q = s_fs s q \/
    (forall k, q <> cache_of e s0 k) /\ (forall c, e_temp e c q = false) /\
    (forall f, fs q = Some f -> f_mtime f = now) /\
    (forall k, dict_path e (dict_of s0 k) = q -> dict_of s0 k <> None) /\
    (forall t, dict_path e (dict_of s0 (tok_of t)) = q -> inside (s_pc s t) = false).

(** the same, and no dictionary is changed at all *)
Definition stable (e : env) (tok_of : nat -> nat) (s0 s : state) (fs : path -> option file) (now : Z) : Prop :=
  tidy e tok_of s0 s fs now /\ forall k, fs (dict_path e (dict_of s0 k)) = s_fs s (dict_path e (dict_of s0 k)).
