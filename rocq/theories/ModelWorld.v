(** * Several Tokenizers of one process, called one after the other

    jieba/__init__.py:55-66 (construction), 93-170 (initialize and
    check_initialized, here in one step; ModelInit.v has the small steps), 509-515
    (set_dictionary), and the calls of ModelApi.v preceded by check_initialized. *)
From Verif Require Import PyBase PyRegex PyNum ModelFinalseg ModelSeg ModelDict ModelApi ModelInit.

(** the attributes of all Tokenizers, jieba/__init__.py:55-66, the files, and finalseg/__init__.py:22 *)
Record world := mkWorld {
  w_fs : path -> option file;
  w_now : Z;
  w_tok : nat -> mem;
  w_force : list str;          (* finalseg.Force_Split_Words, one for all *)
}.

(** what becomes of the cache file, lines 148-156: written, or given up, possibly
    leaving a temporary file behind *)
Inductive dumping := Dumped | NotDumped (leftover : option (path * bytes)).

Section World.
  Variable e : env.
  Variable num : Num.
  Variable H : hmm num.

  (** jieba/__init__.py:148-156 *)
  Definition dumped_fs (how : dumping) (fs : path -> option file) (now : Z) (c : path) (x : freqs * Z)
    : path -> option file :=
    match how with
    | Dumped => upd_fs fs c (Some (mkFile (e_dump e x) now))
    | NotDumped (Some (q, b)) => upd_fs fs q (Some (mkFile b now))
    | NotDumped None => fs
    end.

  (** lines 129-131 and 134-139: the dictionary from the cache, if it is used;
      [Err] is getmtime of a missing dictionary *)
  Definition from_cache (fs : path -> option file) (p : option path) (c : path) : res (option (freqs * Z)) :=
    match fs c with
    | None => Ok None
    | Some f =>
        match p with
        | None => Ok (e_load e (f_bytes f))
        | Some a =>
            match fs a with
            | None => Err FileNotFound
            | Some d => Ok (if (f_mtime d <? f_mtime f)%Z then e_load e (f_bytes f) else None)
            end
        end
    end.

  (** jieba/__init__.py:136,145,163 *)
  Definition loaded_mem (m : mem) (x : freqs * Z) : mem := set_init (set_total (set_freq m (fst x)) (snd x)) true.

  (** lines 104-166: the attributes and the files afterwards, and the exception *)
  Definition load_dict (how : dumping) (fs : path -> option file) (now : Z) (m : mem)
    : mem * (path -> option file) * option exn :=
    if m_init m then (m, fs, None)
    else
      let c := cache_path e m (m_dict m) in
      match from_cache fs (m_dict m) c with
      | Err x => (m, fs, Some x)
      | Ok (Some x) => (loaded_mem m x, fs, None)
      | Ok None =>
          match build e fs (m_dict m) with
          | Err x => (m, fs, Some x)
          | Ok x => (loaded_mem m x, dumped_fs how fs now c x, None)
          end
      end.

  (** lines 93-102 *)
  Definition init_arg (m : mem) (arg : option path) : option mem :=
    match arg with
    | Some (ch :: a) =>
        let abs_path := e_abs e (ch :: a) in
        if opath_eqb (m_dict m) (Some abs_path) && m_init m then None
        else Some (set_init (set_dict m (Some abs_path)) false)
    | _ => Some m
    end.

  (** [initialize], jieba/__init__.py:93-166 *)
  Definition initialize (how : dumping) (fs : path -> option file) (now : Z) (m : mem) (arg : option path)
    : mem * (path -> option file) * option exn :=
    match init_arg m arg with
    | None => (m, fs, None)
    | Some m' => load_dict how fs now m'
    end.

  (** whether a call gets to check_initialized: the segmentation functions do when
      they come to a block of word characters (line 181) *)
  Definition needs_dict (o : op) : bool :=
    match o with
    | OpCut _ _ s | OpCutForSearch _ s | OpTokenize _ _ s => existsb is_word_char s
    | _ => true
    end.

  (** writing the attributes of one Tokenizer *)
  Definition with_mem (w : world) (k : nat) (m : mem) : world :=
    mkWorld (w_fs w) (w_now w) (upd (w_tok w) k m) (w_force w).

  (** [FREQ], [total], [user_word_tag_tab] of one Tokenizer and the shared set of forced splits, jieba/__init__.py:61-63, finalseg/__init__.py:22 *)
  Definition dstate_of (w : world) (k : nat) : dstate :=
    mkD (m_freq (w_tok w k)) (m_total (w_tok w k)) (m_tags (w_tok w k)) (w_force w).

  (** writing them, jieba/__init__.py:428-437 *)
  Definition put_dstate (w : world) (k : nat) (d : dstate) : world :=
    let m := w_tok w k in
    mkWorld (w_fs w) (w_now w)
      (upd (w_tok w) k (mkMem (m_dict m) (d_freq d) (d_total d) (d_tags d) (m_init m) (m_tmpdir m) (m_cache m)))
      (d_force d).

  (** calls and outside events, jieba/__init__.py:55-66, 93-170, 180-515 *)
  Inductive event :=
  | ENew (k : nat) (dictionary : option path)             (* 55-66 *)
  | EInit (k : nat) (arg : option path) (how : dumping)   (* 93-166 *)
  | ESetDict (k : nat) (p : path)                         (* 509-515 *)
  | ECall (k : nat) (o : op) (how : dumping)
  | EFiles (fs : path -> option file) (now : Z).          (* not a call: the files change *)

  (** check_initialized, lines 168-170 *)
  Definition do_check (w : world) (k : nat) (how : dumping) : world * option exn :=
    if m_init (w_tok w k) then (w, None)
    else let '(m, fs, x) := initialize how (w_fs w) (w_now w) (w_tok w k) None in
         (mkWorld fs (w_now w) (upd (w_tok w) k m) (w_force w), x).

  (** set_dictionary, lines 509-515 *)
  Definition set_dictionary (w : world) (k : nat) (p : path) : world * out :=
    let abs_path := e_abs e p in
    match w_fs w abs_path with
    | None => (w, OutExn PlainException)
    | Some _ => (with_mem w k (set_init (set_dict (w_tok w k) (Some abs_path)) false), OutUnit)
    end.

  (** an exception of check_initialized is the result of the call (what a generator
      yielded before it is left out) *)
  Definition do_call (w : world) (k : nat) (o : op) (how : dumping) : world * out :=
    let '(w1, x) := if needs_dict o then do_check w k how else (w, None) in
    match x with
    | Some x => (w1, OutExn x)
    | None => let '(d, r) := do_op num H (dstate_of w1 k) o in (put_dstate w1 k d, r)
    end.

  (** one event, jieba/__init__.py:55-66, 93-170, 180-515 *)
  Definition do_event (w : world) (ev : event) : world * out :=
    match ev with
    | ENew k p => (with_mem w k (new_mem e p), OutUnit)
    | EInit k arg how =>
        let '(m, fs, x) := initialize how (w_fs w) (w_now w) (w_tok w k) arg in
        (mkWorld fs (w_now w) (upd (w_tok w) k m) (w_force w),
         match x with None => OutUnit | Some x => OutExn x end)
    | ESetDict k p => set_dictionary w k p
    | ECall k o how => do_call w k o how
    | EFiles fs now => (mkWorld fs now (w_tok w) (w_force w), OutUnit)
    end.

  (** a history of events *)
  Definition do_events (w : world) (evs : list event) : world :=
    fold_left (fun w ev => fst (do_event w ev)) evs w.
End World.
