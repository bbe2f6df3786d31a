(** * Model of Tokenizer.initialize and its surroundings, jieba/__init__.py:93-170

    A small-step machine: any number of threads, each in check_initialized() of
    one Tokenizer (lines 168-170) or in initialize(dictionary), over a shared file
    system, the attributes of the Tokenizers, their locks and the module-global
    DICT_WRITING.  Every read or write of shared data, every lock operation and
    every file operation is one step.

    Simplifications: a file is read in one step; directories, permissions and
    logging are left out; [marshal.dump] reads the two attributes in one step. *)
From Verif Require Import PyBase PyRegex PyNum ModelFinalseg ModelSeg ModelDict.

(** ** The file system *)

Definition path := str.
(** a file as [open], [os.path.getmtime] see it, jieba/__init__.py:131,135,378 *)
Record file := mkFile { f_bytes : bytes; f_mtime : Z }.

(** iterating over a file opened in binary mode: a line ends with its newline *)
Fixpoint file_lines (b : bytes) : list bytes :=
  match b with
  | [] => []
  | x :: b' =>
      if (x =? 10)%N then [x] :: file_lines b'
      else match file_lines b' with
           | [] => [[x]]
           | l :: ls => (x :: l) :: ls
           end
  end.

(** ** The outside world: functions of the standard library and of the system *)
Record env := mkEnv {
  e_abs : path -> path;            (* _get_abs_path, line 22 *)
  e_default : path;                (* the file behind get_module_res("dict.txt"), _compat.py:20-27 *)
  e_tmp : path;                    (* tempfile.gettempdir() *)
  e_join : path -> path -> path;   (* os.path.join *)
  e_md5 : path -> str;             (* md5(abs_path.encode(...)).hexdigest() *)
  e_dump : freqs * Z -> bytes;     (* marshal.dump *)
  e_load : bytes -> option (freqs * Z);   (* marshal.load; None is any exception *)
  e_temp : path -> path -> bool;   (* e_temp c q: q can be a temporary file beside c *)
}.

(** "jieba.cache", "jieba.u", ".cache" *)
Definition s_jieba_cache : str := [106; 105; 101; 98; 97; 46; 99; 97; 99; 104; 101]%N.
(** ["jieba.u%s.cache"], jieba/__init__.py:122 *)
Definition s_jieba_u : str := [106; 105; 101; 98; 97; 46; 117]%N.
(** ["jieba.u%s.cache"], jieba/__init__.py:122 *)
Definition s_dot_cache : str := [46; 99; 97; 99; 104; 101]%N.

(** ** Attributes of a Tokenizer, lines 55-66; [None] for the dictionary is
    [DEFAULT_DICT] *)
Record mem := mkMem {
  m_dict : option path;
  m_freq : freqs;
  m_total : Z;
  m_tags : sdict str;
  m_init : bool;
  m_tmpdir : option path;
  m_cache : option path;
}.

(** a new Tokenizer, lines 55-66 *)
Definition new_mem (e : env) (dictionary : option path) : mem :=
  mkMem (option_map (e_abs e) dictionary) [] 0 [] false None None.

(** [self.FREQ = ...], jieba/__init__.py:136,145 *)
Definition set_freq (m : mem) (fr : freqs) : mem :=
  mkMem (m_dict m) fr (m_total m) (m_tags m) (m_init m) (m_tmpdir m) (m_cache m).
(** [self.total = ...], jieba/__init__.py:136,145 *)
Definition set_total (m : mem) (t : Z) : mem :=
  mkMem (m_dict m) (m_freq m) t (m_tags m) (m_init m) (m_tmpdir m) (m_cache m).
(** [self.initialized = ...], jieba/__init__.py:100,163 *)
Definition set_init (m : mem) (b : bool) : mem :=
  mkMem (m_dict m) (m_freq m) (m_total m) (m_tags m) b (m_tmpdir m) (m_cache m).
(** [self.dictionary = ...], jieba/__init__.py:99 *)
Definition set_dict (m : mem) (d : option path) : mem :=
  mkMem d (m_freq m) (m_total m) (m_tags m) (m_init m) (m_tmpdir m) (m_cache m).

Section Env.
  Variable e : env.

  (** [x or y] for strings and None *)
  Definition or_else (x : option path) (y : path) : path :=
    match x with Some (c :: p) => c :: p | _ => y end.

  (** lines 115-125: the path of the cache file *)
  Definition cache_path (m : mem) (p : option path) : path :=
    e_join e (or_else (m_tmpdir m) (e_tmp e))
      (or_else (m_cache m)
         (match p with
          | None => s_jieba_cache
          | Some a => s_jieba_u ++ e_md5 e a ++ s_dot_cache
          end)).

  (** get_dict_file, lines 374-378: the file read *)
  Definition dict_path (p : option path) : path :=
    match p with None => e_default e | Some a => a end.

  (** line 145: [self.gen_pfdict(self.get_dict_file())]; get_dict_file looks at
      [self.dictionary] again *)
  Definition build (fs : path -> option file) (p : option path) : res (freqs * Z) :=
    match fs (dict_path p) with
    | None => Err FileNotFound
    | Some f => gen_pfdict (file_lines (f_bytes f))
    end.

  (** ** Threads *)

  (** where a thread is, with its local variables: [p] is [abs_path], [c] is
      [cache_file], [l] is [wlock], [x] a loaded dictionary, [q] the temporary
      file with [k] bytes of [x] written *)
  Inductive pc :=
  | PCheck                                     (* 169: if not self.initialized *)
  | PInit (arg : option path)                  (* 94-101 *)
  | PInitSet (a : path)                        (* 99: self.dictionary = abs_path *)
  | PInitUnset (a : path)                      (* 100: self.initialized = False *)
  | PInitPath                                  (* 102: abs_path = self.dictionary *)
  | PLock (p : option path)                    (* 104: with self.lock *)
  | PPeek (p : option path)                    (* 106: DICT_WRITING[abs_path] *)
  | PPeekLock (p : option path) (l : nat)      (* 106: with ... *)
  | PPeekUnlock (p : option path) (l : nat)    (* 107: pass *)
  | PTest (p : option path)                    (* 110 *)
  | PName (p : option path)                    (* 115-127 *)
  | PIsfile (p : option path) (c : path)       (* 130 *)
  | PMtime (p : option path) (c : path)        (* 131: getmtime(cache_file) *)
  | PMtime2 (p : option path) (c : path) (t : Z)   (* 131: > getmtime(abs_path) *)
  | PLoad (p : option path) (c : path)         (* 135-136: marshal.load *)
  | PLoadFreq (p : option path) (x : freqs * Z)    (* 136: self.FREQ = ... *)
  | PLoadTotal (p : option path) (x : freqs * Z)   (* 136: self.total = ... *)
  | PWget (p : option path) (c : path)         (* 142: DICT_WRITING.get *)
  | PWset (p : option path) (c : path) (l : nat)   (* 143 *)
  | PWlock (p : option path) (c : path) (l : nat)  (* 144: with wlock *)
  | PBuild (p : option path) (c : path) (l : nat)  (* 145: gen_pfdict *)
  | PBuildFreq (p : option path) (c : path) (l : nat) (x : freqs * Z)
  | PBuildTotal (p : option path) (c : path) (l : nat) (x : freqs * Z)
  | PTemp (p : option path) (c : path) (l : nat)   (* 150: mkstemp *)
  | PDump (p : option path) (c : path) (l : nat) (q : path) (x : freqs * Z) (k : nat)  (* 151-153 *)
  | PRename (p : option path) (c : path) (l : nat) (q : path)  (* 154 *)
  | PWunlock (p : option path) (l : nat)       (* 144: end of with *)
  | PDel (p : option path)                     (* 158-161: del DICT_WRITING[abs_path] *)
  | PSetInit                                   (* 163: self.initialized = True *)
  | PUnlock                                    (* 104: end of with *)
  | PWunlockExn (l : nat) (x : exn)            (* an exception leaves line 145 ... *)
  | PUnlockExn (x : exn)                       (* ... and line 104 *)
  | PPassed                                    (* check_initialized/initialize returned *)
  | PGotFreq (fr : freqs)                      (* the caller has read self.FREQ ... *)
  | PGot (fr : freqs) (total : Z)              (* ... and self.total, and is done *)
  | PRaised (x : exn)                          (* ended by an exception *)
  | PDead.                                     (* the process was killed *)

  (** ** Shared state *)

  (** locks: the [self.lock] of a Tokenizer, or the [n]-th [RLock()] of line 142 in
      a process *)
  Inductive lockid := LSelf (tok : nat) | LWriting (proc n : nat).
  (** which lock, jieba/__init__.py:56,142 *)
  Definition lock_eqb (a b : lockid) : bool :=
    match a, b with
    | LSelf i, LSelf j => (i =? j)%nat
    | LWriting i n, LWriting j m => (i =? j)%nat && (n =? m)%nat
    | _, _ => false
    end.

  (** [self.dictionary == abs_path], jieba/__init__.py:96 *)
  Definition opath_eqb (a b : option path) : bool :=
    match a, b with
    | None, None => true
    | Some x, Some y => str_eqb x y
    | _, _ => false
    end.

  (** the shared data of jieba/__init__.py:55-66,93-170 and the place of every thread *)
  Record state := mkState {
    s_fs : path -> option file;
    s_now : Z;                                   (* the clock *)
    s_tok : nat -> mem;
    s_lock : lockid -> option (nat * nat);       (* owner and depth of an RLock *)
    s_writing : nat -> option path -> option nat;  (* DICT_WRITING of each process *)
    s_next : nat;                                (* number of RLock objects made so far *)
    s_pc : nat -> pc;
    s_log : list (nat * (freqs * Z));            (* not in the code: successful loads, by tokenizer *)
  }.

  (** writing one attribute, one lock, one thread; see [step] for the lines *)
  Definition upd {A} (f : nat -> A) (i : nat) (x : A) : nat -> A :=
    fun j => if (j =? i)%nat then x else f j.
  (** writing one file; see [step] for the lines *)
  Definition upd_fs (f : path -> option file) (p : path) (x : option file) : path -> option file :=
    fun q => if str_eqb q p then x else f q.

  (** a thread goes on to its next line; see [step] *)
  Definition goto (s : state) (t : nat) (c : pc) : state :=
    mkState (s_fs s) (s_now s) (s_tok s) (s_lock s) (s_writing s) (s_next s) (upd (s_pc s) t c) (s_log s).
  (** writing the attributes of one Tokenizer; see [step] *)
  Definition with_tok (s : state) (k : nat) (m : mem) : state :=
    mkState (s_fs s) (s_now s) (upd (s_tok s) k m) (s_lock s) (s_writing s) (s_next s) (s_pc s) (s_log s).
  (** writing a file; see [step] *)
  Definition with_fs (s : state) (fs : path -> option file) : state :=
    mkState fs (s_now s) (s_tok s) (s_lock s) (s_writing s) (s_next s) (s_pc s) (s_log s).
  (** taking or releasing a lock, jieba/__init__.py:104,106,144 *)
  Definition with_lock (s : state) (l : lockid) (o : option (nat * nat)) : state :=
    mkState (s_fs s) (s_now s) (s_tok s) (fun j => if lock_eqb j l then o else s_lock s j)
            (s_writing s) (s_next s) (s_pc s) (s_log s).
  (** [DICT_WRITING[abs_path] = wlock] and [del], jieba/__init__.py:143,159 *)
  Definition with_writing (s : state) (proc : nat) (p : option path) (o : option nat) : state :=
    mkState (s_fs s) (s_now s) (s_tok s) (s_lock s)
            (upd (s_writing s) proc (fun r => if opath_eqb r p then o else s_writing s proc r))
            (s_next s) (s_pc s) (s_log s).
  (** [threading.RLock()] makes a lock that is not used yet, jieba/__init__.py:142 *)
  Definition with_next (s : state) (n : nat) : state :=
    mkState (s_fs s) (s_now s) (s_tok s) (s_lock s) (s_writing s) n (s_pc s) (s_log s).
  (** ghost: what was loaded, jieba/__init__.py:136,145 *)
  Definition with_log (s : state) (k : nat) (x : freqs * Z) : state :=
    mkState (s_fs s) (s_now s) (s_tok s) (s_lock s) (s_writing s) (s_next s) (s_pc s) ((k, x) :: s_log s).

  (** RLock.acquire by thread [t]: [None] while another thread holds it *)
  Definition acquire (o : option (nat * nat)) (t : nat) : option (nat * nat) :=
    match o with
    | None => Some (t, 1)%nat
    | Some (u, d) => if (u =? t)%nat then Some (t, S d) else None
    end.
  (** RLock.release by its owner *)
  Definition release (o : option (nat * nat)) : option (nat * nat) :=
    match o with Some (t, S (S d)) => Some (t, S d) | _ => None end.

  (** the Tokenizer a thread works on, and the process of a Tokenizer *)
  Variable tok_of : nat -> nat.
  Variable proc_of : nat -> nat.

  (** thread [t] takes the lock [l] and goes on at [c] *)
  Definition acquired (s : state) (t : nat) (l : lockid) (c : pc) : option state :=
    match acquire (s_lock s l) t with
    | Some o => Some (goto (with_lock s l (Some o)) t c)
    | None => None
    end.
  (** the end of a [with], jieba/__init__.py:104,106,144 *)
  Definition released (s : state) (t : nat) (l : lockid) (c : pc) : state :=
    goto (with_lock s l (release (s_lock s l))) t c.

  (** one step of thread [t] *)
  Inductive step (t : nat) (s : state) : state -> Prop :=
  | st_check : s_pc s t = PCheck ->
      step t s (goto s t (if m_init (s_tok s (tok_of t)) then PPassed else PInitPath))
  (* 94-101; an empty path counts as none *)
  | st_init_none a : s_pc s t = PInit a -> a = None \/ a = Some [] -> step t s (goto s t PInitPath)
  | st_init_some a : s_pc s t = PInit (Some a) -> a <> [] ->
      step t s (goto s t (let m := s_tok s (tok_of t) in
                          if opath_eqb (m_dict m) (Some (e_abs e a)) && m_init m then PPassed
                          else PInitSet (e_abs e a)))
  | st_init_set a : s_pc s t = PInitSet a ->
      step t s (goto (with_tok s (tok_of t) (set_dict (s_tok s (tok_of t)) (Some a))) t (PInitUnset a))
  | st_init_unset a : s_pc s t = PInitUnset a ->
      step t s (goto (with_tok s (tok_of t) (set_init (s_tok s (tok_of t)) false)) t (PLock (Some a)))
  | st_init_path : s_pc s t = PInitPath ->
      step t s (goto s t (PLock (m_dict (s_tok s (tok_of t)))))
  | st_lock p s' : s_pc s t = PLock p ->
      acquired s t (LSelf (tok_of t)) (PPeek p) = Some s' -> step t s s'
  (* 105-109 *)
  | st_peek p : s_pc s t = PPeek p ->
      step t s (goto s t (match s_writing s (proc_of (tok_of t)) p with
                          | Some l => PPeekLock p l
                          | None => PTest p
                          end))
  | st_peek_lock p l s' : s_pc s t = PPeekLock p l ->
      acquired s t (LWriting (proc_of (tok_of t)) l) (PPeekUnlock p l) = Some s' -> step t s s'
  | st_peek_unlock p l : s_pc s t = PPeekUnlock p l ->
      step t s (released s t (LWriting (proc_of (tok_of t)) l) (PTest p))
  | st_test p : s_pc s t = PTest p ->
      step t s (goto s t (if m_init (s_tok s (tok_of t)) then PUnlock else PName p))
  | st_name p : s_pc s t = PName p ->
      step t s (goto s t (PIsfile p (cache_path (s_tok s (tok_of t)) p)))
  (* 129-131 *)
  | st_isfile p c : s_pc s t = PIsfile p c ->
      step t s (goto s t (match s_fs s c with
                          | None => PWget p c
                          | Some _ => match p with None => PLoad p c | Some _ => PMtime p c end
                          end))
  | st_mtime p c : s_pc s t = PMtime p c ->
      step t s (goto s t (match s_fs s c with
                          | None => PUnlockExn FileNotFound
                          | Some f => PMtime2 p c (f_mtime f)
                          end))
  | st_mtime2 p c m : s_pc s t = PMtime2 p c m ->
      step t s (goto s t (match s_fs s (dict_path p) with
                          | None => PUnlockExn FileNotFound
                          | Some f => if (f_mtime f <? m)%Z then PLoad p c else PWget p c
                          end))
  (* 134-139 *)
  | st_load_ok p c f x : s_pc s t = PLoad p c -> s_fs s c = Some f -> e_load e (f_bytes f) = Some x ->
      step t s (goto (with_log s (tok_of t) x) t (PLoadFreq p x))
  | st_load_fail p c : s_pc s t = PLoad p c ->
      match s_fs s c with Some f => e_load e (f_bytes f) = None | None => True end ->
      step t s (goto s t (PWget p c))
  | st_load_freq p x : s_pc s t = PLoadFreq p x ->
      step t s (goto (with_tok s (tok_of t) (set_freq (s_tok s (tok_of t)) (fst x))) t (PLoadTotal p x))
  | st_load_total p x : s_pc s t = PLoadTotal p x ->
      step t s (goto (with_tok s (tok_of t) (set_total (s_tok s (tok_of t)) (snd x))) t PSetInit)
  (* 142-144 *)
  | st_wget p c : s_pc s t = PWget p c ->
      step t s (match s_writing s (proc_of (tok_of t)) p with
                | Some l => goto s t (PWset p c l)
                | None => goto (with_next s (S (s_next s))) t (PWset p c (s_next s))
                end)
  | st_wset p c l : s_pc s t = PWset p c l ->
      step t s (goto (with_writing s (proc_of (tok_of t)) p (Some l)) t (PWlock p c l))
  | st_wlock p c l s' : s_pc s t = PWlock p c l ->
      acquired s t (LWriting (proc_of (tok_of t)) l) (PBuild p c l) = Some s' -> step t s s'
  (* 145 *)
  | st_build_ok p c l x : s_pc s t = PBuild p c l -> build (s_fs s) (m_dict (s_tok s (tok_of t))) = Ok x ->
      step t s (goto (with_log s (tok_of t) x) t (PBuildFreq p c l x))
  | st_build_err p c l x : s_pc s t = PBuild p c l -> build (s_fs s) (m_dict (s_tok s (tok_of t))) = Err x ->
      step t s (goto s t (PWunlockExn l x))
  | st_build_freq p c l x : s_pc s t = PBuildFreq p c l x ->
      step t s (goto (with_tok s (tok_of t) (set_freq (s_tok s (tok_of t)) (fst x))) t (PBuildTotal p c l x))
  | st_build_total p c l x : s_pc s t = PBuildTotal p c l x ->
      step t s (goto (with_tok s (tok_of t) (set_total (s_tok s (tok_of t)) (snd x))) t (PTemp p c l))
  (* 148-156: every operation may fail, which is caught *)
  | st_dump_fail p c l : s_pc s t = PTemp p c l \/ (exists q x k, s_pc s t = PDump p c l q x k)
                         \/ (exists q, s_pc s t = PRename p c l q) ->
      step t s (goto s t (PWunlock p l))
  | st_temp p c l q : s_pc s t = PTemp p c l -> e_temp e c q = true -> s_fs s q = None ->
      step t s (goto (with_fs s (upd_fs (s_fs s) q (Some (mkFile [] (s_now s))))) t
                     (PDump p c l q (m_freq (s_tok s (tok_of t)), m_total (s_tok s (tok_of t))) 0))
  | st_dump p c l q x k k' : s_pc s t = PDump p c l q x k -> k < k' <= length (e_dump e x) ->
      step t s (goto (with_fs s (upd_fs (s_fs s) q (Some (mkFile (firstn k' (e_dump e x)) (s_now s))))) t
                     (PDump p c l q x k'))
  | st_dumped p c l q x : s_pc s t = PDump p c l q x (length (e_dump e x)) ->
      step t s (goto s t (PRename p c l q))
  | st_rename p c l q f : s_pc s t = PRename p c l q -> s_fs s q = Some f ->
      step t s (goto (with_fs s (upd_fs (upd_fs (s_fs s) q None) c (Some f))) t (PWunlock p l))
  | st_wunlock p l : s_pc s t = PWunlock p l ->
      step t s (released s t (LWriting (proc_of (tok_of t)) l) (PDel p))
  | st_del p : s_pc s t = PDel p ->
      step t s (goto (with_writing s (proc_of (tok_of t)) p None) t PSetInit)
  | st_set_init : s_pc s t = PSetInit ->
      step t s (goto (with_tok s (tok_of t) (set_init (s_tok s (tok_of t)) true)) t PUnlock)
  | st_unlock : s_pc s t = PUnlock ->
      step t s (released s t (LSelf (tok_of t)) PPassed)
  | st_wunlock_exn l x : s_pc s t = PWunlockExn l x ->
      step t s (released s t (LWriting (proc_of (tok_of t)) l) (PUnlockExn x))
  | st_unlock_exn x : s_pc s t = PUnlockExn x ->
      step t s (released s t (LSelf (tok_of t)) (PRaised x))
  (* the caller goes on to use the dictionary, e.g. lines 185 and 175 *)
  | st_get_freq : s_pc s t = PPassed ->
      step t s (goto s t (PGotFreq (m_freq (s_tok s (tok_of t)))))
  | st_get_total fr : s_pc s t = PGotFreq fr ->
      step t s (goto s t (PGot fr (m_total (s_tok s (tok_of t))))).

  (** a thread that is done *)
  Definition finished (c : pc) : Prop :=
    match c with PGot _ _ | PRaised _ | PDead => True | _ => False end.
End Env.
