(** * Switching the paddle mode on, jieba/_compat.py, and the calls that look at the switch

    Python 3, no parallel mode.  Whether a module can be imported is decided by the
    environment of each call; a version is a [str].  The dictionary is that of the moment:
    calls that change it are in ModelApi, none of them touches the switch. *)
From Verif Require Import PyBase PyNum ModelFinalseg ModelSeg ModelPosseg ModelArgs ModelLac.

(** an [import] statement: the module (here: what is used of it), [ImportError], or some
    other exception raised by the module's own code, jieba/_compat.py:28,33,46 *)
Inductive imported (A : Type) := Imported (a : A) | NoModule | Raises (e : exn).
Arguments Imported {A} _. Arguments NoModule {A}. Arguments Raises {A} _.

(** what a call of [enable_paddle] finds, jieba/_compat.py:28,33,46 *)
Record paddle_env := mkEnv {
  first_try : imported str;       (* line 28, [paddle.__version__] *)
  second_try : imported str;      (* line 33, after [pip install] *)
  predict : imported unit }.      (* line 46 *)

(** what it does besides, jieba/_compat.py:30,31,35,39,47,50 *)
Inductive paddle_event :=
| SaysInstalling | RunsPip | SaysBackToBasic | SaysTooOld | SaysEnabled | SaysNoPredict.

(** how it ends, jieba/_compat.py:27-51 *)
Inductive paddle_end := Returned | UnboundLocal | Propagated (e : exn).

(** ['1.6.1'], jieba/_compat.py:38 *)
Definition s_161 : str := [49; 46; 54; 46; 49]%N.

(** lines 38-51; [paddle] is the local variable, unbound if no import succeeded *)
Definition enable_rest (flag : bool) (paddle : option str) (p : imported unit)
  : bool * list paddle_event * paddle_end :=
  match paddle with
  | None => (flag, [], UnboundLocal)
  | Some v =>
      if str_ltb v s_161 then (flag, [SaysTooOld], Returned)
      else match p with
           | Imported _ => (true, [SaysEnabled], Returned)
           | NoModule => (flag, [SaysNoPredict], Returned)
           | Raises e => (flag, [], Propagated e)
           end
  end.

(** [enable_paddle], lines 27-51; the first component is
    [check_paddle_install['is_paddle_installed']] afterwards *)
Definition enable_paddle (flag : bool) (e : paddle_env) : bool * list paddle_event * paddle_end :=
  match first_try e with
  | Imported v => enable_rest flag (Some v) (predict e)
  | Raises x => (flag, [], Propagated x)
  | NoModule =>
      match second_try e with
      | Imported v =>
          let '(f, l, r) := enable_rest flag (Some v) (predict e) in (f, SaysInstalling :: RunsPip :: l, r)
      | Raises x => (flag, [SaysInstalling; RunsPip], Propagated x)
      | NoModule =>
          let '(f, l, r) := enable_rest flag None (predict e) in
          (f, SaysInstalling :: RunsPip :: SaysBackToBasic :: l, r)
      end
  end.

Section Calls.
  Variable num : Num.
  Variable H : hmm num.
  Variable T : ptables num.
  Variable ord : orders.
  Variables (fr : freqs) (total : Z) (force : list str) (tab : sdict str).
  Variables (ds : dataset) (net : list Z -> res (list Z)) (gbk : bytes -> str).

  (** the calls with an argument [use_paddle], jieba/__init__.py:289, posseg/__init__.py:273,307 *)
  Inductive pcall :=
  | JCut (cut_all HMM use_paddle : bool) (a : arg)
  | PsCut (HMM use_paddle : bool) (a : arg)
  | PsLcut (HMM use_paddle : bool) (a : arg).

  (** words, with tags from the tagger *)
  Inductive pres := PWords (g : gen str) | PPairs (g : gen tagged).

  (** the bodies, jieba/__init__.py:299-336, posseg/__init__.py:280-304, 307-310 *)
  Definition run_call (flag : bool) (c : pcall) : pres :=
    match c with
    | JCut cut_all HMM use a =>
        PWords (if use && flag then paddle_cut ds net gbk a
                else cut num H (mode_of cut_all HMM) fr total force (strdecode gbk a))
    | PsCut HMM use a =>
        PPairs (if use && flag then paddle_pos_cut ds net gbk a
                else ps_cut T ord HMM tab fr total (strdecode gbk a))
    | PsLcut HMM use a =>
        if use then PPairs (if flag then paddle_pos_cut ds net gbk a
                            else ps_cut T ord true tab fr total (strdecode gbk a))
        else PPairs (ps_cut T ord HMM tab fr total (strdecode gbk a))
    end.

  (** the switch and the generator objects made so far (all three bodies run at the first
      [next], [list(...)] runs one at once), jieba/_compat.py:15 *)
  Record pstate_t := mkPaddle { p_flag : bool; p_gens : list (option pcall) }.

  (** one call by the user, jieba/_compat.py:27, jieba/__init__.py:289, posseg/__init__.py:273,307 *)
  Inductive paction :=
  | PEnable (e : paddle_env)
  | PMake (c : pcall)               (* make a generator *)
  | PRun (i : nat).                 (* list(generator number i) *)

  (** what the user sees *)
  Inductive pseen := SeenEnd (l : list paddle_event) (r : paddle_end) | SeenGen (i : nat) | SeenRes (r : pres) | SeenNothing.

  (** generator [i] is used up, jieba/__init__.py:289, posseg/__init__.py:273 *)
  Fixpoint use_up (i : nat) (l : list (option pcall)) : list (option pcall) :=
    match l, i with
    | [], _ => []
    | _ :: l', O => None :: l'
    | x :: l', S i' => x :: use_up i' l'
    end.

  (** jieba/_compat.py:27-51, jieba/__init__.py:299, posseg/__init__.py:280 *)
  Definition pact (p : pstate_t) (a : paction) : pstate_t * pseen :=
    match a with
    | PEnable e => let '(f, l, r) := enable_paddle (p_flag p) e in (mkPaddle f (p_gens p), SeenEnd l r)
    | PMake c => (mkPaddle (p_flag p) (p_gens p ++ [Some c]), SeenGen (length (p_gens p)))
    | PRun i =>
        match nth_error (p_gens p) i with
        | Some (Some c) => (mkPaddle (p_flag p) (use_up i (p_gens p)), SeenRes (run_call (p_flag p) c))
        | _ => (p, SeenNothing)
        end
    end.

  (** a history of calls, from a fresh process (jieba/_compat.py:15) *)
  Definition pacts (l : list paction) : pstate_t :=
    fold_left (fun p a => fst (pact p a)) l (mkPaddle false []).
End Calls.
