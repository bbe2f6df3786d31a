(** * The dictionary calls of a Tokenizer as operations on its state *)
From Verif Require Import PyBase PyRegex PyNum ModelFinalseg ModelSeg ModelDict.

(** One call on an initialised Tokenizer.  [None] for a frequency is the default
    argument [freq=None]; a frequency given as a float or a string has gone
    through [int()] (jieba/__init__.py:429). *)
Inductive op :=
| OpAddWord (w : str) (freq : option Z) (tag : option str)   (* add_word, 418-437 *)
| OpDelWord (w : str)                                        (* del_word, 439-443 *)
| OpSuggest (s : segment) (tune : bool)                      (* suggest_freq, 445-474 *)
| OpUserdict (lines : list uline)                            (* load_userdict, 380-416 *)
| OpCut (cut_all hmm : bool) (s : str)                       (* cut, 289-336 *)
| OpCutForSearch (hmm : bool) (s : str)                      (* cut_for_search, 338-356 *)
| OpTokenize (tm : tmode) (hmm : bool) (s : str)          (* tokenize, 476-508 *)
| OpGetDAG (s : str).                                        (* get_DAG, 180-196 *)

(** what a call returns, or the exception it raises *)
Inductive out :=
| OutUnit
| OutInt (n : Z)
| OutWords (g : gen str)
| OutTokens (g : gen (str * nat * nat))
| OutDAG (d : list (list nat))
| OutExn (e : exn).

Section Api.
  Variable num : Num.
  Variable H : hmm num.

  (** one call, jieba/__init__.py:180-197, 289-508; the lines are given at [op] *)
  Definition do_op (d : dstate) (o : op) : dstate * out :=
    match o with
    | OpAddWord w f t =>
        match add_word num H d w f t with Ok d' => (d', OutUnit) | Err e => (d, OutExn e) end
    | OpDelWord w =>
        match del_word num H d w with Ok d' => (d', OutUnit) | Err e => (d, OutExn e) end
    | OpSuggest s tune =>
        match suggest_freq num H d s tune with Ok (n, d') => (d', OutInt n) | Err e => (d, OutExn e) end
    | OpUserdict lines =>
        match load_userdict num H d lines with
        | (d', None) => (d', OutUnit)
        | (d', Some e) => (d', OutExn e)
        end
    | OpCut cut_all hmm s =>
        (d, OutWords (cut num H (mode_of cut_all hmm) (d_freq d) (d_total d) (d_force d) s))
    | OpCutForSearch hmm s =>
        (d, OutWords (cut_for_search num H hmm (d_freq d) (d_total d) (d_force d) s))
    | OpTokenize tm hmm s =>
        (d, OutTokens (tokenize num H tm hmm (d_freq d) (d_total d) (d_force d) s))
    | OpGetDAG s => (d, OutDAG (get_DAG (d_freq d) s))
    end.

  (** a history of calls *)
  Definition do_ops (d : dstate) (os : list op) : dstate :=
    fold_left (fun d o => fst (do_op d o)) os d.

  (** states reached from a dictionary file (its lines) by a history of calls; the
      forced splits are a module-global set shared with other tokenizers, so they
      may hold anything at the start *)
  Definition reachable (d : dstate) : Prop :=
    exists lines fr total force os,
      gen_pfdict lines = Ok (fr, total) /\ d = do_ops (mkD fr total [] force) os.
End Api.
