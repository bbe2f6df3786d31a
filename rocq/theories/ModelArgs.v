(** * Arguments that are [bytes]: jieba/_compat.py:76-82 and the calls that take text

    Python 3.  The GBK decoder with errors ignored is a library function kept
    abstract; it never fails. *)
From Verif Require Import PyBase PyRegex PyNum ModelFinalseg ModelSeg ModelDict ModelApi ModelPosseg
  ModelParallel ModelPosParallel.

(** an argument before [strdecode], jieba/_compat.py:76-77 *)
Inductive arg := AText (s : str) | ABytes (b : bytes).

Section Args.
  Variable gbk_ignore : bytes -> str.     (* sentence.decode('gbk', 'ignore') *)

  (** [strdecode], jieba/_compat.py:76-82 *)
  Definition strdecode (a : arg) : str :=
    match a with
    | AText s => s
    | ABytes b => match utf8_decode b with Some s => s | None => gbk_ignore b end
    end.

  (** the calls of [ModelApi.op], jieba/__init__.py *)
  Inductive aop :=
  | AAddWord (w : arg) (freq : option Z) (tag : option str)
  | ADelWord (w : arg)
  | ASuggest (s : arg) (tune : bool)              (* one argument, not a tuple *)
  | ASuggestParts (ws : list arg) (tune : bool)
  | AUserdict (lines : list uline)
  | ACut (cut_all hmm : bool) (s : arg)
  | ACutForSearch (hmm : bool) (s : arg)
  | ATokenize (tm : tmode) (hmm : bool) (s : arg)
  | AGetDAG (s : arg).

  Variable num : Num.
  Variable H : hmm num.

  (** jieba/__init__.py:300, 426, 458-474, 485-486, 180-197: where a call decodes its argument and where not *)
  Definition do_aop (d : dstate) (o : aop) : dstate * out :=
    match o with
    | AAddWord w f t => do_op num H d (OpAddWord (strdecode w) f t)           (* line 426 *)
    | ADelWord w => do_op num H d (OpDelWord (strdecode w))                   (* line 443 *)
    | ASuggest (AText s) tune => do_op num H d (OpSuggest (Whole s) tune)
    (* lines 461, 467: bytes are not a string type but a sequence of ints, which have no [decode] *)
    | ASuggest (ABytes []) tune => do_op num H d (OpSuggest (Parts []) tune)
    | ASuggest (ABytes _) tune => (d, OutExn AttributeError)
    | ASuggestParts ws tune => do_op num H d (OpSuggest (Parts (map strdecode ws)) tune)   (* line 467 *)
    | AUserdict lines => do_op num H d (OpUserdict lines)
    | ACut ca hmm s => do_op num H d (OpCut ca hmm (strdecode s))             (* line 300 *)
    | ACutForSearch hmm s => do_op num H d (OpCutForSearch hmm (strdecode s)) (* lines 342, 300 *)
    | ATokenize tm hmm (AText s) => do_op num H d (OpTokenize tm hmm s)
    | ATokenize tm hmm (ABytes _) => (d, OutTokens (gerr ValueError))         (* lines 485-486 *)
    | AGetDAG (AText s) => do_op num H d (OpGetDAG s)
    (* lines 186-195: [sentence[k]] is an int, which is no key of [FREQ] *)
    | AGetDAG (ABytes b) => (d, OutDAG (map (fun k => [k]) (seq 0 (length b))))
    end.

  (** a history of such calls, jieba/__init__.py *)
  Definition do_aops (d : dstate) (os : list aop) : dstate :=
    fold_left (fun d o => fst (do_aop d o)) os d.

  Variable T : ptables num.
  Variable ord : orders.

  (** tagging, jieba/posseg/__init__.py:216-218 *)
  Definition pos_cut (w : pworld) (i : nat) (HMM : bool) (a : arg) : pworld * pout :=
    do_pop num H T ord w (ModelPosseg.PCut i HMM (strdecode a)).

  (** parallel mode, jieba/__init__.py:566-567, 579-580, jieba/posseg/__init__.py:296 *)
  Definition apcut (d : dstate) (cut_all hmm : bool) (a : arg) : gen str -> Prop :=
    pcut num H d cut_all hmm (strdecode a).
  (** [_pcut_for_search], jieba/__init__.py:579-580 *)
  Definition apcut_for_search (d : dstate) (hmm : bool) (a : arg) : gen str -> Prop :=
    pcut_for_search num H d hmm (strdecode a).
  (** jieba/posseg/__init__.py:297-304 *)
  Definition appos_cut (w0 : pworld) (HMM : bool) (a : arg) : gen tagged -> Prop :=
    ppos_cut num H T ord w0 HMM (strdecode a).
End Args.
