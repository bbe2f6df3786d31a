(** * Parallel segmentation, jieba/__init__.py:542-619

    The worker processes are forked by [Pool(processnum)] (the start method of
    POSIX systems jieba supports); a worker that dies and is replaced is not
    modelled.  [_pcut] is a generator; here it is consumed at once. *)
From Verif Require Import PyBase PyRegex PyNum ModelFinalseg ModelSeg ModelDict ModelApi.

Section Par.
  Variable num : Num.
  Variable H : hmm num.

  (** what [pool.map(f, parts)] returns or raises: the results in order, or the
      exception of one of the parts (which one depends on the scheduling) *)
  Definition pool_map {A B} (f : A -> res B) (parts : list A) (r : res (list B)) : Prop :=
    (exists rs, r = Ok rs /\ Forall2 (fun p x => f p = Ok x) parts rs) \/
    (exists p e, r = Err e /\ In p parts /\ f p = Err e).

  (** lines 574-576, 585-587 *)
  Definition give_out {A} (r : res (list (list A))) : gen A :=
    match r with Ok rs => gof (concat rs) | Err e => gerr e end.

  (** [_lcut], [_lcut_no_hmm], [_lcut_all] (lines 356-372, 542-563) in a worker with the dictionary [d] *)
  Definition w_lcut (d : dstate) (cut_all hmm : bool) (part : str) : res (list str) :=
    g_list (cut num H (mode_of cut_all hmm) (d_freq d) (d_total d) (d_force d) part).
  (** [_lcut_for_search] and [_lcut_for_search_no_hmm], jieba/__init__.py:558-563 *)
  Definition w_lcut_for_search (d : dstate) (hmm : bool) (part : str) : res (list str) :=
    g_list (cut_for_search num H hmm (d_freq d) (d_total d) (d_force d) part).

  (** [_pcut], lines 566-576, and [_pcut_for_search], lines 579-587: the possible results *)
  Definition pcut (d : dstate) (cut_all hmm : bool) (sentence : str) (g : gen str) : Prop :=
    exists r, pool_map (w_lcut d cut_all hmm) (splitlines_keep sentence) r /\ g = give_out r.
  (** [_pcut_for_search], jieba/__init__.py:579-587 *)
  Definition pcut_for_search (d : dstate) (hmm : bool) (sentence : str) (g : gen str) : Prop :=
    exists r, pool_map (w_lcut_for_search d hmm) (splitlines_keep sentence) r /\ g = give_out r.

  (** ** The module: [dt] (initialised), [pool] and what [jieba.cut] is bound to *)
  Record module := mkModule {
    md_dt : dstate;              (* the Tokenizer of this process and Force_Split_Words *)
    md_pool : option dstate;     (* [pool]: what its workers were forked with *)
    md_parallel : bool;          (* [cut is _pcut] *)
  }.

  (** calls of the module, jieba/__init__.py:525-619 *)
  Inductive pevent :=
  | PEnable                                  (* enable_parallel, 590-610 *)
  | PDisable                                 (* disable_parallel, 613-619 *)
  | PCall (o : op)                           (* a call of a method of dt *)
  | PChange (d : dstate)                     (* anything else that changes this process *)
  | PCut (cut_all hmm : bool) (s : str)      (* jieba.cut *)
  | PSearch (hmm : bool) (s : str).          (* jieba.cut_for_search *)

  (** [nt]: os.name == 'nt' *)
  Variable nt : bool.

  (** jieba/__init__.py:525-619 *)
  Inductive pstep (md : module) : pevent -> module -> out -> Prop :=
  | ps_enable : nt = false -> pstep md PEnable (mkModule (md_dt md) (Some (md_dt md)) true) OutUnit
  | ps_enable_nt : nt = true -> pstep md PEnable md (OutExn NotImplementedError)
  | ps_disable : pstep md PDisable (mkModule (md_dt md) None false) OutUnit
  | ps_call o : pstep md (PCall o) (mkModule (fst (do_op num H (md_dt md) o)) (md_pool md) (md_parallel md))
                      (snd (do_op num H (md_dt md) o))
  | ps_change d : pstep md (PChange d) (mkModule d (md_pool md) (md_parallel md)) OutUnit
  | ps_cut cut_all hmm s : md_parallel md = false ->
      pstep md (PCut cut_all hmm s) md (snd (do_op num H (md_dt md) (OpCut cut_all hmm s)))
  | ps_pcut cut_all hmm s d g : md_parallel md = true -> md_pool md = Some d -> pcut d cut_all hmm s g ->
      pstep md (PCut cut_all hmm s) md (OutWords g)
  | ps_search hmm s : md_parallel md = false ->
      pstep md (PSearch hmm s) md (snd (do_op num H (md_dt md) (OpCutForSearch hmm s)))
  | ps_psearch hmm s d g : md_parallel md = true -> md_pool md = Some d -> pcut_for_search d hmm s g ->
      pstep md (PSearch hmm s) md (OutWords g).

  (** a history of such calls, jieba/__init__.py:525-619 *)
  Inductive prun (md : module) : list pevent -> module -> Prop :=
  | prun_nil : prun md [] md
  | prun_cons ev evs md1 md2 r : pstep md ev md1 r -> prun md1 evs md2 -> prun md (ev :: evs) md2.
End Par.
