(** * Tagging in parallel mode, jieba/posseg/__init__.py:242-305

    [jieba.enable_parallel] forks the worker processes with a copy of the module
    ([jieba.posseg] imported before); [posseg.cut] gives the lines of the text to
    them.  A worker keeps its copy of the tokenizer and the tagger from one line to
    the next, and its first line makes the tagger take over the user tags that wait
    in the copy. *)
From Verif Require Import PyBase PyRegex PyNum ModelFinalseg ModelSeg ModelDict ModelApi ModelParallel ModelPosseg.

Section Par.
  Variable num : Num.
  Variable H : hmm num.
  Variable T : ptables num.
  Variable ord : orders.

  (** a call of [_lcut_internal] or [_lcut_internal_no_hmm] (lines 265-270, 242-246) *)
  Definition is_cut0 (o : pop) : bool := match o with PCut O _ _ => true | _ => false end.

  (** what a worker forked with [w0] may return for a line: it has handled other
      lines before *)
  Definition worker (w0 : pworld) (HMM : bool) (part : str) (r : res (list tagged)) : Prop :=
    exists os g, forallb is_cut0 os = true /\
      snd (do_pop num H T ord (do_pops num H T ord w0 os) (PCut 0 HMM part)) = PWords g /\
      r = g_list g.

  (** what [pool.map] returns or raises, when a part may have several results *)
  Definition pool_any {A B} (f : A -> res B -> Prop) (parts : list A) (r : res (list B)) : Prop :=
    (exists rs, r = Ok rs /\ Forall2 (fun p x => f p (Ok x)) parts rs) \/
    (exists p e, r = Err e /\ In p parts /\ f p (Err e)).

  (** lines 296-304: the possible results *)
  Definition ppos_cut (w0 : pworld) (HMM : bool) (s : str) (g : gen tagged) : Prop :=
    exists r, pool_any (worker w0 HMM) (splitlines_keep s) r /\ g = give_out r.

  (** ** The module: [jieba.dt] and [posseg.dt] of this process, and [jieba.pool] with
      what its workers were forked with *)
  Record pmodule := mkPM { pm_w : pworld; pm_pool : option pworld }.

  (** jieba/__init__.py:590-619, posseg/__init__.py:273-305 *)
  Inductive pmevent :=
  | PmEnable                        (* jieba.enable_parallel, jieba/__init__.py:590-610 *)
  | PmDisable                       (* jieba.disable_parallel, jieba/__init__.py:613-619 *)
  | PmCall (o : pop)                (* a call in this process *)
  | PmCut (HMM : bool) (s : str).   (* posseg.cut *)

  Inductive pmstep (m : pmodule) : pmevent -> pmodule -> pout -> Prop :=
  | pm_enable : pmstep m PmEnable (mkPM (pm_w m) (Some (pm_w m))) PUnit
  | pm_disable : pmstep m PmDisable (mkPM (pm_w m) None) PUnit
  | pm_call o : pmstep m (PmCall o) (mkPM (fst (do_pop num H T ord (pm_w m) o)) (pm_pool m))
                       (snd (do_pop num H T ord (pm_w m) o))
  | pm_cut HMM s : pm_pool m = None ->
      pmstep m (PmCut HMM s) (mkPM (fst (mod_cut num H T ord (pm_w m) s HMM false)) None)
             (snd (mod_cut num H T ord (pm_w m) s HMM false))
  | pm_pcut HMM s w0 g : pm_pool m = Some w0 -> ppos_cut w0 HMM s g ->
      pmstep m (PmCut HMM s) m (PWords g).

  (** a history of such calls *)
  Inductive pmrun (m : pmodule) : list pmevent -> pmodule -> Prop :=
  | pmrun_nil : pmrun m [] m
  | pmrun_cons ev evs m1 m2 r : pmstep m ev m1 r -> pmrun m1 evs m2 -> pmrun m (ev :: evs) m2.
End Par.
