(** * The names [jieba.cut], [jieba.cut_for_search] and [posseg.cut] and the generators they make

    jieba/__init__.py:511-619, jieba/posseg/__init__.py:256-310.  [enable_parallel] and
    [disable_parallel] change what two names of the module are bound to; the other names
    ([lcut], [tokenize], [add_word], ...) stay methods of [dt].  Calling a generator function
    makes an object and runs nothing: [_pcut] and [posseg.cut] look at [pool] when the object
    is first advanced.  Paddle mode is not enabled here.

    Simplification: an object of the sequential [dt.cut] is consumed in one go
    ([list(g)]); step by step it is in ModelTimed.  Arguments are texts. *)
From Verif Require Import PyBase PyRegex PyNum ModelFinalseg ModelSeg ModelDict ModelApi ModelParallel ModelPosseg
  ModelPosParallel.

(** the two functions with a parallel version and their arguments, jieba/__init__.py:289,338,566,579 *)
Inductive jfun :=
| FCut (cut_all hmm : bool)
| FSearch (hmm : bool).

(** generator objects: made and not yet advanced, or what is left *)
Inductive gobj :=
| JSeq (f : jfun) (s : str)                          (* of [dt.cut], [dt.cut_for_search] *)
| JPar (f : jfun) (s : str)                          (* of [_pcut], [_pcut_for_search] *)
| JRest (g : gen str)                                (* of one of these, advanced *)
| TNew (hmm : bool) (s : str)                        (* of [posseg.cut] *)
| TRest (g : gen tagged).                            (* advanced *)

Record names := mkNames {
  nm_w : pworld;               (* [jieba.dt], [posseg.dt] *)
  nm_pool : option pworld;     (* [jieba.pool]: what its workers were forked with, line 608 *)
  nm_par : bool;               (* [jieba.cut is _pcut], lines 609-610, 618-619 *)
  nm_objs : list gobj;
}.

(** what the program does, jieba/__init__.py:511-619, posseg/__init__.py:256-310 *)
Inductive nevent :=
| NEnable                                  (* enable_parallel, 590-610 *)
| NDisable                                 (* disable_parallel, 613-619 *)
| NOp (o : pop)                            (* a call of one of the other names *)
| NMake (f : jfun) (paddle : bool) (s : str)   (* jieba.cut(...), jieba.cut_for_search(...);
                                                  [paddle]: with a keyword argument [use_paddle] *)
| NTag (hmm : bool) (s : str)              (* posseg.cut(...) *)
| NNext (i : nat)                          (* next(g) *)
| NList (i : nat).                         (* list(g) *)

(** what it sees *)
Inductive nout :=
| NUnit
| NRes (o : pout)
| NObj (i : nat)                           (* a generator *)
| NWord (w : str)
| NTagged (t : tagged)
| NStop                                    (* StopIteration *)
| NExn (e : exn)
| NWords (r : res (list str))
| NTags (r : res (list tagged)).

Section Names.
  Variable num : Num.
  Variable H : hmm num.
  Variable T : ptables num.
  Variable ord : orders.

  (** [dt.cut] and [dt.cut_for_search], jieba/__init__.py:289-356 *)
  Definition seq_words (d : dstate) (f : jfun) (s : str) : gen str :=
    match f with
    | FCut cut_all hmm => cut num H (mode_of cut_all hmm) (d_freq d) (d_total d) (d_force d) s
    | FSearch hmm => cut_for_search num H hmm (d_freq d) (d_total d) (d_force d) s
    end.
  (** [_pcut] and [_pcut_for_search] with workers that have [d], jieba/__init__.py:566-587 *)
  Definition par_words (d : dstate) (f : jfun) (s : str) (g : gen str) : Prop :=
    match f with
    | FCut cut_all hmm => pcut num H d cut_all hmm s g
    | FSearch hmm => pcut_for_search num H d hmm s g
    end.

  (** whether the bound function takes [use_paddle]: only [dt.cut] does, jieba/__init__.py:289,338,566,579 *)
  Definition takes_paddle (par : bool) (f : jfun) : bool :=
    match par, f with false, FCut _ _ => true | _, _ => false end.

  (** running a generator object: what it yields and the world afterwards.
      [None.map] is an [AttributeError], jieba/__init__.py:569-573 *)
  Inductive run_words (w : pworld) (pool : option pworld) : gobj -> gen str -> Prop :=
  | rw_seq f s : run_words w pool (JSeq f s) (seq_words (pw_d w) f s)
  | rw_par f s w0 g : pool = Some w0 -> par_words (pw_d w0) f s g -> run_words w pool (JPar f s) g
  | rw_par_none f s : pool = None -> run_words w pool (JPar f s) (gerr AttributeError)
  | rw_rest g : run_words w pool (JRest g) g.

  (** posseg/__init__.py:291-304 *)
  Inductive run_tags (w : pworld) (pool : option pworld) : gobj -> pworld -> gen tagged -> Prop :=
  | rt_seq hmm s w' g : pool = None -> do_pop num H T ord w (PCut 0 hmm s) = (w', PWords g) ->
      run_tags w pool (TNew hmm s) w' g
  | rt_par hmm s w0 g : pool = Some w0 -> ppos_cut num H T ord w0 hmm s g -> run_tags w pool (TNew hmm s) w g
  | rt_rest g : run_tags w pool (TRest g) w g.

  (** whether an object is consumed in one go only (see above) *)
  Definition one_go (pool : option pworld) (o : gobj) : bool :=
    match o, pool with JSeq _ _, _ => true | TNew _ _, None => true | _, _ => false end.

  (** [next(g)] on what is left, or at the beginning *)
  Definition next_word (g : gen str) : nout * gobj :=
    match g with
    | (x :: l, e) => (NWord x, JRest (l, e))
    | ([], Some e) => (NExn e, JRest gnil)
    | ([], None) => (NStop, JRest gnil)
    end.
  (** the same for tagged words, posseg/__init__.py:302-304 *)
  Definition next_tagged (g : gen tagged) : nout * gobj :=
    match g with
    | (x :: l, e) => (NTagged x, TRest (l, e))
    | ([], Some e) => (NExn e, TRest gnil)
    | ([], None) => (NStop, TRest gnil)
    end.

  (** jieba/__init__.py:511-619, posseg/__init__.py:256-310 (POSIX) *)
  Inductive nstep (n : names) : nevent -> names -> nout -> Prop :=
  | n_enable : nstep n NEnable (mkNames (nm_w n) (Some (nm_w n)) true (nm_objs n)) NUnit
  | n_disable : nstep n NDisable (mkNames (nm_w n) None false (nm_objs n)) NUnit
  | n_op o : nstep n (NOp o) (mkNames (fst (do_pop num H T ord (nm_w n) o)) (nm_pool n) (nm_par n) (nm_objs n))
                   (NRes (snd (do_pop num H T ord (nm_w n) o)))
  | n_make f p s : p && negb (takes_paddle (nm_par n) f) = false ->
      nstep n (NMake f p s)
            (mkNames (nm_w n) (nm_pool n) (nm_par n) (nm_objs n ++ [if nm_par n then JPar f s else JSeq f s]))
            (NObj (length (nm_objs n)))
  | n_make_bad f p s : p && negb (takes_paddle (nm_par n) f) = true -> nstep n (NMake f p s) n (NExn TypeError)
  | n_tag hmm s :
      nstep n (NTag hmm s) (mkNames (nm_w n) (nm_pool n) (nm_par n) (nm_objs n ++ [TNew hmm s])) (NObj (length (nm_objs n)))
  | n_next i o g : nth_error (nm_objs n) i = Some o -> one_go (nm_pool n) o = false ->
      run_words (nm_w n) (nm_pool n) o g ->
      nstep n (NNext i) (mkNames (nm_w n) (nm_pool n) (nm_par n) (set_nth (nm_objs n) i (snd (next_word g))))
            (fst (next_word g))
  | n_next_tag i o w' g : nth_error (nm_objs n) i = Some o -> one_go (nm_pool n) o = false ->
      run_tags (nm_w n) (nm_pool n) o w' g ->
      nstep n (NNext i) (mkNames w' (nm_pool n) (nm_par n) (set_nth (nm_objs n) i (snd (next_tagged g))))
            (fst (next_tagged g))
  | n_list i o g : nth_error (nm_objs n) i = Some o -> run_words (nm_w n) (nm_pool n) o g ->
      nstep n (NList i) (mkNames (nm_w n) (nm_pool n) (nm_par n) (set_nth (nm_objs n) i (JRest gnil)))
            (NWords (g_list g))
  | n_list_tag i o w' g : nth_error (nm_objs n) i = Some o -> run_tags (nm_w n) (nm_pool n) o w' g ->
      nstep n (NList i) (mkNames w' (nm_pool n) (nm_par n) (set_nth (nm_objs n) i (TRest gnil)))
            (NTags (g_list g)).

  (** a history *)
  Inductive nrun (n : names) : list nevent -> names -> Prop :=
  | nrun_nil : nrun n [] n
  | nrun_cons ev evs n1 n2 r : nstep n ev n1 r -> nrun n1 evs n2 -> nrun n (ev :: evs) n2.
End Names.
