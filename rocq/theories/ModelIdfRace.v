(** * Threads that change the IDF file of one TFIDF object, and look values up meanwhile

    [TFIDF.set_idf_path], tfidf.py:68-73, [IDFLoader.set_new_path], lines 44-53, and
    [get_idf], lines 55-56, take no lock: the loader remembers the path, binds
    [self.idf_freq] to an empty dictionary, fills it line by line and then binds the
    median; after that the extractor binds its own [idf_freq] and [median_idf], one after
    the other.  [extract_tags] reads both for every keyword (line 107).  Under the
    interpreter's own lock one read or write of an attribute, one operation of a dictionary
    and one [sorted] of floats happen at once; between two of them another thread can run.
    Left out: the stop words (ModelRankRace.v) and the rest of [extract_tags], which reads
    nothing that these calls write. *)
From Verif Require Import PyBase PyNum ModelAnalyse ModelTagLoad.

Section Idf.
  Variable num : Num.
  Notation F := (F num).
  Variable float_of : str -> option F.      (* float(s); None is ValueError *)

  (** [id_objs]: the dictionaries that have been a table so far; [id_path], [id_ltab],
      [id_lmed]: [path], [idf_freq], [median_idf] of the loader (lines 38-40); [id_tab],
      [id_med]: [idf_freq], [median_idf] of the extractor (line 66) *)
  Record idata := mkID { id_objs : list (sdict F); id_path : str; id_ltab : nat; id_lmed : F; id_tab : nat; id_med : F }.
  (** not in the code: the dictionary with a number *)
  Definition iobj (d : idata) (r : nat) : sdict F := nth r (id_objs d) [].

  (** a call: [set_idf_path] of a path where there is this file (or none), or one
      [self.idf_freq.get(kw, self.median_idf)] (line 107) *)
  Inductive icall := ISet (path : str) (content : option bytes) | ILook (w : str).
  (** what a call gives: it returns or raises; a number *)
  Inductive iret := IDone (e : option exn) | IVal (x : F).

  (** where a running call stands; a number is a dictionary it has got hold of *)
  Inductive ipc :=
  | ICmp                                          (* line 45 *)
  | IPath                                         (* line 46 *)
  | IRead                                         (* line 47 *)
  | INew (lines : list str)                       (* line 48 *)
  | INext (rest : list str)                       (* line 49: the lines not yet read *)
  | IStore (w : str) (x : F) (r : nat) (rest : list str)  (* line 51: [[word] = x] on what was read *)
  | IVals (r : nat)                               (* line 53: [sorted(values)] of what was read *)
  | ILen (vals : list F)                          (* line 53: the second [self.idf_freq] *)
  | IIdx (vals : list F) (r : nat)                (* line 53: [vals[len // 2]] *)
  | IMed (m : F)                                  (* line 52: the median is bound *)
  | IGet                                          (* line 56: the table is read *)
  | IGet2 (r : nat)                               (* line 56: the median is read *)
  | IPut (r : nat) (m : F)                        (* line 73: the table is bound *)
  | IPut2 (m : F)                                 (* line 73: the median is bound *)
  | LMed (r : nat)                                (* line 107: the median is read *)
  | LGet (r : nat) (m : F).                       (* line 107: the lookup in what was read *)

  (** a thread: the calls that have ended, the running one, the calls to come *)
  Record ithread := mkIT { it_done : list (icall * iret); it_cur : option (icall * ipc); it_todo : list icall }.

  (** lines 50-51: the word and the number of a line, [None] if ValueError is raised *)
  Definition idf_line (line : str) : option (str * F) :=
    match split_on 32%N (str_strip line) with
    | [word; freq] => match float_of freq with Some x => Some (word, x) | None => None end
    | _ => None
    end.

  (** one step of a thread, tfidf.py:44-56, 68-73, 107; [None] when it has nothing left to do *)
  Definition istep (d : idata) (th : ithread) : option (idata * ithread) :=
    match it_cur th with
    | None =>
        match it_todo th with
        | [] => None
        | ISet path None :: todo =>              (* lines 70-71 *)
            Some (d, mkIT (it_done th ++ [(ISet path None, IDone (Some PlainException))]) None todo)
        | ISet path (Some b) :: todo => Some (d, mkIT (it_done th) (Some (ISet path (Some b), ICmp)) todo)
        | ILook w :: todo => Some (d, mkIT (it_done th) (Some (ILook w, LMed (id_tab d))) todo)
        end
    | Some (c, p) =>
        let goto d' p' := Some (d', mkIT (it_done th) (Some (c, p')) (it_todo th)) in
        let ret d' x := Some (d', mkIT (it_done th ++ [(c, x)]) None (it_todo th)) in
        match c, p with
        | ISet path (Some _), ICmp => goto d (if str_eqb (id_path d) path then IGet else IPath)
        | ISet path (Some _), IPath => goto (mkID (id_objs d) path (id_ltab d) (id_lmed d) (id_tab d) (id_med d)) IRead
        | ISet path (Some b), IRead =>
            match utf8_decode b with
            | None => ret d (IDone (Some ValueError))
            | Some text => goto d (INew (splitlines text))
            end
        | ISet _ (Some _), INew lines =>
            goto (mkID (id_objs d ++ [[]]) (id_path d) (length (id_objs d)) (id_lmed d) (id_tab d) (id_med d)) (INext lines)
        | ISet _ (Some _), INext [] => goto d (IVals (id_ltab d))
        | ISet _ (Some _), INext (line :: rest) =>
            match idf_line line with
            | None => ret d (IDone (Some ValueError))
            | Some (w, x) => goto d (IStore w x (id_ltab d) rest)
            end
        | ISet _ (Some _), IStore w x r rest =>
            goto (mkID (lput (id_objs d) r (sset (iobj d r) w x)) (id_path d) (id_ltab d) (id_lmed d) (id_tab d) (id_med d)) (INext rest)
        | ISet _ (Some _), IVals r => goto d (ILen (sorted_asc (f_lt num) (map snd (iobj d r))))
        | ISet _ (Some _), ILen vals => goto d (IIdx vals (id_ltab d))
        | ISet _ (Some _), IIdx vals r =>
            match nth_error vals (length (iobj d r) / 2) with
            | None => ret d (IDone (Some IndexError))
            | Some m => goto d (IMed m)
            end
        | ISet _ (Some _), IMed m => goto (mkID (id_objs d) (id_path d) (id_ltab d) m (id_tab d) (id_med d)) IGet
        | ISet _ (Some _), IGet => goto d (IGet2 (id_ltab d))
        | ISet _ (Some _), IGet2 r => goto d (IPut r (id_lmed d))
        | ISet _ (Some _), IPut r m => goto (mkID (id_objs d) (id_path d) (id_ltab d) (id_lmed d) r (id_med d)) (IPut2 m)
        | ISet _ (Some _), IPut2 m => ret (mkID (id_objs d) (id_path d) (id_ltab d) (id_lmed d) (id_tab d) m) (IDone None)
        | ILook _, LMed r => goto d (LGet r (id_med d))
        | ILook w, LGet r m => ret d (IVal (match sget (iobj d r) w with Some x => x | None => m end))
        | _, _ => None
        end
    end.

  (** the process: some thread takes a step *)
  Inductive isteps (s : idata * list ithread) : idata * list ithread -> Prop :=
  | i_zero : isteps s s
  | i_more d ts i th d' th' :
      isteps s (d, ts) -> nth_error ts i = Some th -> istep d th = Some (d', th') ->
      isteps s (d', lput ts i th').

  (** before the threads start: an extractor as [__init__] leaves it (lines 61-66; the
      loader's dictionary is the extractor's), and what each thread is going to call *)
  Definition istart (path : str) (tab : sdict F) (med : F) (progs : list (list icall)) : idata * list ithread :=
    (mkID [tab] path 0 med 0 med, map (fun p => mkIT [] None p) progs).
End Idf.
Arguments mkID {num}. Arguments id_objs {num}. Arguments id_path {num}. Arguments id_ltab {num}. Arguments id_lmed {num}.
Arguments id_tab {num}. Arguments id_med {num}. Arguments iobj {num}. Arguments IDone {num}. Arguments IVal {num}.
Arguments ICmp {num}. Arguments IPath {num}. Arguments IRead {num}. Arguments INew {num}. Arguments INext {num}.
Arguments IStore {num}. Arguments IVals {num}. Arguments ILen {num}. Arguments IIdx {num}. Arguments IMed {num}.
Arguments IGet {num}. Arguments IGet2 {num}. Arguments IPut {num}. Arguments IPut2 {num}. Arguments LMed {num}. Arguments LGet {num}.
Arguments mkIT {num}. Arguments it_done {num}. Arguments it_cur {num}. Arguments it_todo {num}. Arguments idf_line {num}.
Arguments istep {num}. Arguments isteps {num}. Arguments i_zero {num}. Arguments i_more {num}. Arguments istart {num}.
