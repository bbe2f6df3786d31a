(** * Threads that reload one tagger, and look tags up meanwhile

    [POSTokenizer.initialize], posseg/__init__.py:93-95, calls [load_word_tag], lines
    97-110, which takes no lock: it binds [self.word_tag_tab] to an empty dictionary and
    fills it line by line.  Under the interpreter's own lock one read or write of an
    attribute and one operation of a dictionary happen at once; between two of them
    another thread can run.  Left out: the tags of the user's words, which are the
    subject of ModelTagRace.v; which file [get_dict_file] opens (any file here). *)
From Verif Require Import PyBase ModelPosseg.

(** [l_objs]: the dictionaries that have been [self.word_tag_tab] so far; [l_cur]: which
    one is now (line 98) *)
Record ldata := mkLD { l_objs : list (sdict str); l_cur : nat }.
(** not in the code: the dictionary with a number *)
Definition lobj (d : ldata) (r : nat) : sdict str := nth r (l_objs d) [].

(** a call: [load_word_tag] of a file with these lines (lines 95, 97), or one lookup
    [self.word_tag_tab.get(w, 'x')] (lines 168, 192, 199, 201) *)
Inductive lcall := LLoad (lines : list bytes) | LLook (w : str).
(** what a call gives: it returns, it raises ValueError (line 109), it is a tag *)
Inductive lret := LDone | LFail | LTag (t : str).

(** where a running call stands; a number is a dictionary it has got hold of *)
Inductive lpc :=
| LdNext (rest : list bytes)                       (* line 100: the lines not yet read *)
| LdStore (w t : str) (r : nat) (rest : list bytes) (* line 107: [[word] = tag] on what was read *)
| LkGet (r : nat).                                 (* the lookup in what was read *)

(** a thread: the calls that have ended, the running one, the calls to come *)
Record lthread := mkLT { lt_done : list (lcall * lret); lt_cur : option (lcall * lpc); lt_todo : list lcall }.

(** not in the code: replace an element *)
Fixpoint lput {A} (l : list A) (i : nat) (x : A) : list A :=
  match l, i with
  | [], _ => []
  | _ :: r, O => x :: r
  | y :: r, S i' => y :: lput r i' x
  end.

(** one step of a thread, posseg/__init__.py:97-110; [None] when it has nothing left to do *)
Definition lstep (d : ldata) (th : lthread) : option (ldata * lthread) :=
  match lt_cur th with
  | None =>
      match lt_todo th with
      | [] => None
      | LLoad lines :: todo =>           (* line 98: a new dictionary *)
          Some (mkLD (l_objs d ++ [[]]) (length (l_objs d)), mkLT (lt_done th) (Some (LLoad lines, LdNext lines)) todo)
      | LLook w :: todo => Some (d, mkLT (lt_done th) (Some (LLook w, LkGet (l_cur d))) todo)
      end
  | Some (c, p) =>
      let goto p' := mkLT (lt_done th) (Some (c, p')) (lt_todo th) in
      let ret x := mkLT (lt_done th ++ [(c, x)]) None (lt_todo th) in
      match p with
      | LdNext [] => Some (d, ret LDone)
      | LdNext (line :: rest) =>         (* lines 100-107 up to the read of the attribute *)
          match tag_line line with
          | None => Some (d, ret LFail)
          | Some None => Some (d, goto (LdNext rest))
          | Some (Some (w, t)) => Some (d, goto (LdStore w t (l_cur d) rest))
          end
      | LdStore w t r rest => Some (mkLD (lput (l_objs d) r (sset (lobj d r) w t)) (l_cur d), goto (LdNext rest))
      | LkGet r => match c with LLook w => Some (d, ret (LTag (tag_get (lobj d r) w))) | LLoad _ => None end
      end
  end.

(** the process: some thread takes a step *)
Inductive lsteps (s : ldata * list lthread) : ldata * list lthread -> Prop :=
| l_zero : lsteps s s
| l_more d ts i th d' th' :
    lsteps s (d, ts) -> nth_error ts i = Some th -> lstep d th = Some (d', th') ->
    lsteps s (d', lput ts i th').

(** before the threads start: the table of the tagger, and what each thread is going to call *)
Definition lstart (tab : sdict str) (progs : list (list lcall)) : ldata * list lthread :=
  (mkLD [tab] 0, map (fun p => mkLT [] None p) progs).
