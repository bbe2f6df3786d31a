(** * Threads that tag while others give tags

    [makesure_userdict_loaded], posseg/__init__.py:112-115, and the lines of [add_word]
    that record a tag, jieba/__init__.py:430-431, take no lock.  Under the interpreter's
    own lock one read or write of an attribute and one operation of a dictionary happen
    at once; between two of them another thread can run. *)
From Verif Require Import PyBase.

(** [d_tab]: [self.word_tag_tab] of the POSTokenizer.  [d_objs]: the dictionaries that
    have been [user_word_tag_tab] of its Tokenizer so far; [d_cur]: which one is now. *)
Record tagdata := mkTD { d_tab : sdict str; d_objs : list (sdict str); d_cur : nat }.
(** not in the code: the dictionary with a number *)
Definition obj (d : tagdata) (r : nat) : sdict str := nth r (d_objs d) [].

(** a call: [add_word(w, freq, t)] with a tag, or [cut] of the POSTokenizer *)
Inductive top := TAdd (w t : str) | TTag.

(** where a running call stands; a number is a dictionary it has got hold of *)
Inductive tpc :=
| AtSet (r : nat)      (* jieba/__init__.py:431: [[word] = tag] on what was read *)
| AtTest (r : nat)     (* posseg/__init__.py:113: the test of what was read *)
| AtGet                (* line 114: read [self.tokenizer.user_word_tag_tab] again *)
| AtUpdate (r : nat)   (* line 114: [self.word_tag_tab.update] *)
| AtReset.             (* line 115: a new dictionary *)

(** a thread: the calls that have returned, the running one, the calls to come *)
Record tthread := mkTT { tt_done : list top; tt_cur : option (top * tpc); tt_todo : list top }.

(** not in the code: replace an element *)
Fixpoint put_nth {A} (l : list A) (i : nat) (x : A) : list A :=
  match l, i with
  | [], _ => []
  | _ :: r, 0 => x :: r
  | y :: r, S i' => y :: put_nth r i' x
  end.

(** one step of a thread, jieba/__init__.py:430-431, posseg/__init__.py:112-115; [None]
    when it has nothing left to do *)
Definition tstep (d : tagdata) (th : tthread) : option (tagdata * tthread) :=
  match tt_cur th with
  | None =>
      match tt_todo th with
      | [] => None
      | TAdd w t :: rest => Some (d, mkTT (tt_done th) (Some (TAdd w t, AtSet (d_cur d))) rest)
      | TTag :: rest => Some (d, mkTT (tt_done th) (Some (TTag, AtTest (d_cur d))) rest)
      end
  | Some (c, p) =>
      let goto p' := mkTT (tt_done th) (Some (c, p')) (tt_todo th) in
      let ret := mkTT (tt_done th ++ [c]) None (tt_todo th) in
      match p with
      | AtSet r =>
          match c with
          | TAdd w t => Some (mkTD (d_tab d) (put_nth (d_objs d) r (sset (obj d r) w t)) (d_cur d), ret)
          | TTag => None
          end
      | AtTest r => match obj d r with [] => Some (d, ret) | _ => Some (d, goto AtGet) end
      | AtGet => Some (d, goto (AtUpdate (d_cur d)))
      | AtUpdate r => Some (mkTD (dupdate str_eqb (d_tab d) (obj d r)) (d_objs d) (d_cur d), goto AtReset)
      | AtReset => Some (mkTD (d_tab d) (d_objs d ++ [[]]) (length (d_objs d)), ret)
      end
  end.

(** the process: some thread takes a step *)
Inductive tsteps (s : tagdata * list tthread) : tagdata * list tthread -> Prop :=
| t_zero : tsteps s s
| t_more d ts i th d' th' :
    tsteps s (d, ts) -> nth_error ts i = Some th -> tstep d th = Some (d', th') ->
    tsteps s (d', put_nth ts i th').

(** before the threads start *)
Definition tstart (tab pending : sdict str) (progs : list (list top)) : tagdata * list tthread :=
  (mkTD tab [pending] 0, map (fun p => mkTT [] None p) progs).

(** one call after the other: [makesure_userdict_loaded] and line 431 without interruption,
    on the table and the pending tags *)
Definition tcall (s : sdict str * sdict str) (c : top) : sdict str * sdict str :=
  match c with
  | TAdd w t => (fst s, sset (snd s) w t)
  | TTag => match snd s with [] => s | tags => (dupdate str_eqb (fst s) tags, []) end
  end.
