(** * Several threads calling [add_word] on one tokenizer *)
From Verif Require Import PyBase ModelSeg ModelDict.

(** [add_word], jieba/__init__.py:418-437, takes no lock.  Under the interpreter's own
    lock one dictionary operation, one read and one write of an attribute happen at
    once; between two of them another thread can run.  A call with its frequency given
    is the following sequence of such steps.  [check_initialized] (line 425) does
    nothing on a tokenizer that is initialized, and [strdecode] (426) nothing on text. *)

(** the arguments of a call: word, frequency, tag *)
Definition call := (str * Z * option str)%type.

(** where a running call stands: the step it takes next *)
Inductive pc :=
| AtRead                (* line 429: read [self.total] *)
| AtWrite (t : Z)       (* line 429: write [t + freq] *)
| AtTag                 (* lines 430-431 *)
| AtFrag (ch : nat)     (* lines 432-434: the test for [word[:ch + 1]] *)
| AtInsert (ch : nat)   (* line 435: the assignment for [word[:ch + 1]] *)
| AtForce.              (* lines 436-437 *)

(** a thread: the calls that have returned, the running one, the calls to come *)
Record thread := mkTh {
  th_done : list call;
  th_cur : option (call * pc);
  th_todo : list call;
}.

(** [self.FREQ[k] = v], jieba/__init__.py:428 and 435 *)
Definition set_freq (d : dstate) (k : str) (v : Z) : dstate :=
  mkD (sset (d_freq d) k v) (d_total d) (d_tags d) (d_force d).
(** [self.total = t], line 429 *)
Definition set_total (d : dstate) (t : Z) : dstate :=
  mkD (d_freq d) t (d_tags d) (d_force d).
(** [if tag: self.user_word_tag_tab[word] = tag], lines 430-431 *)
Definition set_tag (d : dstate) (w : str) (t : option str) : dstate :=
  mkD (d_freq d) (d_total d)
      (match t with Some (c :: t') => sset (d_tags d) w (c :: t') | _ => d_tags d end) (d_force d).
(** [if freq == 0: finalseg.add_force_split(word)], lines 436-437 *)
Definition set_force (d : dstate) (w : str) (f : Z) : dstate :=
  mkD (d_freq d) (d_total d) (d_tags d) (if (f =? 0)%Z then set_add (d_force d) w else d_force d).

(** one step of a thread, jieba/__init__.py:428-437; [None] when it has nothing left to do *)
Definition thread_step (d : dstate) (th : thread) : option (dstate * thread) :=
  match th_cur th with
  | None =>
      match th_todo th with
      | [] => None
      | c :: rest =>   (* line 428 *)
          Some (set_freq d (fst (fst c)) (snd (fst c)), mkTh (th_done th) (Some (c, AtRead)) rest)
      end
  | Some (c, p) =>
      let w := fst (fst c) in
      let f := snd (fst c) in
      let goto p' := mkTh (th_done th) (Some (c, p')) (th_todo th) in
      match p with
      | AtRead => Some (d, goto (AtWrite (d_total d)))
      | AtWrite t => Some (set_total d (t + f), goto AtTag)
      | AtTag => Some (set_tag d w (snd c), goto (AtFrag 0))
      | AtFrag ch =>
          if ch <? length w then
            if smem (d_freq d) (firstn (ch + 1) w) then Some (d, goto (AtFrag (S ch)))
            else Some (d, goto (AtInsert ch))
          else Some (d, goto AtForce)
      | AtInsert ch => Some (set_freq d (firstn (ch + 1) w) 0, goto (AtFrag (S ch)))
      | AtForce => Some (set_force d w f, mkTh (th_done th ++ [c]) None (th_todo th))
      end
  end.

(** not in the code: replace one thread of the process by its next state *)
Fixpoint set_nth {A} (l : list A) (i : nat) (x : A) : list A :=
  match l, i with
  | [], _ => []
  | _ :: r, 0 => x :: r
  | y :: r, S i' => y :: set_nth r i' x
  end.

(** one step of the process: some thread takes a step *)
Inductive conc_step : dstate * list thread -> dstate * list thread -> Prop :=
| conc_one d ts i th d' th' :
    nth_error ts i = Some th -> thread_step d th = Some (d', th') ->
    conc_step (d, ts) (d', set_nth ts i th').

(** any number of steps, in any interleaving *)
Inductive conc_steps (s : dstate * list thread) : dstate * list thread -> Prop :=
| conc_zero : conc_steps s s
| conc_more s' s'' : conc_steps s s' -> conc_step s' s'' -> conc_steps s s''.

(** the threads before they start, each with the calls it will make *)
Definition start (progs : list (list call)) : list thread := map (fun p => mkTh [] None p) progs.
