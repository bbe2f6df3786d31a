(** * Specification vocabulary for threads calling add_word *)
From Verif Require Import PyBase ModelDict ModelConc SpecBase SpecSeg SpecDict.

(** every thread has made all its calls and all have returned *)
Definition finished (ts : list thread) : Prop :=
  Forall (fun th => th_cur th = None /\ th_todo th = []) ts.

(** thread [i] makes the call [c] *)
Definition makes (progs : list (list call)) (i : nat) (c : call) : Prop :=
  exists p, nth_error progs i = Some p /\ In c p.

(** the word and the frequency that a call is given *)
Definition word_of (c : call) : str := fst (fst c).
Definition freq_given (c : call) : Z := snd (fst c).

(** [w] is longer than [k] and begins with it *)
Definition extends (w k : str) : Prop := k <> [] /\ exists t, t <> [] /\ w = k ++ t.

(** sum of the frequencies given *)
Definition sum_given (cs : list call) : Z := fold_right (fun c acc => (freq_given c + acc)%Z) 0%Z cs.
