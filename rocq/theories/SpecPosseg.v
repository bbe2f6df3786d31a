(** * Specification vocabulary for part-of-speech tagging *)
From Coq Require Import Permutation.
From Verif Require Import PyBase PyNum ModelPosseg.

(** ** What the arithmetic must satisfy

    The tagger adds table entries (or [MIN_FLOAT]) to a score, and minus infinity
    for a missing transition.  Sizes are counted in units larger than any table
    entry, so that the laws hold of binary64 as well (no overflow up to
    [i_lim]).  Instances: [InstExt] (exact numbers with minus infinity) and
    [InstB64Ext] (binary64). *)
Record NumInf (num : Num) := {
  (** finite, and of size at most [k] units *)
  i_fin : nat -> F num -> Prop;
  (** sizes up to which sums are known to stay finite *)
  i_lim : nat -> Prop;
  (** minus infinity *)
  i_inf : F num -> Prop;
  i_lim_down : forall j k, (j <= k)%nat -> i_lim k -> i_lim j;
  i_min_float : i_fin 1 (f_min_float num);
  i_add : forall k x y, i_fin k x -> i_fin 1 y -> i_lim (S k) -> i_fin (S k) (f_add num x y);
  i_add_inf : forall k x, i_fin k x -> i_inf (f_add num x (f_neg_inf num));
  i_inf_add : forall x y, i_inf x -> i_fin 1 y -> i_inf (f_add num x y);
  (** [<] is a strict weak order on finite numbers and minus infinity, [==] holds of
      the numbers that it does not separate *)
  i_lt_irrefl : forall j x, i_fin j x -> f_lt num x x = false;
  i_lt_trans : forall j k l x y z, i_fin j x -> i_fin k y -> i_fin l z ->
    f_lt num x y = true -> f_lt num y z = true -> f_lt num x z = true;
  i_lt_split : forall j k l x y z, i_fin j x -> i_fin k y -> i_fin l z ->
    f_lt num x z = true -> f_lt num x y = true \/ f_lt num y z = true;
  i_eq : forall j k x y, i_fin j x -> i_fin k y ->
    f_eq num x y = negb (f_lt num x y) && negb (f_lt num y x);
  i_inf_lt : forall k x y, i_inf x -> i_fin k y ->
    f_lt num x y = true /\ f_lt num y x = false /\ f_eq num x y = false /\ f_eq num y x = false;
  (** addition is monotone *)
  i_mono : forall k x y w, i_fin k x -> i_fin k y -> i_fin 1 w -> i_lim (S k) ->
    f_lt num y x = false -> f_lt num (f_add num y w) (f_add num x w) = false;
}.
Arguments i_fin {num}. Arguments i_lim {num}. Arguments i_inf {num}.

(** ** Probability tables *)
Section Tables.
  Variable num : Num.
  Variable NI : NumInf num.
  Variable T : ptables num.

  (** a state of the model *)
  Definition is_pstate (y : pstate) : Prop := In y (map fst (t_trans T)).

  (** the table has a transition from [x] to [y] (with log probability [p]) *)
  Definition step_p (x y : pstate) (p : F num) : Prop :=
    exists l, In (x, l) (t_trans T) /\ In (y, p) l.
  Definition step (x y : pstate) : Prop := exists p, step_p x y p.

  (** a state that can be left *)
  Definition live (x : pstate) : Prop := exists y, step x y.

  (** What the shipped tables satisfy (checked in [DataPosseg]): *)
  Record tables_ok := {
    (** dictionaries have each key once *)
    tk_keys : NoDup (map fst (t_trans T));
    tk_inner : forall x l, In (x, l) (t_trans T) -> NoDup (map fst l);
    (** start and emission tables have all states; entries are ordinary numbers *)
    tk_start : forall y, is_pstate y -> exists s, t_start T y = Some s /\ i_fin NI 1 s;
    tk_emit : forall y, is_pstate y ->
      exists e, t_emit T y = Some e /\ forall c x, e c = Some x -> i_fin NI 1 x;
    tk_prob : forall x y p, step_p x y p -> i_fin NI 1 p;
    (** transitions lead to states that can be left *)
    tk_trans : forall x y, step x y -> live y;
    (** the states of a character are states, and one of them can be left *)
    tk_char : forall c l, t_states T c = Some l ->
      Forall is_pstate l /\ exists y, In y l /\ live y;
    tk_some : exists y, live y;
  }.

  (** the BMES grammar on the letters of states *)
  Definition letter_follows (a b : char) : Prop :=
    ((a = l_B \/ a = l_M) /\ (b = l_M \/ b = l_E)) \/
    ((a = l_E \/ a = l_S) /\ (b = l_B \/ b = l_S)).
  Definition bmes : Prop :=
    (forall y, is_pstate y -> In (fst y) [l_B; l_E; l_M; l_S]) /\
    (forall x y, step x y -> letter_follows (fst x) (fst y)).

  (** consecutive states are joined by transitions of the table *)
  Fixpoint steps (ys : list pstate) : Prop :=
    match ys with
    | x :: ys' => match ys' with y :: _ => step x y | [] => True end /\ steps ys'
    | [] => True
    end.

  (** ** Which taggings are compared, and their scores *)

  (** the states a character may have; any, if the table does not know it *)
  Definition char_state (c : char) (y : pstate) : Prop :=
    match t_states T c with Some l => In y l | None => is_pstate y end.

  (** the states considered for the last character of a text (given backwards): the
      states of the character that can be reached from the ones considered before,
      or, if there are none, everything that can be reached *)
  Fixpoint kept (rev_text : str) (y : pstate) : Prop :=
    match rev_text with
    | [] => False
    | c :: before =>
        match before with
        | [] => char_state c y
        | _ =>
            (exists x, kept before x /\ step x y) /\
            (char_state c y \/
             forall z, (exists x, kept before x /\ step x z) -> ~ char_state c z)
        end
    end.

  (** [ys] is a tagging of the text [cs] considered by the search *)
  Definition considered (cs : str) (ys : list pstate) : Prop :=
    length ys = length cs /\ steps ys /\
    forall i y, nth_error ys i = Some y -> kept (rev (firstn (S i) cs)) y.

  Notation "x + y" := (f_add num x y).
  Definition start_of (y : pstate) : F num :=
    match t_start T y with Some s => s | None => f_min_float num end.
  Definition emit_of (y : pstate) (c : char) : F num :=
    match t_emit T y with
    | Some e => match e c with Some x => x | None => f_min_float num end
    | None => f_min_float num
    end.
  Definition prob_of (x y : pstate) : F num :=
    match dget pstate_eqb (t_trans T) x with
    | Some l => match dget pstate_eqb l y with Some p => p | None => f_neg_inf num end
    | None => f_neg_inf num
    end.

  (** the score of a tagging, summed from left to right *)
  Fixpoint tag_score_from (acc : F num) (x : pstate) (cs : str) (ys : list pstate) : F num :=
    match cs, ys with
    | c :: cs', y :: ys' => tag_score_from ((acc + prob_of x y) + emit_of y c) y cs' ys'
    | _, _ => acc
    end.
  Definition tag_score (cs : str) (ys : list pstate) : F num :=
    match cs, ys with
    | c :: cs', y :: ys' => tag_score_from (start_of y + emit_of y c) y cs' ys'
    | _, _ => f_zero num
    end.
End Tables.
Arguments char_state {num}. Arguments kept {num}. Arguments considered {num}.
Arguments start_of {num}. Arguments emit_of {num}. Arguments prob_of {num}.
Arguments tag_score_from {num}. Arguments tag_score {num}.
Arguments is_pstate {num}. Arguments step_p {num}. Arguments step {num}. Arguments live {num}.
Arguments tables_ok {num}. Arguments tk_keys {num NI T}. Arguments tk_inner {num NI T}.
Arguments tk_start {num NI T}. Arguments tk_emit {num NI T}. Arguments tk_prob {num NI T}.
Arguments tk_trans {num NI T}. Arguments tk_char {num NI T}. Arguments tk_some {num NI T}.
 Arguments bmes {num}. Arguments steps {num}.

(** iterating over a set visits each element once *)
Definition fair_order (ord : orders) : Prop :=
  forall obs t l, NoDup l -> Permutation l (ord obs t l).
