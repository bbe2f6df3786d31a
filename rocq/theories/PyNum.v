(** * Numbers.

    jieba computes with Python [float]s (binary64) and unbounded [int]s ([Z]).
    The float operations are kept abstract in a record, so that structural
    properties are proved for every arithmetic whatsoever, and numeric ones for
    the instances given elsewhere (exact reals; Flocq's binary64). *)
From Verif Require Import PyBase.

Record Num := mkNum {
  F : Type;
  f_zero : F;                       (* 0 / 0.0 *)
  f_add : F -> F -> F;
  f_sub : F -> F -> F;
  f_mul : F -> F -> F;
  f_div : F -> F -> F;              (* only used with a non-zero divisor *)
  f_lt : F -> F -> bool;            (* x < y *)
  f_eq : F -> F -> bool;            (* x == y *)
  f_of_Z : Z -> option F;           (* float(n); None is OverflowError *)
  f_trunc : F -> res Z;             (* int(x) *)
  f_log : Z -> F;                   (* math.log(n), used for n > 0 only *)
  f_min_float : F;                  (* -3.14e100 *)
  f_neg_inf : F;                    (* float("-inf") *)
}.

Section Ops.
  Variable num : Num.
  Notation F := (F num).

  (** [math.log(n)] of an [int] *)
  Definition py_log (n : Z) : res F :=
    if (n <=? 0)%Z then Err ValueError else Ok (f_log num n).

  (** [float(n)] *)
  Definition py_float (n : Z) : res F :=
    match f_of_Z num n with Some x => Ok x | None => Err OverflowError end.

  (** [x / y] on floats *)
  Definition py_div (x y : F) : res F :=
    if f_eq num y (f_zero num) then Err ZeroDivisionError else Ok (f_div num x y).

  (** [(a, x) > (b, y)] on tuples of a float and a value ordered by [ord]: the
      first components decide unless they are equal.  (Python also takes two
      identical NaN objects as equal; jieba's scores are not NaN.) *)
  Definition tup_gt {X} (ord : X -> X -> bool) (p q : F * X) : bool :=
    if f_eq num (fst p) (fst q) then ord (snd p) (snd q)
    else f_lt num (fst q) (fst p).
End Ops.
