(** * What a number type must satisfy for the numeric theorems

    The laws are about order and monotonicity only (no exactness), so that they
    hold of rounded arithmetic too.  Instances: [InstR] (exact reals), [InstB64]
    (binary64 with an arbitrary bounded [log]), [InstQ] (rationals, used to
    compute examples). *)
From Coq Require Import Reals.
From Verif Require Import PyBase PyNum.

Record NumOrder (num : Num) := {
  (** finite numbers, and numbers that may be compared *)
  o_fin : F num -> Prop;
  o_dom : F num -> Prop;
  (** order embedding of the comparable numbers *)
  o_val : F num -> R;
  o_lt : forall x y, o_dom x -> o_dom y -> (f_lt num x y = true <-> (o_val x < o_val y)%R);
  o_eq : forall x y, o_dom x -> o_dom y -> (f_eq num x y = true <-> o_val x = o_val y);
  o_fin_dom : forall x, o_fin x -> o_dom x;
  o_zero : o_fin (f_zero num);
  (** adding a finite number keeps numbers comparable and is monotone *)
  o_add_l : forall w x, o_fin w -> o_dom x -> o_dom (f_add num w x);
  o_add_r : forall w x, o_fin w -> o_dom x -> o_dom (f_add num x w);
  o_mono_l : forall w x y, o_fin w -> o_dom x -> o_dom y ->
    (o_val x <= o_val y)%R -> (o_val (f_add num w x) <= o_val (f_add num w y))%R;
  o_mono_r : forall w x y, o_fin w -> o_dom x -> o_dom y ->
    (o_val x <= o_val y)%R -> (o_val (f_add num x w) <= o_val (f_add num y w))%R;
  (** differences of logarithms are finite *)
  o_log : forall n m, (0 < n)%Z -> (0 < m)%Z -> o_fin (f_sub num (f_log num n) (f_log num m));
  o_min_float : o_fin (f_min_float num);
}.
Arguments o_fin {num}. Arguments o_dom {num}. Arguments o_val {num}.
