(** * An accurate logarithm

    C's [log] is not specified by IEEE 754; the usual libraries are within one unit
    in the last place.  [log_close] asks for less: an absolute error of 2^-48 (a unit
    in the last place of numbers between 16 and 32), and only up to 2^44. *)
From Coq Require Import Reals.
From Flocq Require Import Core BinarySingleNaN.
From Verif Require Import PyBase InstB64.

Definition log_close (lg : Z -> b64) : Prop :=
  forall n, (0 < n <= 2 ^ 44)%Z -> (Rabs (B2R (lg n) - ln (IZR n)) <= bpow radix2 (-48))%R.
