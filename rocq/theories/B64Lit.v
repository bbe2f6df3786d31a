(** * Numbers of the tables *)
From Flocq Require Import BinarySingleNaN.
From Verif Require Import PyBase PyNum InstB64.

(** [m * 2^e] as a binary64 number *)
Definition b64_of (me : Z * Z) : b64 := binary_normalize 53 1024 _ _ mode_NE (fst me) (snd me) false.
