(** * Specification vocabulary: tags of characters that the tagger does not know *)
From Flocq Require Import BinarySingleNaN.
From Verif Require Import PyBase PyNum InstB64 SpecUnknown DataPosseg.

(** the tags x, zg and y *)
Definition t_x : str := [120]%N.
Definition t_zg : str := [122; 103]%N.
Definition t_y : str := [121]%N.

(** x zg x zg ... ; with y before if the number is odd *)
Definition unknown_tags (n : nat) : list str :=
  (if Nat.even n then [] else [t_y]) ++ concat (repeat [t_x; t_zg] (n / 2)).

(** a Han character that is neither in char_state_tab.py nor in the emission table [e] *)
Definition tagger_unknown (e : N * str -> char -> option b64) (c : char) : Prop :=
  ~ In c (map fst pos_chars) /\ forall y, e y c = None.
