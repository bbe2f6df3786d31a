(** * When paddle is usable *)
From Verif Require Import PyBase ModelPaddle.

(** Python's order on strings: a proper prefix, or smaller at the first difference *)
Definition lex_lt (a b : str) : Prop :=
  exists p, (exists c r, a = p /\ b = p ++ c :: r) \/
            (exists x y r r', a = p ++ x :: r /\ b = p ++ y :: r' /\ (x < y)%N).

(** the module [paddle] is there, at the first attempt or after pip has run *)
Definition found (e : paddle_env) (v : str) : Prop :=
  first_try e = Imported v \/ (first_try e = NoModule /\ second_try e = Imported v).

(** it is there, its version string is not before "1.6.1", and [predict] can be imported *)
Definition usable (e : paddle_env) : Prop :=
  exists v, found e v /\ ~ lex_lt v [49; 46; 54; 46; 49]%N /\ predict e = Imported tt.

(** a version number a.b.c, with its components below ten, as a string *)
Definition dotted (a b c : N) : str := [48 + a; 46; 48 + b; 46; 48 + c]%N.

(** a.b.c is an earlier version than a'.b'.c' *)
Definition earlier (a b c a' b' c' : N) : Prop :=
  (a < a' \/ (a = a' /\ (b < b' \/ (b = b' /\ c < c'))))%N.
