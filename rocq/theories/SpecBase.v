(** * Independent specification vocabulary (no model function is used here) *)
From Verif Require Import PyBase.

(** Maximal runs of characters that agree on a class: [(true, r)] is a run of
    characters of the class, [(false, r)] one of characters outside. *)
Fixpoint runs (p : char -> bool) (s : str) : list (bool * str) :=
  match s with
  | [] => []
  | c :: s' =>
      match runs p s' with
      | (b, r) :: rest =>
          if Bool.eqb b (p c) then (b, c :: r) :: rest
          else (p c, [c]) :: (b, r) :: rest
      | [] => [(p c, [c])]
      end
  end.

(** Single characters, except that CR LF stays together. *)
Fixpoint chars_crlf (s : str) : list str :=
  match s with
  | [] => []
  | c :: s' =>
      match s' with
      | d :: s'' =>
          if ((c =? 13) && (d =? 10))%N then [c; d] :: chars_crlf s''
          else [c] :: chars_crlf s'
      | [] => [[c]]
      end
  end.

(** [u] is a prefix of [v] *)
Definition prefix_of {A} (u v : list A) : Prop := exists t, v = u ++ t.

(** [w] occurs in [s] at position [k] *)
Definition occurs_at {A} (w s : list A) (k : nat) : Prop :=
  exists a b, s = a ++ w ++ b /\ length a = k.

Definition substring {A} (w s : list A) : Prop := exists k, occurs_at w s k.

(** ** Character classes *)

(** U+4E00 .. U+9FD5 *)
Definition han_char (c : char) : bool := ((19968 <=? c) && (c <=? 40917))%N.

(** what can be part of a word: Han characters, ASCII letters and digits, and
    [+], [#], [&], [.], [_], [%], [-] *)
Definition word_char (c : char) : bool :=
  (han_char c
   || ((97 <=? c) && (c <=? 122)) || ((65 <=? c) && (c <=? 90)) || ((48 <=? c) && (c <=? 57))
   || existsb (N.eqb c) [43; 35; 38; 46; 95; 37; 45])%N%bool.
