(** * The lines of a file opened in binary mode *)
From Verif Require Import PyBase.

(** every line ends with a newline byte and has no other; only the last line may lack it (and
    is then not empty) *)
Definition lines_of (b : bytes) (ls : list bytes) : Prop :=
  exists full last,
    ls = map (fun l => l ++ [10%N]) full ++ match last with [] => [] | _ => [last] end /\
    b = concat ls /\ Forall (fun l => ~ In 10%N l) (last :: full).
