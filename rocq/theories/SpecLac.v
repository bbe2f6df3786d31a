(** * How labelled characters make up words *)
From Verif Require Import PyBase.

(** a label that begins a word after the label [prev]: it ends with "-B", or it is "O" and
    the one before is not *)
Definition begins (prev label : str) : Prop :=
  (exists t, label = t ++ [45; 66]%N) \/ (label = [79]%N /\ prev <> [79]%N).

(** characters that go on with the word of the one before *)
Fixpoint goes_on (prev : str) (cs : list (char * str)) : Prop :=
  match cs with
  | [] => True
  | (c, label) :: cs' => ~ begins prev label /\ goes_on label cs'
  end.

(** labelled characters divided into words *)
Inductive divided : option str -> list (char * str) -> list (list (char * str)) -> Prop :=
| dv_nil prev : divided prev [] []
| dv_word prev c label cs rest ws :
    match prev with Some p => begins p label | None => True end ->
    goes_on label cs ->
    divided (Some (last (map snd cs) label)) rest ws ->
    divided prev ((c, label) :: cs ++ rest) (((c, label) :: cs) :: ws).

(** the part of a label before its first hyphen *)
Definition tag_of (label tag : str) : Prop :=
  ~ In 45%N tag /\ (label = tag \/ exists rest, label = tag ++ 45%N :: rest).

(** whitespace around a text *)
Definition stripped (s t : str) : Prop :=
  exists a b, s = a ++ t ++ b /\ Forall (fun c => is_space c = true) (a ++ b) /\
    (forall c u, t = c :: u -> is_space c = false) /\ (forall c u, t = u ++ [c] -> is_space c = false).
