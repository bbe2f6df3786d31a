(** * What a file of ids and words says *)
From Verif Require Import PyBase.

(** the text of a line: without its newline; the last line may have none *)
Definition line_text (line t : str) : Prop := ~ In 10%N t /\ (line = t \/ line = t ++ [10%N]).

(** a line with exactly one tab, the key being what is after it if [reverse] *)
Definition row (reverse : bool) (t k v : str) : Prop :=
  exists a b, t = a ++ [9%N] ++ b /\ ~ In 9%N a /\ ~ In 9%N b /\
              (k, v) = if reverse then (b, a) else (a, b).

(** every value can be read and no key comes twice *)
Definition good_rows {V} (reverse : bool) (value : str -> res V) (ts : list str) : Prop :=
  (forall t k s, In t ts -> row reverse t k s -> exists v, value s = Ok v) /\
  (forall i j t t' k s s', nth_error ts i = Some t -> nth_error ts j = Some t' ->
     row reverse t k s -> row reverse t' k s' -> i = j).
