(** * TextRank, independent of the graph the code builds

    Two words that pass the filter are linked when they stand fewer than [span] words
    apart; ten rounds let every word collect the weights of the words it is linked to. *)
From Coq Require Import Reals Permutation.
From Verif Require Import PyBase PyNum ModelPosseg ModelAnalyse SpecAnalyse.
Local Open Scope R_scope.

(** the positions of two words that pass and are fewer than [span] apart, in order *)
Definition close_positions (lower : str -> str) (stop allow : list str) (span : nat) (words : list tagged)
           (l : list (nat * nat)) : Prop :=
  (forall i j, In (i, j) l <->
     exists p q, nth_error words i = Some p /\ nth_error words j = Some q /\ (i < j < i + span)%nat /\
       passes lower stop allow p /\ passes lower stop allow q) /\
  (forall a b, before l a b -> (fst a < fst b)%nat \/ (fst a = fst b /\ (snd a < snd b)%nat)).

(** their names *)
Definition links_of (lower : str -> str) (stop allow : list str) (span : nat) (withFlag : bool)
           (words : list tagged) (ls : list (term * term)) : Prop :=
  exists l, close_positions lower stop allow span words l /\
    Forall2 (fun ij ab => exists p q, nth_error words (fst ij) = Some p /\ nth_error words (snd ij) = Some q /\
               ab = (ranked_as allow withFlag p, ranked_as allow withFlag q)) l ls.

(** the words that have links, in the order they turn up *)
Definition nodes_of (ls : list (term * term)) (nodes : list term) : Prop :=
  first_occurrences (flat_map (fun ab => [fst ab; snd ab]) ls) nodes.

(** the same in the order of the words; words that differ in the tag only stay as they are *)
Definition word_order (nodes order : list term) : Prop :=
  Permutation nodes order /\
  forall a b, before order a b ->
    str_ltb (term_word a) (term_word b) = true \/ (term_word a = term_word b /\ before nodes a b).

Definition link_eq_dec (a b : term * term) : {a = b} + {a <> b}.
Proof. decide equality; apply term_eq_dec. Defined.

Section Weights.
  Variable ls : list (term * term).
  Variable nodes order : list term.

  (** the number of links between [a] and [b]; a link of a word with itself counts twice *)
  Definition link (a b : term) : R := INR (count_occ link_eq_dec ls (a, b) + count_occ link_eq_dec ls (b, a)).

  Definition sum_over (l : list term) (f : term -> R) : R := fold_right (fun n s => f n + s) 0 l.

  Definition degree (a : term) : R := sum_over nodes (link a).

  (** what [n] collects when the weights are [W] *)
  Definition collected (W : term -> R) (n : term) : R :=
    15 / 100 + 85 / 100 * sum_over nodes (fun b => link n b / degree b * W b).

  (** one round: the words one after the other, each with the weights reached so far *)
  Definition one_round (W : term -> R) : term -> R :=
    fold_left (fun W n => fun m => if term_eq_dec m n then collected W n else W m) order W.

  Definition raw_weight : term -> R := Nat.iter 10 one_round (fun _ => 1 / INR (length nodes)).

  (** the smallest and the largest raw weight *)
  Definition smallest (lo : R) : Prop :=
    (exists n, In n nodes /\ raw_weight n = lo) /\ forall n, In n nodes -> lo <= raw_weight n.
  Definition largest (hi : R) : Prop :=
    (exists n, In n nodes /\ raw_weight n = hi) /\ forall n, In n nodes -> raw_weight n <= hi.

  Definition weight (lo hi : R) (n : term) : R := (raw_weight n - lo / 10) / (hi - lo / 10).
End Weights.
