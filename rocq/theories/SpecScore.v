(** * Specification of scores and of merging *)
From Coq Require Import Reals.
From Verif Require Import PyBase PyNum SpecBase SpecSeg.

Section Score.
  Variable num : Num.

  (** score of one word and of a segmentation, as the code computes them:
      [log(freq) - log(total)], summed from the right *)
  Definition word_score (D : dictionary) (total : Z) (w : str) : F num :=
    f_sub num (f_log num (weight_of D w)) (f_log num total).
  Definition score (D : dictionary) (total : Z) (ws : list str) : F num :=
    fold_right (fun w acc => f_add num (word_score D total w) acc) (f_zero num) ws.
End Score.

(** probability of a segmentation: the product of frequency / total *)
Definition prob (D : dictionary) (total : Z) (ws : list str) : R :=
  fold_right (fun w acc => (IZR (weight_of D w) / IZR total * acc)%R) 1%R ws.

(** a word that is a single ASCII letter or digit *)
Definition single_alnum (w : str) : bool :=
  match w with [c] => is_alnum c | _ => false end.

(** [out] is [ws] with each maximal group of adjacent single letters/digits joined *)
Inductive merged : list str -> list str -> Prop :=
| merged_nil : merged [] []
| merged_word w ws out :
    single_alnum w = false -> merged ws out -> merged (w :: ws) (w :: out)
| merged_group g ws out :
    g <> [] -> Forall (fun w => single_alnum w = true) g ->
    match ws with w :: _ => single_alnum w = false | [] => True end ->
    merged ws out -> merged (g ++ ws) (concat g :: out).
