(** * Specification vocabulary: the HMM stage computed exactly *)
From Coq Require Import Reals.
From Flocq Require Import Core BinarySingleNaN.
From Verif Require Import PyBase PyNum ModelFinalseg SpecHmm InstB64 InstR SpecUnknown SpecMissing.
Local Open Scope R_scope.

(** finite and between -32 and 32; the numbers of the shipped tables lie between -18 and 0 *)
Definition within32 (x : b64) : Prop := is_finite x = true /\ Rabs (B2R x) <= 32.

(** binary64 tables with such numbers, -3.14e100 for a label that no text begins with,
    and all transitions of the BMES grammar *)
Record moderate_tables {lg} (H : hmm (numB lg)) : Prop := {
  mt_start : forall y, within32 (h_start H y) \/ h_start H y = b64_min_float;
  mt_trans : forall a y, follows a y -> exists x : b64, h_trans H a y = Some x;
  mt_trans_32 : forall a y (x : b64), h_trans H a y = Some x -> within32 x;
  mt_emit : forall y c (x : b64), h_emit H y c = Some x -> within32 x;
}.

(** the same tables as real numbers *)
Definition exact_tables {lg} (H : hmm (numB lg)) : hmm numR :=
  mkHmm numR (fun y => B2R (h_start H y : b64))
    (fun a y => match h_trans H a y with Some x => Some (B2R (x : b64)) | None => None end)
    (fun y c => match h_emit H y c with Some x => Some (B2R (x : b64)) | None => None end).

(** the sum of the table entries, computed without rounding *)
Definition exact_score {lg} (H : hmm (numB lg)) (s : str) (ls : list label) : R :=
  label_score (exact_tables H) s ls.

(** what rounding may cost a text of [n] characters: n^2 / 2^45 *)
Definition cost (n : nat) : R := INR n * INR n / 35184372088832.

(** labels that need no missing entry and are better than all others by more than that *)
Definition clear_labels {lg} (H : hmm (numB lg)) (s : str) (ls : list label) : Prop :=
  labelling s ls /\ missing H (no_start H) s ls = 0%nat /\
  forall ls', labelling s ls' -> ls' <> ls -> exact_score H s ls' + cost (length s) < exact_score H s ls.

(** what is asked of the words [ws] found in a Han run [r]: they follow labels of the BMES
    grammar; if the run (of at most 2^22 characters) can be labelled without a missing
    entry, these labels need none and are the best up to rounding *)
Definition near_found {lg} (H : hmm (numB lg)) (r : str) (ws : list str) : Prop :=
  exists labels, concat ws = r /\ spelled_by labels ws /\ labelling r labels /\
    ((length r <= 2 ^ 22)%nat -> (exists ls, labelling r ls /\ missing H (no_start H) r ls = 0%nat) ->
     missing H (no_start H) r labels = 0%nat /\
     forall other, labelling r other -> exact_score H r other <= exact_score H r labels + cost (length r)).

(** [g] is a maximal group of one-character words of [ws] *)
Definition single_group (ws g : list str) : Prop :=
  exists a b, ws = a ++ g ++ b /\ g <> [] /\ Forall (fun w => length w = 1%nat) g /\
    (a = [] \/ exists a' w, a = a' ++ [w] /\ length w <> 1%nat) /\
    match b with w :: _ => length w <> 1%nat | [] => True end.
