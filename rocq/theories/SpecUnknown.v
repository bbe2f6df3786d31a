(** * Specification vocabulary: characters without an emission probability

    Binary64 only.  The tables shipped with finalseg (prob_start.py, prob_trans.py,
    prob_emit.py) fit the description below: their logarithms lie between -18 and
    -0.2, except for the two entries -3.14e100 of prob_start.py. *)
From Coq Require Import Reals.
From Flocq Require Import Core BinarySingleNaN.
From Verif Require Import PyBase PyNum ModelFinalseg SpecHmm InstB64 InstB64Ext.
Local Open Scope R_scope.

(** finite, and of size at most 2^200 *)
Definition small (x : b64) : Prop := is_finite x = true /\ Rabs (B2R x) <= bpow radix2 200.

(** tables without wild numbers that know all transitions of the BMES grammar *)
Record plain_tables {lg} (H : hmm (numB lg)) : Prop := {
  pt_single : small (h_start H LS);
  pt_start : forall y, entry_ok (h_start H y) /\ B2R (h_start H y : b64) <= bpow radix2 200;
  pt_trans : forall a y, follows a y -> exists x : b64, h_trans H a y = Some x /\ small x;
  pt_emit : forall y c (x : b64), h_emit H y c = Some x -> small x;
}.

(** the character has an emission probability for the label S *)
Definition known {num} (H : hmm num) (c : char) : Prop := h_emit H LS c <> None.
(** the character has no emission probability for any label *)
Definition unknown {num} (H : hmm num) (c : char) : Prop := forall y, h_emit H y c = None.
