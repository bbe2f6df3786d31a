(** * Binary64 sums that a very large term swallows *)
From Coq Require Import Reals Lra.
From Flocq Require Import Core BinarySingleNaN.
From Verif Require Import PyBase PyNum InstB64 InstB64Ext.
Local Open Scope R_scope.

Notation fx := (SpecFloat.fexp 53 1024).
Local Instance vfx : Valid_exp fx.
Proof. apply fexp_correct. reflexivity. Qed.

(** the neighbours of a number of size at least 2^333 are at least 2^280 away *)
Lemma gap_pos (x : R) : bpow radix2 333 <= x ->
  pred radix2 fx x <= x - bpow radix2 280 /\ x + bpow radix2 280 <= succ radix2 fx x.
Proof.
  intros B. pose proof (bpow_gt_0 radix2 333) as P.
  assert (M : (334 <= mag radix2 x)%Z).
  { apply mag_ge_bpow. rewrite Rabs_right by lra. exact B. }
  assert (U : bpow radix2 280 <= ulp radix2 fx x).
  { rewrite ulp_neq_0 by lra. apply bpow_le. unfold cexp, SpecFloat.fexp, SpecFloat.emin. lia. }
  split.
  - rewrite pred_eq_pos by lra. unfold pred_pos. destruct (Req_bool _ _); [|lra].
    assert (bpow radix2 280 <= bpow radix2 (fx (mag radix2 x - 1))).
    { apply bpow_le. unfold SpecFloat.fexp, SpecFloat.emin. lia. }
    lra.
  - rewrite succ_eq_pos by lra. lra.
Qed.

Lemma rnd_swallow (x t : R) :
  generic_format radix2 fx x -> x <= - bpow radix2 333 -> Rabs t < bpow radix2 279 -> rnd (x + t) = x.
Proof.
  intros G B T. apply Rabs_lt_inv in T.
  destruct (gap_pos (- x)) as [P S]; [lra|].
  assert (P' : pred radix2 fx x <= x - bpow radix2 280).
  { replace x with (- - x) at 1 by ring. rewrite pred_opp. lra. }
  assert (S' : x + bpow radix2 280 <= succ radix2 fx x).
  { replace x with (- - x) at 2 by ring. rewrite succ_opp. lra. }
  assert (E : bpow radix2 280 = 2 * bpow radix2 279).
  { change 280%Z with (1 + 279)%Z. rewrite bpow_plus. reflexivity. }
  unfold rnd. apply Rle_antisym.
  - apply round_N_le_midp; auto; [exact vfx|]. lra.
  - apply round_N_ge_midp; auto; [exact vfx|]. lra.
Qed.

Lemma add_val k (x y : b64) : bfin k x -> bfin 1 y -> blim (S k) ->
  B2R (Bplus mode_NE x y) = rnd (B2R x + B2R y).
Proof.
  intros [Fx Bx] [Fy By] L.
  pose proof (bfin_add k x y (conj Fx Bx) (conj Fy By) L) as [FF BB].
  assert (B : Rabs (rnd (B2R x + B2R y)) <= INR (S k) * unit340).
  { unfold rnd. apply abs_round_le_generic.
    - exact vfx.
    - apply valid_rnd_N.
    - apply units_format. auto.
    - eapply Rle_trans; [apply Rabs_triang|]. rewrite S_INR. simpl INR in By. lra. }
  pose proof (Bplus_correct 53 1024 _ _ mode_NE x y Fx Fy) as BC.
  cbn [round_mode] in BC. fold (rnd (B2R x + B2R y)) in BC.
  rewrite Rlt_bool_true in BC.
  - apply BC.
  - eapply Rle_lt_trans; [exact B|]. apply units_lt_M. auto.
Qed.

(** [- 3.14e100] lies below [- 2^333] *)
Lemma min_float_low : B2R b64_min_float <= - bpow radix2 333.
Proof.
  assert (E : Bltb b64_min_float (binary_normalize 53 1024 _ _ mode_NE (-1) 333 false : b64) = true)
    by (vm_compute; reflexivity).
  assert (F1 : is_finite b64_min_float = true) by (vm_compute; reflexivity).
  pose proof (binary_normalize_correct 53 1024 _ _ mode_NE (-1) 333 false) as BC.
  cbv zeta in BC. cbn [round_mode] in BC.
  assert (V : F2R (Float radix2 (-1) 333) = - bpow radix2 333).
  { unfold F2R. cbn [Fnum Fexp]. ring. }
  rewrite V in BC.
  assert (G : round radix2 fx ZnearestE (- bpow radix2 333) = - bpow radix2 333).
  { apply round_generic; [apply valid_rnd_N|]. apply generic_format_opp, generic_format_bpow.
    unfold SpecFloat.fexp, SpecFloat.emin. lia. }
  rewrite G in BC. rewrite Rabs_Ropp, Rabs_right in BC by (apply Rle_ge, bpow_ge_0).
  rewrite Rlt_bool_true in BC by (apply bpow_lt; lia). destruct BC as (BV & BF & _).
  rewrite Bltb_correct in E by auto. rewrite BV in E.
  revert E. clear. generalize (B2R b64_min_float) (- bpow radix2 333). intros a b E.
  destruct (Rlt_bool_spec a b); [lra|discriminate].
Qed.

Lemma bfin_min : bfin 1 b64_min_float.
Proof. split; [vm_compute; reflexivity|]. simpl INR. rewrite Rmult_1_l. apply min_float_bound. Qed.

Lemma B2R_format (x : b64) : generic_format radix2 fx (B2R x).
Proof. apply generic_format_B2R. Qed.

(** a finite comparison, in real numbers *)
Lemma tup_finite lg {X} (ord : X -> X -> bool) (a b : b64) (i j : X) :
  is_finite a = true -> is_finite b = true ->
  tup_gt (numB lg) ord (a, i) (b, j) = true <->
  (B2R b < B2R a \/ (B2R a = B2R b /\ ord i j = true)).
Proof.
  intros A B. unfold tup_gt. cbn [fst snd f_eq f_lt numB].
  rewrite Beqb_correct, Bltb_correct by auto.
  destruct (Req_bool_spec (B2R a) (B2R b)) as [E|E].
  - split; [tauto|]. intros [L|[_ O]]; auto. lra.
  - destruct (Rlt_bool_spec (B2R b) (B2R a)); split; auto; [discriminate|]. intros [L|[E' _]]; [lra|tauto].
Qed.
