(** * C91: adding a word again without a frequency *)
From Coq Require Import Reals Lra Lia Psatz.
From Flocq Require Import Core BinarySingleNaN.
From Verif Require Import PyBase PyRegex PyNum ModelFinalseg ModelSeg ModelDict SpecBase SpecSeg SpecNum SpecScore
  SpecDict SpecHealth SpecLog InstR InstB64 InstCount InstRound
  ProofsBase ProofsSeg ProofsOpt ProofsNoHmm ProofsDict ProofsTotal ProofsSuggest ProofsWhole ProofsSuggestB
  PropsSuggest PropsSuggestB Demo ProofsDemo ProofsHealth.
Local Open Scope R_scope.

(** Exact arithmetic: for a word that comes out whole the suggested frequency is one
    more than the present one. *)
Theorem C91_whole_word :
  forall (H : hmm numR) (fr : freqs) (total : Z) (force : list str) (w : str) (f : Z),
    (0 < total)%Z -> sget fr w = Some f -> (0 < f)%Z ->
    cut numR H (mode_of false false) fr total force w = gof [w] ->
    suggest_freq_value numR H fr total force (Whole w) = Ok (f + 1)%Z.
Proof.
  intros H fr T force w f PT G PF C. unfold suggest_freq_value, py_float. cbn [f_of_Z numR rbind].
  cbn [mode_of] in C. rewrite C. unfold gof, g_list. cbn [fst snd rbind].
  assert (NZ : IZR T <> 0) by (apply not_0_IZR; lia).
  rewrite freq_product_R by auto. cbn [rbind fold_right]. unfold int_freq_total. cbn [f_trunc numR f_mul rbind].
  assert (FG : freq_get fr w 1 = f) by (unfold freq_get; rewrite G; reflexivity). rewrite FG.
  replace (1 * (IZR f / IZR T * 1) * IZR T) with (IZR f) by (field; auto).
  assert (P : 0 <= IZR f) by (apply IZR_le; lia). destruct (Rtrunc_spec _ P) as [A B].
  assert (Rtrunc (IZR f) = f) as ->.
  { apply Z.le_antisymm; [apply le_IZR; auto|]. apply Z.lt_succ_r. apply lt_IZR. rewrite succ_IZR. lra. }
  f_equal. lia.
Qed.

(** ... so every further [add_word(w)] adds one to the frequency, and that to the total. *)
Fixpoint add_times (num : Num) (H : hmm num) (n : nat) (d : dstate) (w : str) : res dstate :=
  match n with
  | O => Ok d
  | S n' => rbind (add_word num H d w None None) (fun d' => add_times num H n' d' w)
  end.

Theorem C91_each_time_one_more :
  forall (H : hmm numR) (d : dstate) (w : str) (n : nat),
    healthy (d_freq d) (d_total d) -> w <> [] ->
    Forall (fun c => word_char c = true /\ is_alnum c = false) w ->
    exists d1 f d2, add_times numR H 1 d w = Ok d1 /\ sget (d_freq d1) w = Some f /\
      add_times numR H (1 + n) d w = Ok d2 /\
      sget (d_freq d2) w = Some (f + Z.of_nat n)%Z /\ (2 * (d_total d2 - d_total d1) = Z.of_nat n * (2 * f + Z.of_nat n + 1))%Z.
Proof.
  intros H d w n HE NE FW.
  assert (ONE : forall e, healthy (d_freq e) (d_total e) ->
            exists e' f, add_word numR H e w None None = Ok e' /\ healthy (d_freq e') (d_total e') /\
              sget (d_freq e') w = Some f /\ (0 < f)%Z /\ d_total e' = (d_total e + f)%Z /\
              (forall g, sget (d_freq e) w = Some g -> (0 < g)%Z ->
                 cut numR H (mode_of false false) (d_freq e) (d_total e) (d_force e) w = gof [w] -> f = (g + 1)%Z)).
  { intros e HE'. destruct (suggest_freq_value numR H (d_freq e) (d_total e) (d_force e) (Whole w)) as [f|x] eqn:E.
    2:{ rewrite suggest_whole in E by auto. discriminate. }
    destruct (@suggest_enough H (d_freq e) (d_total e) (d_force e) w f HE' NE FW E) as [L1 L2].
    exists (add_word_freq e w f None), f. split; [unfold add_word; rewrite E; reflexivity|].
    split; [apply healthy_add; auto; lia|]. split; [|split; [lia|split; [reflexivity|]]].
    - cbn [add_word_freq d_freq]. rewrite add_get. unfold after_add. now rewrite str_eqb_refl.
    - intros g G PG C. pose proof HE' as [_ [PT _]]. rewrite (C91_whole_word H _ _ (d_force e) w g PT G PG C) in E.
      injection E as <-. reflexivity. }
  destruct (ONE d HE) as (d1 & f & E1 & HE1 & G1 & P1 & _ & _).
  destruct (C19_added_word_comes_out H d w None HE NE FW) as (d1' & E1' & C1). rewrite E1 in E1'. injection E1' as <-.
  specialize (C1 false).
  cut (forall m e g, healthy (d_freq e) (d_total e) -> sget (d_freq e) w = Some g -> (0 < g)%Z ->
         cut numR H (mode_of false false) (d_freq e) (d_total e) (d_force e) w = gof [w] ->
         exists e2, add_times numR H m e w = Ok e2 /\ sget (d_freq e2) w = Some (g + Z.of_nat m)%Z /\
           (2 * (d_total e2 - d_total e) = Z.of_nat m * (2 * g + Z.of_nat m + 1))%Z).
  { intros K. destruct (K n d1 f HE1 G1 P1 C1) as (d2 & A & B & C). exists d1, f, d2.
    cbn [add_times Nat.add]. rewrite E1. cbn [rbind]. auto. }
  induction m as [|m IH]; intros e g HEe Ge Pe Ce.
  - exists e. cbn [add_times]. rewrite Z.add_0_r. split; auto. split; auto. lia.
  - destruct (ONE e HEe) as (e1 & g1 & A & B & C & D & T1 & F). specialize (F g Ge Pe Ce). subst g1.
    destruct (C19_added_word_comes_out H e w None HEe NE FW) as (e1' & E' & C'). rewrite A in E'. injection E' as <-.
    destruct (IH e1 (g + 1)%Z B C D (C' false)) as (e2 & X & Y & Z).
    exists e2. cbn [add_times]. rewrite A. cbn [rbind]. split; auto. split; [rewrite Y; f_equal; lia|]. rewrite T1 in Z. nia.
Qed.

(** In binary64 the suggestion may stay where it is, but goes neither down nor further up. *)
Theorem C91_binary64 :
  forall (lg : Z -> b64) (H : hmm (numB lg)) (fr : freqs) (total : Z) (force : list str) (w : str) (f : Z),
    sget fr w = Some f -> (0 < f <= total)%Z -> (total <= 2 ^ 44)%Z ->
    cut (numB lg) H (mode_of false false) fr total force w = gof [w] ->
    suggest_freq_value (numB lg) H fr total force (Whole w) = Ok f \/
    suggest_freq_value (numB lg) H fr total force (Whole w) = Ok (f + 1)%Z.
Proof.
  intros lg H fr T force w f G [PF FT] LT C. unfold suggest_freq_value.
  destruct (@py_floatB lg T ltac:(lia)) as (ft & -> & FF & VF). cbn [rbind].
  cbn [mode_of] in C. rewrite C. unfold gof, g_list. cbn [fst snd rbind freq_product].
  assert (FG : freq_get fr w 1 = f) by (unfold freq_get; rewrite G; reflexivity). rewrite FG.
  destruct (@py_floatB lg f ltac:(lia)) as (x & -> & FX & VX). cbn [rbind].
  assert (PT : 0 < IZR T) by (apply IZR_lt; lia).
  assert (P1 : 1 <= IZR f) by (apply IZR_le; lia).
  assert (L1 : IZR f <= IZR T) by (apply IZR_le; lia).
  assert (L2 : IZR T <= 17592186044416) by (apply IZR_le in LT; exact LT).
  unfold py_div. cbn [f_eq f_div f_zero InstB64.numB].
  assert (EQ : Beqb ft (B754_zero false : b64) = false).
  { rewrite Beqb_correct by auto. apply Req_bool_false. rewrite VF. cbn [B2R]. lra. }
  rewrite EQ. cbn [rbind acc_mul].
  assert (U : 0 < u) by (rewrite u_val; lra).
  set (q := IZR f / IZR T). assert (QT : q * IZR T = IZR f) by (unfold q; field; lra).
  assert (Q : / IZR (2 ^ 44) <= q <= 1).
  { split.
    - apply (Rmult_le_reg_r (IZR T)); auto. rewrite QT. apply Rle_trans with 1; [|lra].
      apply (Rmult_le_reg_l (IZR (2 ^ 44))); [apply IZR_lt; lia|]. rewrite <- Rmult_assoc, Rinv_r by (apply not_0_IZR; lia).
      change (IZR (2 ^ 44)) with 17592186044416. lra.
    - apply (Rmult_le_reg_r (IZR T)); auto. lra. }
  destruct (@divB x ft FX) as [FQ EQ2]; [rewrite VF; lra| |].
  { rewrite VX, VF. fold q. apply big_384. rewrite Rabs_pos_eq; [lra|]. apply Rle_trans with (/ IZR (2 ^ 44)); [|lra].
    left. apply Rinv_0_lt_compat. apply IZR_lt. lia. }
  rewrite VX, VF in EQ2. fold q in EQ2. set (y := Bdiv mode_NE x ft) in *.
  assert (BQ : bpow radix2 (-384) <= q).
  { apply Rle_trans with (bpow radix2 (-44)); [apply bpow_le; lia|]. exact (proj1 Q). }
  destruct (rnd_rel _ BQ) as [Y1 Y2]. rewrite <- EQ2 in Y1, Y2.
  assert (Q0 : 0 < q) by (apply Rlt_le_trans with (/ IZR (2 ^ 44)); [apply Rinv_0_lt_compat; apply IZR_lt; lia|lra]).
  set (b := IZR T) in *. set (r := IZR f) in *. set (v := B2R y) in *.
  assert (V0 : 0 < v). { eapply Rlt_le_trans; [|exact Y1]. apply Rmult_lt_0_compat; auto. rewrite u_val. lra. }
  assert (V1 : (1 - u) * r <= v * b <= (1 + u) * r).
  { rewrite <- QT. split.
    - rewrite <- Rmult_assoc. apply Rmult_le_compat_r; lra.
    - rewrite <- Rmult_assoc. apply Rmult_le_compat_r; lra. }
  cbn [rbind int_freq_total f_trunc f_mul InstB64.numB].
  destruct (@multB y ft FQ FF) as [FM EM].
  { apply big_384. fold v. rewrite VF. fold b. rewrite Rabs_pos_eq; rewrite u_val in V1; nra. }
  fold v in EM. rewrite VF in EM. fold b in EM.
  assert (BM : bpow radix2 (-384) <= v * b).
  { apply Rle_trans with (bpow radix2 (-1)); [apply bpow_le; lia|]. change (bpow radix2 (-1)) with (/ 2). rewrite u_val in V1. nra. }
  destruct (rnd_rel _ BM) as [M1 M2]. rewrite <- EM in M1, M2.
  set (m := Bmult mode_NE y ft) in *.
  assert (M3 : r - 1 < B2R m < r + 1).
  { rewrite u_val in *. split; nra. }
  destruct (@truncB m FM ltac:(lra)) as (n & EN & N0 & N1).
  match goal with |- context [rbind ?b _] => change b with (b64_trunc m) end. rewrite EN. cbn [rbind].
  assert (A1 : (n < f + 1)%Z) by (apply lt_IZR; rewrite plus_IZR; fold r; lra).
  assert (A2 : (f - 1 < n + 1)%Z) by (apply lt_IZR; rewrite plus_IZR, minus_IZR; fold r; lra).
  assert (CS : n = f \/ n = (f - 1)%Z) by lia. destruct CS as [->| ->]; [right|left]; f_equal; lia.
Qed.

(** The count may really stand still: 1/49*49 is rounded to less than 1. *)
Definition one49 : freqs := [([19968%N], 1%Z); ([20000%N], 48%Z)].
Definition lg0 : Z -> b64 := fun _ => B754_zero false.
Definition flatB : hmm (numB lg0) :=
  mkHmm (numB lg0) (fun _ => B754_zero false : b64) (fun _ _ => None) (fun _ _ => None).

Theorem C91_always_more_refuted :
  ~ (forall (lg : Z -> b64) (H : hmm (numB lg)) (fr : freqs) (total : Z) (force : list str) (w : str) (f : Z),
       sget fr w = Some f -> (0 < f <= total)%Z -> (total <= 2 ^ 44)%Z ->
       cut (numB lg) H (mode_of false false) fr total force w = gof [w] ->
       suggest_freq_value (numB lg) H fr total force (Whole w) = Ok (f + 1)%Z).
Proof.
  intros K. specialize (K _ flatB one49 49%Z [] [19968%N] 1%Z eq_refl ltac:(lia) ltac:(lia)).
  assert (C : cut (numB lg0) flatB (mode_of false false) one49 49 [] [19968%N] = gof [[19968%N]]) by reflexivity.
  specialize (K C). vm_compute in K. discriminate.
Qed.

Example C91_nonvacuous :
  healthy (d_freq demo) (d_total demo) /\
  Forall (fun c => word_char c = true /\ is_alnum c = false) [c_jing; c_da] /\
  sget one49 [19968%N] = Some 1%Z /\
  (forall (H : hmm numR), cut numR H (mode_of false false) one49 49 [] [19968%N] = gof [[19968%N]]) /\
  (forall (H : hmm (numB lg0)), cut (numB lg0) H (mode_of false false) one49 49 [] [19968%N] = gof [[19968%N]]).
Proof.
  split; [exact demo_healthy|]. split; [repeat constructor|]. split; [reflexivity|]. split; intros H; reflexivity.
Qed.

Print Assumptions C91_whole_word.
Print Assumptions C91_each_time_one_more.
Print Assumptions C91_binary64.
Print Assumptions C91_always_more_refuted.
