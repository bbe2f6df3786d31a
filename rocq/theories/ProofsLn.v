(** * Checking approximations of logarithms of integers by computation *)
From Coq Require Import Reals Lra Lia.
From Verif Require Import PyBase ProofsNoHmm.
Local Open Scope R_scope.

(** ** exp (-y) between partial sums of its series *)

Definition term (y : R) (i : nat) : R := y ^ i / INR (fact i).

Lemma term_decreasing y : 0 <= y <= 1 -> Un_decreasing (term y).
Proof.
  intros Y i. unfold term. change (fact (S i)) with (S i * fact i)%nat. rewrite mult_INR. cbn [pow].
  assert (F : 0 < INR (fact i)) by (apply INR_fact_lt_0).
  assert (S1 : 1 <= INR (S i)) by (apply (le_INR 1); lia).
  assert (P : 0 <= y ^ i) by (apply pow_le; lra).
  unfold Rdiv. rewrite Rinv_mult.
  assert (I : 0 < / INR (fact i)) by (apply Rinv_0_lt_compat; auto).
  assert (J : 0 < / INR (S i) <= 1). { split; [apply Rinv_0_lt_compat; lra|]. rewrite <- Rinv_1. apply Rinv_le_contravar; lra. }
  replace (y * y ^ i * (/ INR (S i) * / INR (fact i))) with (y ^ i * / INR (fact i) * (y * / INR (S i))) by ring.
  rewrite <- (Rmult_1_r (y ^ i * / INR (fact i))) at 2. apply Rmult_le_compat_l; [apply Rmult_le_pos; lra|].
  replace 1 with (1 * 1) by ring. apply Rmult_le_compat; lra.
Qed.

Lemma exp_alternating y N : 0 <= y <= 1 ->
  sum_f_R0 (tg_alt (term y)) (S (2 * N)) <= exp (- y) <= sum_f_R0 (tg_alt (term y)) (2 * N).
Proof.
  intros Y. apply alternated_series_ineq.
  - apply term_decreasing; auto.
  - apply cv_speed_pow_fact.
  - unfold exp. destruct (exist_exp (- y)) as [l E]. cbn [proj1_sig]. unfold exp_in, infinite_sum in E.
    intros eps P. destruct (E eps P) as [n0 EN]. exists n0. intros n L. specialize (EN n L).
    rewrite (sum_eq _ (tg_alt (term y))) in EN; [exact EN|].
    intros i _. unfold tg_alt, term. replace (- y) with (-1 * y) by ring. rewrite Rpow_mult_distr. unfold Rdiv. ring.
Qed.

(** ** The partial sums in fixed-point arithmetic

    Integers stand for multiples of 2^-72; every quotient is rounded both ways. *)
Definition one : Z := (2 ^ 72)%Z.
Notation fix_ x := (IZR x / IZR one).

(** terms [i], [i+1], ... up to [k] of them are added to the sum between [slo] and [shi]; the
    term before them is between [tlo] and [thi] *)
Fixpoint fsum (k : nat) (i Y tlo thi slo shi : Z) : Z * Z :=
  match k with
  | O => (slo, shi)
  | S k' =>
      let tl := (tlo * Y / (one * i))%Z in
      let th := (thi * Y / (one * i) + 1)%Z in
      if Z.even i then fsum k' (i + 1) Y tl th (slo + tl) (shi + th)
      else fsum k' (i + 1) Y tl th (slo - th) (shi - tl)
  end.

Lemma div_below a b : (0 < b)%Z -> IZR (a / b) <= IZR a / IZR b.
Proof.
  intros P. pose proof (Z.mul_div_le a b P) as D. apply IZR_le in D. rewrite mult_IZR in D.
  assert (B : 0 < IZR b) by (apply IZR_lt; auto).
  apply (Rmult_le_reg_l (IZR b)); auto. replace (IZR b * (IZR a / IZR b)) with (IZR a) by (field; lra). lra.
Qed.
Lemma div_above a b : (0 < b)%Z -> IZR a / IZR b <= IZR (a / b + 1).
Proof.
  intros P. pose proof (Z.mul_succ_div_gt a b P) as D. apply IZR_lt in D. unfold Z.succ in D. rewrite mult_IZR in D.
  assert (B : 0 < IZR b) by (apply IZR_lt; auto).
  apply (Rmult_le_reg_l (IZR b)); auto. replace (IZR b * (IZR a / IZR b)) with (IZR a) by (field; lra). lra.
Qed.

Lemma one_pos : 0 < IZR one.
Proof. apply IZR_lt. reflexivity. Qed.

Lemma tg_alt_parity f n : tg_alt f n = if Z.even (Z.of_nat n) then f n else - f n.
Proof.
  unfold tg_alt. destruct (Z.even (Z.of_nat n)) eqn:E.
  - apply Z.even_spec in E. destruct E as [j E]. replace n with (2 * Z.to_nat j)%nat by lia. rewrite pow_1_even. ring.
  - assert (O : Z.odd (Z.of_nat n) = true) by (rewrite <- Z.negb_even, E; reflexivity).
    apply Z.odd_spec in O. destruct O as [j O]. replace n with (S (2 * Z.to_nat j))%nat by lia. rewrite pow_1_odd. ring.
Qed.

Lemma fsum_ok Y (YP : (0 <= Y)%Z) k : forall n tlo thi slo shi lo hi,
  IZR tlo <= term (fix_ Y) n * IZR one <= IZR thi ->
  IZR slo <= sum_f_R0 (tg_alt (term (fix_ Y))) n * IZR one <= IZR shi ->
  fsum k (Z.of_nat (S n)) Y tlo thi slo shi = (lo, hi) ->
  IZR lo <= sum_f_R0 (tg_alt (term (fix_ Y))) (n + k) * IZR one <= IZR hi.
Proof.
  pose proof one_pos as OP. set (y := fix_ Y) in *.
  induction k as [|k IH]; intros n tlo thi slo shi lo hi T B E.
  - cbn [fsum] in E. injection E as <- <-. rewrite Nat.add_0_r. exact B.
  - cbn [fsum] in E. replace (n + S k)%nat with (S n + k)%nat by lia.
    set (i := Z.of_nat (S n)) in *. assert (IP : (0 < i)%Z) by (unfold i; lia).
    assert (DP : (0 < one * i)%Z) by (apply Z.mul_pos_pos; [reflexivity|auto]).
    assert (IR : 0 < IZR i) by (apply IZR_lt; auto).
    assert (TN : term y (S n) * IZR one = term y n * IZR one * (IZR Y / (IZR one * IZR i))).
    { unfold term. change (fact (S n)) with (S n * fact n)%nat. rewrite mult_INR. cbn [pow].
      assert (EI : INR (S n) = IZR i) by (unfold i; apply INR_IZR_INZ). rewrite EI. unfold y at 1.
      pose proof (INR_fact_lt_0 n). field. repeat split; lra. }
    assert (YR : 0 <= IZR Y / (IZR one * IZR i)).
    { apply IZR_le in YP. apply Rmult_le_pos; [lra|]. left. apply Rinv_0_lt_compat. apply Rmult_lt_0_compat; auto. }
    assert (TS : IZR (tlo * Y / (one * i)) <= term y (S n) * IZR one <= IZR (thi * Y / (one * i) + 1)).
    { rewrite TN. split.
      - eapply Rle_trans; [apply div_below; auto|]. rewrite !mult_IZR.
        replace (IZR tlo * IZR Y / (IZR one * IZR i)) with (IZR tlo * (IZR Y / (IZR one * IZR i))) by (unfold Rdiv; ring).
        apply Rmult_le_compat_r; [exact YR|lra].
      - eapply Rle_trans; [|apply div_above; auto]. rewrite !mult_IZR.
        replace (IZR thi * IZR Y / (IZR one * IZR i)) with (IZR thi * (IZR Y / (IZR one * IZR i))) by (unfold Rdiv; ring).
        apply Rmult_le_compat_r; [exact YR|lra]. }
    set (tl := (tlo * Y / (one * i))%Z) in *. set (th := (thi * Y / (one * i) + 1)%Z) in *.
    replace (i + 1)%Z with (Z.of_nat (S (S n))) in E by (unfold i; lia).
    assert (SN : sum_f_R0 (tg_alt (term y)) (S n) = sum_f_R0 (tg_alt (term y)) n + (if Z.even i then term y (S n) else - term y (S n))).
    { cbn [sum_f_R0]. f_equal. apply tg_alt_parity. }
    destruct (Z.even i); (eapply IH; [exact TS| |exact E]); rewrite SN; [rewrite !plus_IZR|rewrite !minus_IZR]; lra.
Qed.

Lemma fsum_exp Y n lo hi : (0 <= Y <= one)%Z ->
  fsum n 1 Y one one one one = (lo, hi) ->
  IZR lo <= sum_f_R0 (tg_alt (term (fix_ Y))) n * IZR one <= IZR hi.
Proof.
  intros YB E. pose proof one_pos as OP. refine (fsum_ok Y (proj1 YB) n 0 one one one one lo hi _ _ E).
  - unfold term. cbn. lra.
  - cbn [sum_f_R0]. unfold tg_alt, term. cbn. lra.
Qed.

(** ** The check

    [8 Y <= ln n <= 8 Z], when exp (-Y) and exp (-Z), raised to the eighth power, enclose 1/n. *)
Definition pow8 (x : Z) : Z := let y := (x * x)%Z in let z := (y * y)%Z in (z * z)%Z.
Definition unit_range (y : Z) : bool := ((0 <=? y) && (y <=? one))%Z.
Definition ln_check (n : positive) (lo hi : Z) (N : nat) : bool :=
  unit_range lo && unit_range hi &&
  let a := fst (fsum (S (2 * N)) 1 lo one one one one) in
  let b := snd (fsum (2 * N) 1 hi one one one one) in
  ((0 <=? a) && (pow8 one <=? Z.pos n * pow8 a) && (Z.pos n * pow8 b <=? pow8 one))%Z.

Lemma unit_range_ok y : unit_range y = true -> (0 <= y <= one)%Z /\ 0 <= fix_ y <= 1.
Proof.
  unfold unit_range. intros H. apply andb_true_iff in H. destruct H as [A B]. apply Z.leb_le in A, B. split; [auto|].
  pose proof one_pos as OP. apply IZR_le in A, B. split.
  - apply Rmult_le_pos; [exact A|]. left. apply Rinv_0_lt_compat. exact OP.
  - apply (Rmult_le_reg_l (IZR one)); auto. replace (IZR one * (IZR y / IZR one)) with (IZR y) by (field; lra). lra.
Qed.

Lemma exp_8 y : exp (- (8 * y)) = exp (- y) ^ 8.
Proof. cbn [pow]. rewrite Rmult_1_r, <- !exp_plus. f_equal. ring. Qed.

Lemma pow8_ok x : IZR (pow8 x) = IZR x ^ 8.
Proof. unfold pow8. rewrite !mult_IZR. ring. Qed.

Lemma ln_check_ok n lo hi N : ln_check n lo hi N = true -> 8 * fix_ lo <= ln (IZR (Z.pos n)) <= 8 * fix_ hi.
Proof.
  unfold ln_check. destruct (fsum (S (2 * N)) 1 lo one one one one) as [a a'] eqn:EA.
  destruct (fsum (2 * N) 1 hi one one one one) as [b' b] eqn:EB. cbn [fst snd]. cbv zeta. intros H.
  apply andb_true_iff in H; destruct H as [H C]. apply andb_true_iff in H; destruct H as [HL HH].
  apply andb_true_iff in C; destruct C as [C C3]. apply andb_true_iff in C; destruct C as [C1 C2].
  apply Z.leb_le in C1, C2, C3. destruct (unit_range_ok _ HL) as [L1 L2]. destruct (unit_range_ok _ HH) as [H1 H2].
  apply (fsum_exp lo (S (2 * N)) a a' L1) in EA. apply (fsum_exp hi (2 * N) b' b H1) in EB.
  apply IZR_le in C1, C2, C3. rewrite mult_IZR, !pow8_ok in C2, C3.
  destruct (exp_alternating (fix_ lo) N L2) as [LA _]. destruct (exp_alternating (fix_ hi) N H2) as [_ UB].
  pose proof one_pos as OP. assert (PN : 0 < IZR (Z.pos n)) by (apply IZR_lt; lia).
  assert (IP : 0 < / IZR (Z.pos n)) by (apply Rinv_0_lt_compat; auto).
  assert (O8 : 0 < IZR one ^ 8) by (apply pow_lt; auto).
  rewrite <- (Ropp_involutive (ln (IZR (Z.pos n)))). rewrite <- ln_Rinv by auto.
  split.
  - assert (L : / IZR (Z.pos n) <= exp (- (8 * fix_ lo))).
    { rewrite exp_8. apply Rle_trans with ((fix_ a) ^ 8).
      - unfold Rdiv. rewrite Rpow_mult_distr, pow_inv.
        apply (Rmult_le_reg_l (IZR (Z.pos n) * IZR one ^ 8)); [apply Rmult_lt_0_compat; auto|].
        replace (IZR (Z.pos n) * IZR one ^ 8 * / IZR (Z.pos n)) with (IZR one ^ 8) by (field; lra).
        replace (IZR (Z.pos n) * IZR one ^ 8 * (IZR a ^ 8 * / IZR one ^ 8)) with (IZR (Z.pos n) * IZR a ^ 8) by (field; lra).
        exact C2.
      - apply pow_incr. split; [apply Rmult_le_pos; [exact C1|left; apply Rinv_0_lt_compat; exact OP]|].
        eapply Rle_trans; [|exact LA]. apply (Rmult_le_reg_r (IZR one)); auto.
        replace (IZR a / IZR one * IZR one) with (IZR a) by (field; lra). apply EA. }
    apply ln_le in L; auto. rewrite ln_exp in L. lra.
  - assert (L : exp (- (8 * fix_ hi)) <= / IZR (Z.pos n)).
    { rewrite exp_8. apply Rle_trans with ((fix_ b) ^ 8).
      - apply pow_incr. split; [left; apply exp_pos|].
        eapply Rle_trans; [exact UB|]. apply (Rmult_le_reg_r (IZR one)); auto.
        replace (IZR b / IZR one * IZR one) with (IZR b) by (field; lra). apply EB.
      - unfold Rdiv. rewrite Rpow_mult_distr, pow_inv.
        apply (Rmult_le_reg_l (IZR (Z.pos n) * IZR one ^ 8)); [apply Rmult_lt_0_compat; auto|].
        replace (IZR (Z.pos n) * IZR one ^ 8 * / IZR (Z.pos n)) with (IZR one ^ 8) by (field; lra).
        replace (IZR (Z.pos n) * IZR one ^ 8 * (IZR b ^ 8 * / IZR one ^ 8)) with (IZR (Z.pos n) * IZR b ^ 8) by (field; lra).
        exact C3. }
    apply ln_le in L; [|apply exp_pos]. rewrite ln_exp in L. lra.
Qed.
