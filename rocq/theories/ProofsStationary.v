(** * Rounds of TextRank and stationary weights *)
From Coq Require Import Reals Lra Lia Permutation.
From Verif Require Import PyBase PyNum SpecNum ProofsBase ModelPosseg ModelAnalyse SpecAnalyse SpecTextrank SpecStationary
  ProofsRankSpec.
Local Open Scope R_scope.

(** ** Sums *)

Lemma sum_over_le l f g : (forall x, In x l -> f x <= g x) -> sum_over l f <= sum_over l g.
Proof.
  induction l as [|a l IH]; intros E; cbn [sum_over fold_right]; [lra|].
  pose proof (E a (or_introl eq_refl)). assert (sum_over l f <= sum_over l g) by (apply IH; intros; apply E; right; auto).
  unfold sum_over in *. lra.
Qed.
Lemma sum_over_scal l c f : sum_over l (fun x => c * f x) = c * sum_over l f.
Proof. induction l as [|a l IH]; cbn [sum_over fold_right]; [lra|]. unfold sum_over in *. lra. Qed.
Lemma sum_over_minus l f g : sum_over l (fun x => f x - g x) = sum_over l f - sum_over l g.
Proof. induction l as [|a l IH]; cbn [sum_over fold_right]; [lra|]. unfold sum_over in *. lra. Qed.
Lemma sum_over_const l c : sum_over l (fun _ => c) = INR (length l) * c.
Proof.
  induction l as [|a l IH]; [cbn; lra|]. cbn [length]. rewrite S_INR. cbn [sum_over fold_right]. unfold sum_over in IH. rewrite IH. lra.
Qed.
Lemma sum_over_abs l f : Rabs (sum_over l f) <= sum_over l (fun x => Rabs (f x)).
Proof.
  induction l as [|a l IH]; cbn [sum_over fold_right]; [rewrite Rabs_R0; lra|].
  eapply Rle_trans; [apply Rabs_triang|]. unfold sum_over in *. lra.
Qed.
Lemma sum_over_swap l m (f : term -> term -> R) :
  sum_over l (fun a => sum_over m (fun b => f a b)) = sum_over m (fun b => sum_over l (fun a => f a b)).
Proof.
  induction l as [|x l IH].
  - cbn [sum_over fold_right]. symmetry. apply sum_over_0. auto.
  - change (sum_over m (f x) + sum_over l (fun a => sum_over m (fun b => f a b)) =
      sum_over m (fun b => f x b + sum_over l (fun a => f a b))).
    rewrite sum_over_plus, IH. reflexivity.
Qed.
Lemma sum_over_cv l (f : nat -> term -> R) (g : term -> R) :
  (forall x, In x l -> Un_cv (fun k => f k x) (g x)) -> Un_cv (fun k => sum_over l (f k)) (sum_over l g).
Proof.
  induction l as [|a l IH]; intros E.
  - intros e H. exists 0%nat. intros. cbn. unfold R_dist. rewrite Rminus_0_r, Rabs_R0. lra.
  - apply (CV_plus (fun k => f k a) (fun k => sum_over l (f k))); [apply E; left; auto|]. apply IH. intros; apply E; right; auto.
Qed.
Lemma cv_const c : Un_cv (fun _ => c) c.
Proof. intros e H. exists 0%nat. intros. unfold R_dist. rewrite Rminus_eq_0, Rabs_R0. lra. Qed.

(** a positive extreme over a list *)
Lemma least_exists (l : list term) (f : term -> R) : l <> [] -> exists n, In n l /\ forall m, In m l -> f n <= f m.
Proof.
  induction l as [|a l IH]; intros N; [congruence|]. destruct l as [|b l].
  - exists a. split; [left; auto|]. intros m [<-|[]]. lra.
  - destruct IH as (n & I & L); [congruence|]. destruct (Rle_or_lt (f n) (f a)).
    + exists n. split; [right; auto|]. intros m [<-|J]; auto.
    + exists a. split; [left; auto|]. intros m [<-|J]; [lra|]. specialize (L m J). lra.
Qed.

Section Fixed.
  Variable ls : list (term * term).
  Variable nodes : list term.
  Hypothesis NS : nodes_of ls nodes.

  Notation link := (link ls).
  Notation degree := (degree ls nodes).
  Notation collected := (collected ls nodes).
  Notation stationary := (stationary ls nodes).

  Lemma link_sym a b : link a b = link b a.
  Proof. unfold SpecTextrank.link. f_equal. lia. Qed.
  Lemma link_pos a b : 0 <= link a b.
  Proof. apply pos_INR. Qed.

  Lemma degree_ge1 n : In n nodes -> 1 <= degree n.
  Proof.
    intros I. destruct NS as (ND & SAME & _). apply SAME in I. apply in_flat_map in I. destruct I as ([a b] & I & J).
    assert (H : exists m, In m nodes /\ 1 <= link n m).
    { assert (IA : In a nodes) by (apply SAME, in_flat_map; exists (a, b); split; [auto|left; auto]).
      assert (IB : In b nodes) by (apply SAME, in_flat_map; exists (a, b); split; [auto|right; left; auto]).
      apply (count_occ_In link_eq_dec) in I.
      destruct J as [<-|[<-|[]]]; cbn [fst snd]; [exists b|exists a]; (split; [assumption|]); unfold SpecTextrank.link;
        apply (le_INR 1); cbn [fst snd] in *; lia. }
    destruct H as (m & IM & L). unfold SpecTextrank.degree. clear - IM L.
    induction nodes as [|x l IH]; [contradiction|]. cbn [sum_over fold_right]. fold (sum_over l (link n)).
    assert (P : 0 <= sum_over l (link n)).
    { rewrite <- (sum_over_0 l (fun _ => 0)) by auto. apply sum_over_le. intros; apply link_pos. }
    destruct IM as [->|IM]; [lra|]. pose proof (link_pos n x). specialize (IH IM). lra.
  Qed.

  Lemma share_pos n b : In b nodes -> 0 <= link n b / degree b.
  Proof.
    intros I. pose proof (degree_ge1 b I). apply Rmult_le_pos; [apply link_pos|]. left. apply Rinv_0_lt_compat. lra.
  Qed.

  Lemma collected_mono V W n : (forall b, In b nodes -> V b <= W b) -> collected V n <= collected W n.
  Proof.
    intros H. unfold SpecTextrank.collected.
    assert (sum_over nodes (fun b => link n b / degree b * V b) <= sum_over nodes (fun b => link n b / degree b * W b)).
    { apply sum_over_le. intros b I. apply Rmult_le_compat_l; auto. apply share_pos; auto. }
    lra.
  Qed.

  (** what a word collects from weights that are [c] per link *)
  Lemma collected_flat c n : collected (fun b => c * degree b) n = 15 / 100 + 85 / 100 * (c * degree n).
  Proof.
    unfold SpecTextrank.collected. do 2 f_equal. unfold SpecTextrank.degree at 3. rewrite <- sum_over_scal.
    apply sum_over_ext. intros b I. pose proof (degree_ge1 b I). field. lra.
  Qed.

  Lemma collected_near C V W n : (forall b, In b nodes -> Rabs (V b - W b) <= C * degree b) ->
    Rabs (collected V n - collected W n) <= 85 / 100 * C * degree n.
  Proof.
    intros H. assert (A : forall b, In b nodes -> W b - C * degree b <= V b <= W b + C * degree b).
    { intros b I. specialize (H b I). unfold Rabs in H. destruct (Rcase_abs (V b - W b)); lra. }
    assert (X : forall s, collected (fun b => W b + s * degree b) n = collected W n + 85 / 100 * s * degree n).
    { intros s. pose proof (collected_flat s n) as E. unfold SpecTextrank.collected in E |- *.
      rewrite (sum_over_ext nodes (fun b => link n b / degree b * (W b + s * degree b))
        (fun b => link n b / degree b * W b + link n b / degree b * (s * degree b))) by (intros; ring).
      rewrite sum_over_plus. lra. }
    assert (U : collected V n <= collected (fun b => W b + C * degree b) n).
    { apply collected_mono. intros b I. apply A; auto. }
    assert (D : collected (fun b => W b + (- C) * degree b) n <= collected V n).
    { apply collected_mono. intros b I. specialize (A b I). lra. }
    rewrite X in U, D. apply Rabs_le. lra.
  Qed.

  (** ** One round *)

  Definition step (W : term -> R) (n m : term) : R := if term_eq_dec m n then collected W n else W m.

  Lemma round_near W C : stationary W -> 0 <= C ->
    forall order V, (forall b, In b nodes -> Rabs (V b - W b) <= C * degree b) -> incl order nodes ->
      forall b, In b nodes ->
        Rabs (fold_left step order V b - W b) <= C * degree b /\
        (In b order \/ Rabs (V b - W b) <= 85 / 100 * C * degree b ->
         Rabs (fold_left step order V b - W b) <= 85 / 100 * C * degree b).
  Proof.
    intros ST C0. induction order as [|n order IH]; intros V H INC b I; cbn [fold_left].
    - split; auto. intros [[]|]; auto.
    - assert (IN : In n nodes) by (apply INC; left; auto).
      assert (CN : Rabs (collected V n - W n) <= 85 / 100 * C * degree n).
      { rewrite (ST n IN). apply collected_near. auto. }
      assert (H' : forall b, In b nodes -> Rabs (step V n b - W b) <= C * degree b).
      { intros x J. unfold step. destruct (term_eq_dec x n) as [->|]; auto. pose proof (degree_ge1 n IN). nra. }
      assert (INC' : incl order nodes) by (intros x J; apply INC; right; auto).
      destruct (IH (step V n) H' INC' b I) as [B1 B2].
      split; [exact B1|]. intros G. apply B2.
      destruct (term_eq_dec b n) as [E|N].
      + right. subst b. unfold step. destruct (term_eq_dec n n); [auto|congruence].
      + destruct G as [[G|G]|G]; [congruence|left; auto|].
        right. unfold step. destruct (term_eq_dec b n); [contradiction|auto].
  Qed.

  (** ** Stationary weights *)

  Lemma stationary_le c W : stationary W -> (forall n, In n nodes -> c <= degree n) -> 0 < c ->
    forall n, In n nodes -> W n <= degree n / c.
  Proof.
    intros ST D C0 n I. assert (NE : nodes <> []) by (intros ->; contradiction).
    destruct (least_exists nodes (fun m => - (W m / degree m)) NE) as (m & IM & L).
    set (q := W m / degree m) in *.
    assert (Q : forall b, In b nodes -> W b <= q * degree b).
    { intros b J. specialize (L b J). pose proof (degree_ge1 b J). cbv beta in L.
      replace (W b) with (W b / degree b * degree b) by (field; lra). apply Rmult_le_compat_r; lra. }
    assert (B : W m <= 15 / 100 + 85 / 100 * (q * degree m)).
    { rewrite <- collected_flat. rewrite (ST m IM) at 1. apply collected_mono. auto. }
    pose proof (degree_ge1 m IM). assert (E : W m = q * degree m) by (unfold q; field; lra).
    specialize (D m IM). assert (q * degree m <= 1) by lra.
    assert (q <= / c).
    { apply Rmult_le_reg_r with c; auto. rewrite Rinv_l by lra.
      destruct (Rle_or_lt q 0); [nra|]. apply Rle_trans with (q * degree m); auto. apply Rmult_le_compat_l; lra. }
    eapply Rle_trans; [apply Q; auto|]. pose proof (degree_ge1 n I). unfold Rdiv. rewrite Rmult_comm. apply Rmult_le_compat_l; lra.
  Qed.

  Lemma stationary_ge c W : stationary W -> (forall n, In n nodes -> degree n <= c) ->
    forall n, In n nodes -> degree n / c <= W n.
  Proof.
    intros ST D n I. assert (NE : nodes <> []) by (intros ->; contradiction).
    assert (C0 : 0 < c) by (pose proof (degree_ge1 n I); specialize (D n I); lra).
    destruct (least_exists nodes (fun m => W m / degree m) NE) as (m & IM & L).
    set (q := W m / degree m) in *.
    assert (Q : forall b, In b nodes -> q * degree b <= W b).
    { intros b J. specialize (L b J). pose proof (degree_ge1 b J). cbv beta in L.
      replace (W b) with (W b / degree b * degree b) by (field; lra). apply Rmult_le_compat_r; lra. }
    assert (B : 15 / 100 + 85 / 100 * (q * degree m) <= W m).
    { rewrite <- collected_flat. rewrite (ST m IM). apply collected_mono. auto. }
    pose proof (degree_ge1 m IM). assert (E : W m = q * degree m) by (unfold q; field; lra).
    specialize (D m IM). assert (1 <= q * degree m) by lra.
    assert (/ c <= q).
    { apply Rmult_le_reg_r with c; auto. rewrite Rinv_l by lra.
      destruct (Rle_or_lt q 0); [nra|]. apply Rle_trans with (q * degree m); auto. apply Rmult_le_compat_l; lra. }
    eapply Rle_trans; [|apply Q; auto]. pose proof (degree_ge1 n I). unfold Rdiv. rewrite Rmult_comm. apply Rmult_le_compat_r; lra.
  Qed.

  Lemma stationary_gt W : stationary W -> forall n, In n nodes -> 15 / 100 < W n.
  Proof.
    intros ST n I. assert (NE : nodes <> []) by (intros ->; contradiction).
    destruct (least_exists nodes (fun m => - degree m) NE) as (m & IM & L). cbv beta in L.
    assert (DM : 1 <= degree m) by (apply degree_ge1; auto).
    assert (G : forall b, In b nodes -> / degree m * degree b <= W b).
    { intros b J. rewrite Rmult_comm. apply (stationary_ge (degree m) W ST); auto. intros x K. specialize (L x K). lra. }
    rewrite (ST n I). apply Rlt_le_trans with (collected (fun b => / degree m * degree b) n).
    - rewrite collected_flat. pose proof (degree_ge1 n I). assert (0 < / degree m) by (apply Rinv_0_lt_compat; lra). nra.
    - apply collected_mono. auto.
  Qed.

  Lemma stationary_sum W : stationary W -> sum_over nodes W = INR (length nodes).
  Proof.
    intros ST. assert (E : sum_over nodes W = 15 / 100 * INR (length nodes) + 85 / 100 * sum_over nodes W).
    { rewrite (sum_over_ext nodes W (fun n => 15 / 100 + 85 / 100 * sum_over nodes (fun b => link n b / degree b * W b))) at 1
        by (intros n I; exact (ST n I)).
      rewrite sum_over_plus, sum_over_const, sum_over_scal, sum_over_swap.
      rewrite (sum_over_ext nodes (fun b => sum_over nodes (fun a => link a b / degree b * W b)) W); [lra|].
      intros b I. pose proof (degree_ge1 b I).
      rewrite (sum_over_ext nodes _ (fun a => W b / degree b * link b a)) by (intros a J; rewrite (link_sym a b); field; lra).
      rewrite sum_over_scal. change (sum_over nodes (link b)) with (degree b). field. lra. }
    lra.
  Qed.

  Lemma stationary_unique V W : stationary V -> stationary W -> forall n, In n nodes -> V n = W n.
  Proof.
    intros SV SW n I. assert (NE : nodes <> []) by (intros ->; contradiction).
    destruct (least_exists nodes (fun m => - (Rabs (V m - W m) / degree m)) NE) as (m & IM & L). cbv beta in L.
    set (q := Rabs (V m - W m) / degree m) in *.
    assert (Q : forall b, In b nodes -> Rabs (V b - W b) <= q * degree b).
    { intros b J. specialize (L b J). pose proof (degree_ge1 b J).
      replace (Rabs (V b - W b)) with (Rabs (V b - W b) / degree b * degree b) by (field; lra). apply Rmult_le_compat_r; lra. }
    pose proof (collected_near q V W m Q) as B. rewrite <- (SV m IM), <- (SW m IM) in B.
    pose proof (degree_ge1 m IM). assert (E : Rabs (V m - W m) = q * degree m) by (unfold q; field; lra).
    assert (q <= 0) by nra. specialize (Q n I). pose proof (degree_ge1 n I). pose proof (Rabs_pos (V n - W n)).
    assert (Rabs (V n - W n) = 0) by nra. destruct (Req_dec (V n - W n) 0) as [Z|Z]; [lra|]. apply Rabs_no_R0 in Z. contradiction.
  Qed.

  (** all words at once instead of one after the other, from nothing *)
  Definition climb (k : nat) : term -> R := Nat.iter k collected (fun _ => 0).

  Lemma climb_up k n : climb k n <= climb (S k) n.
  Proof.
    revert n. induction k as [|k IH]; intros n.
    - cbn. unfold SpecTextrank.collected. rewrite sum_over_0 by (intros; lra). lra.
    - change (collected (climb k) n <= collected (climb (S k)) n). apply collected_mono. auto.
  Qed.
  Lemma climb_ub k n : In n nodes -> climb k n <= degree n.
  Proof.
    revert n. induction k as [|k IH]; intros n I.
    - cbn. pose proof (degree_ge1 n I). lra.
    - change (collected (climb k) n <= degree n). apply Rle_trans with (collected (fun b => 1 * degree b) n).
      + apply collected_mono. intros b J. rewrite Rmult_1_l. auto.
      + rewrite collected_flat. pose proof (degree_ge1 n I). lra.
  Qed.

  Lemma stationary_exists : exists W, stationary W.
  Proof.
    assert (CV : forall n, {l | In n nodes -> Un_cv (fun k => climb k n) l}).
    { intros n. destruct (in_dec term_eq_dec n nodes) as [I|N].
      - destruct (growing_cv (fun k => climb k n)) as [l L].
        + intros k. apply climb_up.
        + exists (degree n). intros x [k ->]. apply climb_ub; auto.
        + exists l. auto.
      - exists 0. contradiction. }
    exists (fun n => proj1_sig (CV n)). set (W := fun n => proj1_sig (CV n)).
    assert (L : forall n, In n nodes -> Un_cv (fun k => climb k n) (W n)) by (intros n; exact (proj2_sig (CV n))).
    intros n I. apply UL_sequence with (Un := fun k => climb (S k) n).
    - intros e E. destruct (L n I e E) as [N H]. exists N. intros k K. apply H. lia.
    - change (Un_cv (fun k => 15 / 100 + 85 / 100 * sum_over nodes (fun b => link n b / degree b * climb k b)) (collected W n)).
      apply (CV_plus (fun _ => 15 / 100) (fun k => 85 / 100 * sum_over nodes (fun b => link n b / degree b * climb k b))); [apply cv_const|].
      apply (CV_mult (fun _ => 85 / 100) (fun k => sum_over nodes (fun b => link n b / degree b * climb k b))); [apply cv_const|].
      apply (sum_over_cv nodes (fun k b => link n b / degree b * climb k b)). intros b J.
      apply (CV_mult (fun _ => link n b / degree b) (fun k => climb k b)); [apply cv_const|auto].
  Qed.
  Variable order : list term.
  Hypothesis WO : Permutation nodes order.

  Lemma rounds_near W C k V : stationary W -> 0 <= C ->
    (forall b, In b nodes -> Rabs (V b - W b) <= C * degree b) ->
    forall n, In n nodes -> Rabs (rounds ls nodes order k V n - W n) <= (85 / 100) ^ k * C * degree n.
  Proof.
    intros ST C0 H. induction k as [|k IH].
    - intros n I. cbn. rewrite Rmult_1_l. auto.
    - intros n I.
      change (rounds ls nodes order (S k) V) with (fold_left step order (rounds ls nodes order k V)).
      destruct (round_near W ((85 / 100) ^ k * C) ST) with (order := order) (V := rounds ls nodes order k V) (b := n)
        as [_ B]; auto.
      + apply Rmult_le_pos; auto. apply pow_le. lra.
      + intros x J. apply Permutation_in with (1 := Permutation_sym WO). auto.
      + cbn [pow]. rewrite !Rmult_assoc in *. apply B. left. apply Permutation_in with (1 := WO). auto.
  Qed.

  Lemma rounds_below W k V : stationary W -> (forall b, In b nodes -> V b <= W b) ->
    forall n, In n nodes -> rounds ls nodes order k V n <= W n.
  Proof.
    intros ST H. induction k as [|k IH]; [exact H|].
    change (rounds ls nodes order (S k) V) with (fold_left step order (rounds ls nodes order k V)).
    generalize (rounds ls nodes order k V) IH. clear - ST WO NS.
    assert (INC : incl order nodes) by (intros x J; apply Permutation_in with (1 := Permutation_sym WO); auto).
    clear WO. induction order as [|m o IH]; intros U HU; [exact HU|]. cbn [fold_left]. apply IH.
    - intros x J. apply INC. right. auto.
    - intros x J. unfold step. destruct (term_eq_dec x m) as [->|]; auto. rewrite (ST m J). apply collected_mono. auto.
  Qed.
End Fixed.
