(** * C73: the weights of TextRank *)
From Coq Require Import Reals Lra Lia Permutation.
From Flocq Require Import Core BinarySingleNaN.
From Verif Require Import PyBase PyNum SpecNum SpecBase SpecSeg SpecDict SpecHealth ProofsBase
  ModelFinalseg ModelSeg ModelDict ModelApi ModelPosseg ModelAnalyse SpecAnalyse SpecTextrank
  InstR InstB64 InstQ InstExt InstB64Ext InstCount InstRound
  ProofsRank ProofsGraph ProofsKeywords ProofsTextrank ProofsRankNear ProofsRankSpec Demo DemoPos PropsPosseg PropsAnalyse.
Local Open Scope R_scope.

(** the links, the words that have links and their order exist for every list of
    words, and the smallest and the largest weight do if there is a link *)
Theorem C73_defined :
  forall (lower : str -> str) (stop allow : list str) (span : nat) (withFlag : bool) (words : list tagged),
    exists ls nodes order,
      links_of lower stop allow span withFlag words ls /\ nodes_of ls nodes /\ word_order nodes order /\
      (ls <> [] -> exists lo hi, smallest ls nodes order lo /\ largest ls nodes order hi).
Proof. apply spec_exists. Qed.

(** without rounding *)
Theorem C73_exact :
  forall (lower : str -> str) (x : textrank) (words : list tagged) (allow : list str) (withFlag : bool)
         (ls : list (term * term)) (nodes order : list term) (lo hi : R),
    links_of lower (tr_stop x) allow (tr_span x) withFlag words ls -> nodes_of ls nodes -> word_order nodes order ->
    smallest ls nodes order lo -> largest ls nodes order hi ->
    textrank_words numX lower x words allow withFlag =
      Ok (map (fun n => (n, Some (weight ls nodes order lo hi n))) nodes).
Proof.
  intros lower x words allow wf ls nodes order lo hi LS NS WO LO HI.
  destruct (any_range (2 * INR (length words * tr_span x) + 10)) as (G & G1 & G2).
  assert (U0 : 1 + 2 * r_u (roundX G G1) = 1) by (cbn; lra).
  destruct (weights_near numX orderX (roundX G G1) lower x words allow wf ls nodes order lo hi) as (d & E & K & N); auto.
  { rewrite U0, pow1. lra. }
  destruct (words_rank numX orderX (roundX G G1) lower x words allow wf) as (d' & E' & _ & _ & R1 & _); auto.
  assert (d' = d) by congruence. subst d'.
  rewrite E. subst nodes. rewrite map_map. f_equal. rewrite <- (map_id d) at 1. apply map_ext_in. intros [n y] I. cbn [fst].
  destruct (N n y I) as [_ [N1 N2]]. rewrite U0, pow1 in N1, N2. destruct (R1 n y I) as [FI _].
  destruct y as [y|]; [|cbn in FI; congruence]. cbn [o_val orderX ext_order] in N1, N2. cbn in N1, N2.
  do 2 f_equal. rewrite Rmult_1_l in N1, N2. apply Rle_antisym; auto.
Qed.

(** in binary64, within a factor of 2^-42 for every pair of places that was looked at *)
Theorem C73_binary64 :
  forall (lg : Z -> b64) (lower : str -> str) (x : textrank) (words : list tagged) (allow : list str) (withFlag : bool)
         (ls : list (term * term)) (nodes order : list term) (lo hi : R),
    log_ok lg -> (Z.of_nat (length words * tr_span x) < 2 ^ 40)%Z ->
    links_of lower (tr_stop x) allow (tr_span x) withFlag words ls -> nodes_of ls nodes -> word_order nodes order ->
    smallest ls nodes order lo -> largest ls nodes order hi ->
    exists d : list (term * b64), textrank_words (numB lg) lower x words allow withFlag = Ok d /\ map fst d = nodes /\
      forall n y, In (n, y) d ->
        Rabs (B2R y - weight ls nodes order lo hi n) <=
          (INR (length words * tr_span x) + 1) / 2 ^ 42 * weight ls nodes order lo hi n.
Proof.
  intros lg lower x words allow wf ls nodes order lo hi OK SZ LS NS WO LO HI.
  set (L := (length words * tr_span x)%nat) in *. set (k := (720 * L + 11)%nat).
  assert (LB : 0 <= INR L <= 2 ^ 40 - 1).
  { split; [apply pos_INR|]. rewrite INR_IZR_INZ. replace (2 ^ 40 - 1) with (IZR (2 ^ 40 - 1)) by (rewrite minus_IZR; cbn; lra).
    apply IZR_le. lia. }
  assert (KI : INR k = 720 * INR L + 11) by (unfold k; rewrite plus_INR, mult_INR; cbn; lra).
  assert (UE : 2 * r_u (roundB lg OK) = / 2 ^ 52).
  { change (r_u (roundB lg OK)) with (bpow radix2 (-53)). cbn. lra. }
  set (t := 2 * r_u (roundB lg OK)) in *.
  assert (KT : INR k * t <= 18 / 100).
  { rewrite KI, UE. apply Rmult_le_reg_r with (2 ^ 52); [lra|]. rewrite Rmult_assoc, Rinv_l by lra. lra. }
  assert (T0 : 0 < t) by (rewrite UE; lra).
  assert (K0 : 0 <= INR k * t) by (apply Rmult_le_pos; [apply pos_INR|lra]).
  assert (PC : (1 + t) ^ k * (1 - INR k * t) <= 1) by (apply pow_close; lra).
  assert (P1 : 1 <= (1 + t) ^ k) by (apply pow_R1_Rle; lra).
  assert (G2 : 2 * INR L + 10 <= r_G (roundB lg OK)).
  { change (r_G (roundB lg OK)) with (IZR (2 ^ 48)). rewrite (INR_IZR_INZ L), <- mult_IZR, <- plus_IZR. apply IZR_le. lia. }
  destruct (weights_near (numB lg) (orderB lg OK) (roundB lg OK) lower x words allow wf ls nodes order lo hi) as (d & E & K & N); auto.
  { fold t. fold L. fold k. nra. }
  destruct (words_rank (numB lg) (orderB lg OK) (roundB lg OK) lower x words allow wf G2) as (d' & E' & _ & _ & R1 & _).
  assert (d' = d) by congruence. subst d'.
  exists d. split; [exact E|]. split; auto. intros n y I.
  destruct (N n y I) as [Z [N1 N2]]. destruct (R1 n y I) as [FI B]. cbn [o_val orderB] in N1, N2.
  rewrite bval_finite in N1, N2 by auto. fold t in N1, N2. fold L in N1, N2. fold k in N1, N2.
  set (z := weight ls nodes order lo hi n) in *. set (p := (1 + t) ^ k) in *. set (a := B2R y) in *.
  set (e := (INR L + 1) / 2 ^ 42).
  assert (EE : INR k * t <= 82 / 100 * e /\ 0 <= e).
  { unfold e. rewrite KI, UE. split; [|apply Rmult_le_pos; lra].
    apply Rmult_le_reg_r with (2 ^ 52); [lra|].
    replace ((720 * INR L + 11) * / 2 ^ 52 * 2 ^ 52) with (720 * INR L + 11) by (field; lra).
    replace (82 / 100 * ((INR L + 1) / 2 ^ 42) * 2 ^ 52) with (82 / 100 * (INR L + 1) * 2 ^ 10) by (field; lra). lra. }
  set (kt := INR k * t) in *. clearbody kt e p z a. clear - EE N1 N2 Z KT K0 PC P1.
  assert (PB : p <= 1 + e).
  { apply Rmult_le_reg_r with (1 - kt); [lra|]. nra. }
  assert (A0 : 0 <= a) by (destruct (Rle_or_lt 0 a); auto; nra).
  apply Rabs_le. split.
  - assert ((1 - kt) * z <= (1 - kt) * (p * a)) by (apply Rmult_le_compat_l; lra).
    assert ((1 - kt) * (p * a) <= a) by nra. nra.
  - nra.
Qed.

(** no links, no keywords *)
Theorem C73_no_links :
  forall (num : Num) (lower : str -> str) (x : textrank) (words : list tagged) (allow : list str) (withFlag : bool),
    links_of lower (tr_stop x) allow (tr_span x) withFlag words [] ->
    textrank_words num lower x words allow withFlag = Ok [].
Proof.
  intros num lower x words allow wf LS.
  pose proof (links_unique _ _ _ _ _ _ _ _ LS (pairs_links lower x allow wf words)) as E.
  unfold textrank_words. rewrite cooccur_pairs, <- E. reflexivity.
Qed.

(** ** A case: two words, one link *)

Definition wa : term := TWord [c_bei; c_jing].
Definition wb : term := TWord [c_da; c_xue; c_sheng].
Notation two := [([c_bei; c_jing], s_ns); ([c_da; c_xue; c_sheng], s_n)].
Notation one_link := [(wa, wb)].

Lemma two_round W : let W' := one_round one_link [wa; wb] [wa; wb] W in
  W' wa = 15 / 100 + 85 / 100 * W wb /\ W' wb = 15 / 100 + 85 / 100 * W' wa.
Proof.
  assert (NE : wa <> wb) by discriminate.
  assert (L : link one_link wa wa = 0 /\ link one_link wa wb = 1 /\ link one_link wb wa = 1 /\ link one_link wb wb = 0).
  { unfold link. cbn [count_occ].
    assert (X : forall p q : term * term, (if link_eq_dec p q then 1%nat else 0%nat) = if pair_eqb p q then 1%nat else 0%nat).
    { intros p q. destruct (link_eq_dec p q) as [E|N], (pair_eqb p q) eqn:Q; auto; exfalso.
      - subst. rewrite (proj2 (pair_eqb_eq q q) eq_refl) in Q. discriminate.
      - apply pair_eqb_eq in Q. contradiction. }
    rewrite !X. cbn. lra. }
  destruct L as (L1 & L2 & L3 & L4).
  assert (DG : degree one_link [wa; wb] wa = 1 /\ degree one_link [wa; wb] wb = 1).
  { unfold degree, sum_over. cbn [fold_right]. rewrite L1, L2, L3, L4. lra. }
  destruct DG as [D1 D2]. cbv zeta. unfold one_round. cbn [fold_left].
  set (W1 := fun m => if term_eq_dec m wa then collected one_link [wa; wb] W wa else W m).
  assert (A : W1 wa = 15 / 100 + 85 / 100 * W wb).
  { unfold W1. destruct (term_eq_dec wa wa); [|congruence]. unfold collected, sum_over. cbn [fold_right].
    rewrite L1, L2, D1, D2. lra. }
  assert (B : W1 wb = W wb) by (unfold W1; destruct (term_eq_dec wb wa); congruence).
  destruct (term_eq_dec wa wb); [congruence|]. destruct (term_eq_dec wb wb); [|congruence].
  change (W1 wa = 15 / 100 + 85 / 100 * W wb /\ collected one_link [wa; wb] W1 wb = 15 / 100 + 85 / 100 * W1 wa).
  split; auto. unfold collected, sum_over. cbn [fold_right]. rewrite L3, L4, D1, D2. lra.
Qed.

Lemma two_raw : exists lo hi, lo < hi /\ smallest one_link [wa; wb] [wa; wb] lo /\ largest one_link [wa; wb] [wa; wb] hi /\
  raw_weight one_link [wa; wb] [wa; wb] wa = lo /\ raw_weight one_link [wa; wb] [wa; wb] wb = hi.
Proof.
  set (W := raw_weight one_link [wa; wb] [wa; wb]).
  assert (H : forall k, let V := Nat.iter k (one_round one_link [wa; wb] [wa; wb]) (fun _ => 1 / INR (length [wa; wb])) in V wb < 1).
  { induction k as [|k IH]; [cbn; lra|]. cbv zeta in *.
    change (Nat.iter (S k) (one_round one_link [wa; wb] [wa; wb]) (fun _ => 1 / INR (length [wa; wb]))) with
      (one_round one_link [wa; wb] [wa; wb] (Nat.iter k (one_round one_link [wa; wb] [wa; wb]) (fun _ => 1 / INR (length [wa; wb])))).
    destruct (two_round (Nat.iter k (one_round one_link [wa; wb] [wa; wb]) (fun _ => 1 / INR (length [wa; wb])))) as [A B].
    lra. }
  assert (AB : W wa < W wb).
  { specialize (H 9%nat). cbv zeta in H.
    unfold W, raw_weight. change (Nat.iter 10 (one_round one_link [wa; wb] [wa; wb]) (fun _ => 1 / INR (length [wa; wb]))) with
      (one_round one_link [wa; wb] [wa; wb] (Nat.iter 9 (one_round one_link [wa; wb] [wa; wb]) (fun _ => 1 / INR (length [wa; wb])))).
    destruct (two_round (Nat.iter 9 (one_round one_link [wa; wb] [wa; wb]) (fun _ => 1 / INR (length [wa; wb])))) as [A B].
    lra. }
  exists (W wa), (W wb). split; auto. unfold smallest, largest. fold W. split; [|split; [|auto]]; split.
  - exists wa. split; [left|]; auto.
  - intros n [<-|[<-|[]]]; lra.
  - exists wb. split; [right; left|]; auto.
  - intros n [<-|[<-|[]]]; lra.
Qed.

Example C73_nonvacuous :
  exists lo hi, lo < hi /\
    links_of lowerA (tr_stop textrank_init) [s_ns; s_n] (tr_span textrank_init) false two one_link /\
    nodes_of one_link [wa; wb] /\ word_order [wa; wb] [wa; wb] /\
    smallest one_link [wa; wb] [wa; wb] lo /\ largest one_link [wa; wb] [wa; wb] hi /\
    0 < weight one_link [wa; wb] [wa; wb] lo hi wa < 1 /\ weight one_link [wa; wb] [wa; wb] lo hi wb = 1.
Proof.
  destruct two_raw as (lo & hi & LT & LO & HI & WA & WB). exists lo, hi. split; auto.
  split.
  { pose proof (pairs_links lowerA textrank_init [s_ns; s_n] false two) as P.
    assert (E : pairs lowerA textrank_init [s_ns; s_n] false two = one_link) by (vm_compute; reflexivity).
    rewrite E in P. exact P. }
  assert (NN : nodes_of one_link [wa; wb]).
  { pose proof (graph_nodes one_link) as P.
    assert (E : map fst (graph_of (fold_left bump one_link [])) = [wa; wb]) by (vm_compute; reflexivity).
    rewrite E in P. exact P. }
  split; auto. split.
  { pose proof (word_sorted [wa; wb]) as P.
    assert (E : sorted_asc term_ltb [wa; wb] = [wa; wb]) by (vm_compute; reflexivity). rewrite E in P. exact P. }
  split; auto. split; auto.
  assert (L0 : 0 < lo).
  { rewrite <- WA. unfold raw_weight. change (Nat.iter 10 (one_round one_link [wa; wb] [wa; wb]) (fun _ => 1 / INR (length [wa; wb]))) with
      (one_round one_link [wa; wb] [wa; wb] (Nat.iter 9 (one_round one_link [wa; wb] [wa; wb]) (fun _ => 1 / INR (length [wa; wb])))).
    destruct (two_round (Nat.iter 9 (one_round one_link [wa; wb] [wa; wb]) (fun _ => 1 / INR (length [wa; wb])))) as [A _].
    rewrite A. assert (H : forall k, let V := Nat.iter k (one_round one_link [wa; wb] [wa; wb]) (fun _ => 1 / INR (length [wa; wb])) in 0 < V wb).
    { induction k as [|k IH]; [cbn; lra|]. cbv zeta in *.
      change (Nat.iter (S k) (one_round one_link [wa; wb] [wa; wb]) (fun _ => 1 / INR (length [wa; wb]))) with
        (one_round one_link [wa; wb] [wa; wb] (Nat.iter k (one_round one_link [wa; wb] [wa; wb]) (fun _ => 1 / INR (length [wa; wb])))).
      destruct (two_round (Nat.iter k (one_round one_link [wa; wb] [wa; wb]) (fun _ => 1 / INR (length [wa; wb])))) as [A' B'].
      lra. }
    specialize (H 9%nat). cbv zeta in H. lra. }
  unfold weight. rewrite WA, WB. split; [split|].
  - apply Rmult_lt_0_compat; [lra|]. apply Rinv_0_lt_compat. lra.
  - apply Rmult_lt_reg_r with (hi - lo / 10); [lra|]. unfold Rdiv at 1. rewrite Rmult_assoc, Rinv_l by lra. lra.
  - field. lra.
Qed.

Print Assumptions C73_defined.
Print Assumptions C73_exact.
Print Assumptions C73_binary64.
Print Assumptions C73_no_links.
