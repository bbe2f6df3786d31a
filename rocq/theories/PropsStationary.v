(** * C122: TextRank's ten rounds and the weights they are meant to approach *)
From Coq Require Import Reals Lra Lia Permutation.
From Flocq Require Import Core BinarySingleNaN.
From Verif Require Import PyBase PyNum SpecNum SpecBase SpecSeg SpecDict SpecHealth ProofsBase
  ModelFinalseg ModelSeg ModelDict ModelApi ModelPosseg ModelAnalyse SpecAnalyse SpecTextrank SpecStationary
  InstR InstB64 InstQ InstExt InstB64Ext InstCount InstRound
  ProofsRank ProofsGraph ProofsKeywords ProofsTextrank ProofsRankNear ProofsRankSpec ProofsStationary
  Demo DemoPos PropsPosseg PropsAnalyse PropsTextrank.
Local Open Scope R_scope.

(** there are such weights, and only one of them for each word; they add up to the number of
    words, and each lies between the word's links over the most and over the fewest links of a word *)
Theorem C122_stationary :
  forall (ls : list (term * term)) (nodes : list term), nodes_of ls nodes ->
    exists W, stationary ls nodes W /\
      (forall V, stationary ls nodes V -> forall n, In n nodes -> V n = W n) /\
      sum_over nodes W = INR (length nodes) /\
      forall least most n, least_linked ls nodes least -> most_linked ls nodes most -> In n nodes ->
        15 / 100 < W n /\ degree ls nodes n / most <= W n <= degree ls nodes n / least.
Proof.
  intros ls nodes NS. destruct (stationary_exists ls nodes NS) as [W ST]. exists W. split; auto.
  split; [intros V SV; apply (stationary_unique ls nodes NS); auto|]. split; [apply (stationary_sum ls nodes NS); auto|].
  intros least most n [(m & IM & <-) L] [_ M] I. split; [apply (stationary_gt ls nodes NS); auto|].
  split; [apply (stationary_ge ls nodes NS); auto|apply (stationary_le ls nodes NS); auto].
  pose proof (degree_ge1 ls nodes NS m IM). lra.
Qed.

(** from any weights the rounds come 15 percent closer each time, whatever the order of the words *)
Theorem C122_rounds :
  forall (ls : list (term * term)) (nodes order : list term) (W V : term -> R) (C : R),
    nodes_of ls nodes -> Permutation nodes order -> stationary ls nodes W -> 0 <= C ->
    (forall n, In n nodes -> Rabs (V n - W n) <= C * degree ls nodes n) ->
    forall k n, In n nodes ->
      Rabs (rounds ls nodes order k V n - W n) <= (85 / 100) ^ k * C * degree ls nodes n.
Proof. intros ls nodes order W V C NS P ST C0 H k n I. apply (rounds_near ls nodes NS order P W C k V); auto. Qed.

Lemma start_near ls nodes W least : nodes_of ls nodes -> stationary ls nodes W -> least_linked ls nodes least ->
  forall n, In n nodes -> Rabs (1 / INR (length nodes) - W n) <= / least * degree ls nodes n.
Proof.
  intros NS ST [(m & IM & EM) L] n I. pose proof (degree_ge1 ls nodes NS m IM) as D1.
  assert (L0 : 0 < least) by lra.
  pose proof (stationary_le ls nodes NS least W ST L L0 n I) as U.
  pose proof (stationary_gt ls nodes NS W ST n I) as G.
  assert (N1 : 1 <= INR (length nodes)) by (apply (le_INR 1); destruct nodes; [contradiction|cbn; lia]).
  assert (S1 : 0 < 1 / INR (length nodes) <= 1).
  { split; [apply Rmult_lt_0_compat; [lra|apply Rinv_0_lt_compat; lra]|].
    apply Rmult_le_reg_r with (INR (length nodes)); [lra|]. unfold Rdiv. rewrite Rmult_assoc, Rinv_l by lra. lra. }
  assert (R1 : 1 <= / least * degree ls nodes n).
  { apply Rmult_le_reg_l with least; auto. rewrite <- Rmult_assoc, Rinv_r by lra. specialize (L n I). lra. }
  unfold Rdiv in U. rewrite Rmult_comm in U. apply Rabs_le. lra.
Qed.

Lemma tenth : (85 / 100) ^ 10 <= 1969 / 10000.
Proof. cbn [pow]. lra. Qed.

Lemma raw_close ls nodes order W least : nodes_of ls nodes -> Permutation nodes order -> stationary ls nodes W ->
  least_linked ls nodes least -> forall n, In n nodes ->
  Rabs (raw_weight ls nodes order n - W n) <= 1969 / 10000 * (degree ls nodes n / least).
Proof.
  intros NS P ST LL n I.
  assert (L0 : 0 < least) by (destruct LL as [(m & IM & EM) _]; pose proof (degree_ge1 ls nodes NS m IM); lra).
  assert (Q : 0 < / least) by (apply Rinv_0_lt_compat; auto).
  pose proof (C122_rounds ls nodes order W (fun _ => 1 / INR (length nodes)) (/ least) NS P ST (Rlt_le _ _ Q)
    (start_near ls nodes W least NS ST LL) 10 n I) as B.
  change (rounds ls nodes order 10 (fun _ => 1 / INR (length nodes))) with (raw_weight ls nodes order) in B.
  pose proof tenth. pose proof (degree_ge1 ls nodes NS n I).
  eapply Rle_trans; [exact B|]. rewrite Rmult_assoc. unfold Rdiv. rewrite (Rmult_comm (degree ls nodes n)).
  apply Rmult_le_compat_r; [apply Rmult_le_pos; lra|]. exact tenth.
Qed.

(** so after the ten rounds of the code the distance is less than a fifth of the word's links
    over the fewest links of a word *)
Theorem C122_ten_rounds :
  forall (ls : list (term * term)) (nodes order : list term) (W : term -> R) (least : R),
    nodes_of ls nodes -> word_order nodes order -> stationary ls nodes W -> least_linked ls nodes least ->
    forall n, In n nodes -> Rabs (raw_weight ls nodes order n - W n) < 1 / 5 * (degree ls nodes n / least).
Proof.
  intros ls nodes order W least NS [P _] ST LL n I.
  eapply Rle_lt_trans; [exact (raw_close ls nodes order W least NS P ST LL n I)|].
  apply Rmult_lt_compat_r; [|lra]. pose proof (degree_ge1 ls nodes NS n I).
  destruct LL as [(m & IM & EM) _]; pose proof (degree_ge1 ls nodes NS m IM).
  apply Rmult_lt_0_compat; [lra|apply Rinv_0_lt_compat; lra].
Qed.

Lemma step_pos ls nodes : nodes_of ls nodes -> forall l U, (forall n, In n nodes -> 0 <= U n) -> incl l nodes ->
  forall n, In n nodes -> 0 <= fold_left (step ls nodes) l U n.
Proof.
  intros NS. induction l as [|m l IH]; intros U HU INC; [exact HU|]. cbn [fold_left]. apply IH.
  - intros x J. unfold step. destruct (term_eq_dec x m) as [->|]; auto. unfold collected.
    assert (0 <= sum_over nodes (fun b => link ls m b / degree ls nodes b * U b)).
    { rewrite <- (sum_over_0 nodes (fun _ => 0)) by auto. apply sum_over_le. intros b K.
      apply Rmult_le_pos; auto. apply (share_pos ls nodes NS); auto. }
    lra.
  - intros x J. apply INC. right. auto.
Qed.

Lemma raw_pos ls nodes order : nodes_of ls nodes -> Permutation nodes order ->
  forall n, In n nodes -> 0 <= raw_weight ls nodes order n.
Proof.
  intros NS P. unfold raw_weight. generalize 10%nat as k.
  assert (INC : incl order nodes) by (intros x J; apply Permutation_in with (1 := Permutation_sym P); auto).
  induction k as [|k IH].
  - intros n I. cbn [Nat.iter nat_rect]. apply Rmult_le_pos; [lra|]. left. apply Rinv_0_lt_compat. apply (lt_INR 0).
    destruct nodes; [contradiction|cbn; lia].
  - exact (step_pos ls nodes NS order _ IH INC).
Qed.

(** the weights after the rounds, of two words whose stationary weights are far enough apart *)
Lemma raw_order ls nodes order W least a b : nodes_of ls nodes -> Permutation nodes order -> stationary ls nodes W ->
  least_linked ls nodes least -> In a nodes -> In b nodes ->
  W a + 1 / 5 * (degree ls nodes a / least) + 1 / 5 * (degree ls nodes b / least) <= W b ->
  raw_weight ls nodes order b - raw_weight ls nodes order a >=
    25 / 10000 * (raw_weight ls nodes order a + raw_weight ls nodes order b) /\
  0 < raw_weight ls nodes order b.
Proof.
  intros NS P ST LL IA IB H.
  assert (L0 : 0 < least) by (destruct LL as [(m & IM & EM) _]; pose proof (degree_ge1 ls nodes NS m IM); lra).
  assert (Q : 0 < / least) by (apply Rinv_0_lt_compat; auto).
  pose proof (raw_close ls nodes order W least NS P ST LL a IA) as A.
  pose proof (raw_close ls nodes order W least NS P ST LL b IB) as B.
  assert (L : forall n, In n nodes -> least <= degree ls nodes n) by (destruct LL; auto).
  pose proof (stationary_le ls nodes NS least W ST L L0 a IA) as UA.
  pose proof (stationary_le ls nodes NS least W ST L L0 b IB) as UB.
  pose proof (stationary_gt ls nodes NS W ST a IA) as GA.
  assert (RA : 1 <= degree ls nodes a / least).
  { apply Rmult_le_reg_r with least; auto. unfold Rdiv. rewrite Rmult_assoc, Rinv_l by lra. specialize (L a IA). lra. }
  assert (RB : 1 <= degree ls nodes b / least).
  { apply Rmult_le_reg_r with least; auto. unfold Rdiv. rewrite Rmult_assoc, Rinv_l by lra. specialize (L b IB). lra. }
  set (da := degree ls nodes a / least) in *. set (db := degree ls nodes b / least) in *.
  unfold Rabs in A, B.
  destruct (Rcase_abs (raw_weight ls nodes order a - W a)), (Rcase_abs (raw_weight ls nodes order b - W b)); split; lra.
Qed.

(** words whose stationary weights are farther apart than the two bounds come out in that order,
    computed exactly *)
Theorem C122_order :
  forall (lower : str -> str) (x : textrank) (words : list tagged) (allow : list str) (withFlag : bool)
         (ls : list (term * term)) (nodes order : list term) (W : term -> R) (least : R) (a b : term),
    links_of lower (tr_stop x) allow (tr_span x) withFlag words ls -> nodes_of ls nodes -> word_order nodes order ->
    stationary ls nodes W -> least_linked ls nodes least -> In a nodes -> In b nodes ->
    W a + 1 / 5 * (degree ls nodes a / least) + 1 / 5 * (degree ls nodes b / least) <= W b ->
    exists d va vb, textrank_words numX lower x words allow withFlag = Ok d /\
      In (a, Some va) d /\ In (b, Some vb) d /\ va < vb.
Proof.
  intros lower x words allow wf ls nodes order W least a b LS NS WO ST LL IA IB H.
  destruct (raw_order ls nodes order W least a b NS (proj1 WO) ST LL IA IB H) as [D BP].
  assert (NE : nodes <> []) by (intros ->; contradiction).
  destruct (least_exists nodes (raw_weight ls nodes order) NE) as (l & IL & LO).
  destruct (least_exists nodes (fun n => - raw_weight ls nodes order n) NE) as (h & IH & HI). cbv beta in HI.
  pose proof (raw_pos ls nodes order NS (proj1 WO) l IL) as LP.
  pose proof (raw_pos ls nodes order NS (proj1 WO) a IA) as AP.
  set (lo := raw_weight ls nodes order l) in *. set (hi := raw_weight ls nodes order h) in *.
  assert (SM : smallest ls nodes order lo) by (split; [exists l; auto|auto]).
  assert (LG : largest ls nodes order hi) by (split; [exists h; auto|intros n I; specialize (HI n I); lra]).
  pose proof (C73_exact lower x words allow wf ls nodes order lo hi LS NS WO SM LG) as E.
  eexists. exists (weight ls nodes order lo hi a), (weight ls nodes order lo hi b). split; [exact E|].
  split; [apply in_map_iff; exists a; auto|]. split; [apply in_map_iff; exists b; auto|].
  unfold weight. pose proof (proj2 LG b IB). pose proof (LO b IB).
  apply Rmult_lt_compat_r; [apply Rinv_0_lt_compat; lra|]. lra.
Qed.

(** ... and in binary64 *)
Theorem C122_order_binary64 :
  forall (lg : Z -> b64) (lower : str -> str) (x : textrank) (words : list tagged) (allow : list str) (withFlag : bool)
         (ls : list (term * term)) (nodes order : list term) (W : term -> R) (least : R) (a b : term),
    log_ok lg -> (Z.of_nat (length words * tr_span x) < 2 ^ 33)%Z ->
    links_of lower (tr_stop x) allow (tr_span x) withFlag words ls -> nodes_of ls nodes -> word_order nodes order ->
    stationary ls nodes W -> least_linked ls nodes least -> In a nodes -> In b nodes ->
    W a + 1 / 5 * (degree ls nodes a / least) + 1 / 5 * (degree ls nodes b / least) <= W b ->
    exists (d : list (term * b64)) va vb, textrank_words (numB lg) lower x words allow withFlag = Ok d /\
      In (a, va) d /\ In (b, vb) d /\ B2R va < B2R vb.
Proof.
  intros lg lower x words allow wf ls nodes order W least a b OK SZ LS NS WO ST LL IA IB H.
  destruct (raw_order ls nodes order W least a b NS (proj1 WO) ST LL IA IB H) as [D BP].
  assert (NE : nodes <> []) by (intros ->; contradiction).
  destruct (least_exists nodes (raw_weight ls nodes order) NE) as (l & IL & LO).
  destruct (least_exists nodes (fun n => - raw_weight ls nodes order n) NE) as (h & IH & HI). cbv beta in HI.
  pose proof (raw_pos ls nodes order NS (proj1 WO) l IL) as LP.
  pose proof (raw_pos ls nodes order NS (proj1 WO) a IA) as AP.
  set (lo := raw_weight ls nodes order l) in *. set (hi := raw_weight ls nodes order h) in *.
  assert (SM : smallest ls nodes order lo) by (split; [exists l; auto|auto]).
  assert (LG : largest ls nodes order hi) by (split; [exists h; auto|intros n I; specialize (HI n I); lra]).
  destruct (C73_binary64 lg lower x words allow wf ls nodes order lo hi OK) as (d & E & K & N); auto.
  { eapply Z.lt_trans; [exact SZ|reflexivity]. }
  assert (VA : exists va, In (a, va) d).
  { rewrite <- K in IA. apply in_map_iff in IA. destruct IA as ([a' va] & <- & J). exists va. exact J. }
  assert (VB : exists vb, In (b, vb) d).
  { rewrite <- K in IB. apply in_map_iff in IB. destruct IB as ([b' vb] & <- & J). exists vb. exact J. }
  destruct VA as [va VA], VB as [vb VB]. exists d, va, vb. split; auto. split; auto. split; auto.
  pose proof (N a va VA) as NA. pose proof (N b vb VB) as NB.
  set (L := (length words * tr_span x)%nat) in *.
  assert (LB : 0 <= INR L <= 2 ^ 33 - 1).
  { split; [apply pos_INR|]. rewrite INR_IZR_INZ. replace (2 ^ 33 - 1) with (IZR (2 ^ 33 - 1)) by (rewrite minus_IZR; cbn; lra).
    apply IZR_le. lia. }
  set (e := (INR L + 1) / 2 ^ 42) in *.
  assert (E0 : 0 <= e <= 2 / 1000).
  { unfold e. split; [apply Rmult_le_pos; lra|].
    apply Rmult_le_reg_r with (2 ^ 42); [lra|]. unfold Rdiv. rewrite Rmult_assoc, Rinv_l by lra. lra. }
  pose proof (proj2 LG b IB) as HB. pose proof (LO b IB) as LB'. pose proof (LO a IA) as LA'.
  assert (Q : 0 < / (hi - lo / 10)) by (apply Rinv_0_lt_compat; lra).
  assert (WW : forall n, weight ls nodes order lo hi n = (raw_weight ls nodes order n - lo / 10) * / (hi - lo / 10)) by reflexivity.
  rewrite WW in NA, NB. set (q := / (hi - lo / 10)) in *.
  set (ra := raw_weight ls nodes order a) in *. set (rb := raw_weight ls nodes order b) in *.
  assert (KEY : e * ((ra - lo / 10) + (rb - lo / 10)) < rb - ra).
  { apply Rle_lt_trans with (2 / 1000 * (ra + rb)); [|lra]. apply Rmult_le_compat; lra. }
  assert (KQ : e * ((ra - lo / 10) + (rb - lo / 10)) * q < (rb - ra) * q) by (apply Rmult_lt_compat_r; auto).
  assert (UA : B2R va - (ra - lo / 10) * q <= e * ((ra - lo / 10) * q)) by (eapply Rle_trans; [apply Rle_abs|exact NA]).
  assert (UB : - (B2R vb - (rb - lo / 10) * q) <= e * ((rb - lo / 10) * q)).
  { eapply Rle_trans; [apply Rle_abs|]. rewrite Rabs_Ropp. exact NB. }
  replace (e * (ra - lo / 10 + (rb - lo / 10)) * q) with (e * ((ra - lo / 10) * q) + e * ((rb - lo / 10) * q)) in KQ by ring.
  replace ((rb - ra) * q) with ((rb - lo / 10) * q - (ra - lo / 10) * q) in KQ by ring. lra.
Qed.

(** ** Two words that come out the other way round *)

Definition wc : term := TWord [c_xue; c_sheng].
Notation fa := ([c_bei; c_jing], s_n).
Notation fb := ([c_da; c_xue; c_sheng], s_n).
Notation fc := ([c_xue; c_sheng], s_n).
Notation eight := [fa; fb; fa; fb; fc; fa; fc; fc].
Definition eight_links : list (term * term) := pairs lowerA textrank_init [s_n] false eight.
Notation abc := [wa; wb; wc].

Lemma eight_numbers :
  link eight_links wa wa = 4 /\ link eight_links wa wb = 6 /\ link eight_links wa wc = 6 /\
  link eight_links wb wa = 6 /\ link eight_links wb wb = 2 /\ link eight_links wb wc = 4 /\
  link eight_links wc wa = 6 /\ link eight_links wc wb = 4 /\ link eight_links wc wc = 6.
Proof.
  assert (X : forall l k, count_occ link_eq_dec l k = length (filter (fun p => pair_eqb p k) l)).
  { induction l as [|p l IH]; intros k; [reflexivity|]. cbn [count_occ filter]. destruct (link_eq_dec p k) as [E|N].
    - rewrite (proj2 (pair_eqb_eq p k) E). cbn [length]. f_equal. auto.
    - destruct (pair_eqb p k) eqn:Q; [apply pair_eqb_eq in Q; contradiction|auto]. }
  unfold link. rewrite !X.
  assert (Y : forall n z, n = Z.to_nat z -> (0 <= z)%Z -> INR n = IZR z).
  { intros n z -> Z0. rewrite INR_IZR_INZ, Z2Nat.id; auto. }
  repeat split; apply Y; try reflexivity; lia.
Qed.
Lemma eight_degrees :
  degree eight_links abc wa = 16 /\ degree eight_links abc wb = 12 /\ degree eight_links abc wc = 16.
Proof.
  destruct eight_numbers as (L1 & L2 & L3 & L4 & L5 & L6 & L7 & L8 & L9).
  unfold degree, sum_over. cbn [fold_right]. rewrite L1, L2, L3, L4, L5, L6, L7, L8, L9. lra.
Qed.
Lemma eight_collect W :
  collected eight_links abc W wa = 15 / 100 + 85 / 100 * (4 / 16 * W wa + 6 / 12 * W wb + 6 / 16 * W wc) /\
  collected eight_links abc W wb = 15 / 100 + 85 / 100 * (6 / 16 * W wa + 2 / 12 * W wb + 4 / 16 * W wc) /\
  collected eight_links abc W wc = 15 / 100 + 85 / 100 * (6 / 16 * W wa + 4 / 12 * W wb + 6 / 16 * W wc).
Proof.
  destruct eight_numbers as (L1 & L2 & L3 & L4 & L5 & L6 & L7 & L8 & L9).
  destruct eight_degrees as (D1 & D2 & D3).
  unfold collected, sum_over. cbn [fold_right]. rewrite L1, L2, L3, L4, L5, L6, L7, L8, L9, D1, D2, D3. lra.
Qed.

Lemma abc_distinct : wa <> wb /\ wa <> wc /\ wb <> wc.
Proof. repeat split; discriminate. Qed.

Lemma eight_round W : let W' := one_round eight_links abc abc W in
  W' wa = 15 / 100 + 85 / 100 * (4 / 16 * W wa + 6 / 12 * W wb + 6 / 16 * W wc) /\
  W' wb = 15 / 100 + 85 / 100 * (6 / 16 * W' wa + 2 / 12 * W wb + 4 / 16 * W wc) /\
  W' wc = 15 / 100 + 85 / 100 * (6 / 16 * W' wa + 4 / 12 * W' wb + 6 / 16 * W wc).
Proof.
  destruct abc_distinct as (N1 & N2 & N3). cbv zeta.
  set (W1 := fun m => if term_eq_dec m wa then collected eight_links abc W wa else W m).
  set (W2 := fun m => if term_eq_dec m wb then collected eight_links abc W1 wb else W1 m).
  set (W3 := fun m => if term_eq_dec m wc then collected eight_links abc W2 wc else W2 m).
  change (one_round eight_links abc abc W) with W3.
  assert (A1 : W1 wa = collected eight_links abc W wa) by (unfold W1; destruct (term_eq_dec wa wa); congruence).
  assert (A2 : W1 wb = W wb) by (unfold W1; destruct (term_eq_dec wb wa); congruence).
  assert (A3 : W1 wc = W wc) by (unfold W1; destruct (term_eq_dec wc wa); congruence).
  assert (B1 : W2 wa = W1 wa) by (unfold W2; destruct (term_eq_dec wa wb); congruence).
  assert (B2 : W2 wb = collected eight_links abc W1 wb) by (unfold W2; destruct (term_eq_dec wb wb); congruence).
  assert (B3 : W2 wc = W1 wc) by (unfold W2; destruct (term_eq_dec wc wb); congruence).
  assert (D1 : W3 wa = W2 wa) by (unfold W3; destruct (term_eq_dec wa wc); congruence).
  assert (D2 : W3 wb = W2 wb) by (unfold W3; destruct (term_eq_dec wb wc); congruence).
  assert (D3 : W3 wc = collected eight_links abc W2 wc) by (unfold W3; destruct (term_eq_dec wc wc); congruence).
  destruct (eight_collect W) as (C1 & _). destruct (eight_collect W1) as (_ & C2 & _). destruct (eight_collect W2) as (_ & _ & C3).
  clearbody W1 W2 W3. rewrite C1 in A1. rewrite C2 in B2. rewrite C3 in D3. lra.
Qed.

Lemma eight_raw : raw_weight eight_links abc abc wb < raw_weight eight_links abc abc wa < raw_weight eight_links abc abc wc.
Proof.
  set (V := fun k => Nat.iter k (one_round eight_links abc abc) (fun _ => 1 / INR (length abc))).
  change (raw_weight eight_links abc abc) with (V 10%nat).
  pose proof (fun k => eight_round (V k)) as S0.
  change (forall k, let W' := V (S k) in
    W' wa = 15 / 100 + 85 / 100 * (4 / 16 * V k wa + 6 / 12 * V k wb + 6 / 16 * V k wc) /\
    W' wb = 15 / 100 + 85 / 100 * (6 / 16 * W' wa + 2 / 12 * V k wb + 4 / 16 * V k wc) /\
    W' wc = 15 / 100 + 85 / 100 * (6 / 16 * W' wa + 4 / 12 * W' wb + 6 / 16 * V k wc)) in S0. cbv zeta in S0.
  assert (V0 : forall t, V 0%nat t = 1 / 3) by (intros t; cbn; lra).
  pose proof (V0 wa) as Va. pose proof (V0 wb) as Vb. pose proof (V0 wc) as Vc. clear V0. clearbody V.
  assert (B1 : 468730 / 1000000 <= V 1%nat wa <= 468770 / 1000000 /\ 417449 / 1000000 <= V 1%nat wb <= 417489 / 1000000 /\ 523927 / 1000000 <= V 1%nat wc <= 523967 / 1000000).
  { pose proof (S0 0%nat) as (A1 & A2 & A3). lra. }
  assert (B2 : 594012 / 1000000 <= V 2%nat wa <= 594072 / 1000000 /\ 509801 / 1000000 <= V 2%nat wb <= 509861 / 1000000 /\ 650781 / 1000000 <= V 2%nat wc <= 650841 / 1000000).
  { pose proof (S0 1%nat) as (A1 & A2 & A3). lra. }
  assert (B3 : 700318 / 1000000 <= V 3%nat wa <= 700398 / 1000000 /\ 583722 / 1000000 <= V 3%nat wb <= 583802 / 1000000 /\ 746044 / 1000000 <= V 3%nat wc <= 746124 / 1000000).
  { pose proof (S0 2%nat) as (A1 & A2 & A3). lra. }
  assert (B4 : 784689 / 1000000 <= V 4%nat wa <= 784789 / 1000000 /\ 641328 / 1000000 <= V 4%nat wb <= 641428 / 1000000 /\ 819624 / 1000000 <= V 4%nat wc <= 819724 / 1000000).
  { pose proof (S0 3%nat) as (A1 & A2 & A3). lra. }
  assert (B5 : 850554 / 1000000 <= V 5%nat wa <= 850674 / 1000000 /\ 686116 / 1000000 <= V 5%nat wb <= 686236 / 1000000 /\ 876760 / 1000000 <= V 5%nat wc <= 876880 / 1000000).
  { pose proof (S0 4%nat) as (A1 & A2 & A3). lra. }
  assert (B6 : 901797 / 1000000 <= V 6%nat wa <= 901937 / 1000000 /\ 720932 / 1000000 <= V 6%nat wb <= 721072 / 1000000 /\ 921170 / 1000000 <= V 6%nat wc <= 921310 / 1000000).
  { pose proof (S0 5%nat) as (A1 & A2 & A3). lra. }
  assert (B7 : 941638 / 1000000 <= V 7%nat wa <= 941798 / 1000000 /\ 747998 / 1000000 <= V 7%nat wb <= 748158 / 1000000 /\ 955693 / 1000000 <= V 7%nat wc <= 955853 / 1000000).
  { pose proof (S0 6%nat) as (A1 & A2 & A3). lra. }
  assert (B8 : 972611 / 1000000 <= V 8%nat wa <= 972791 / 1000000 /\ 769038 / 1000000 <= V 8%nat wb <= 769218 / 1000000 /\ 982531 / 1000000 <= V 8%nat wc <= 982711 / 1000000).
  { pose proof (S0 7%nat) as (A1 & A2 & A3). lra. }
  assert (B9 : 996689 / 1000000 <= V 9%nat wa <= 996889 / 1000000 /\ 785393 / 1000000 <= V 9%nat wb <= 785593 / 1000000 /\ 1003393 / 1000000 <= V 9%nat wc <= 1003593 / 1000000).
  { pose proof (S0 8%nat) as (A1 & A2 & A3). lra. }
  assert (B10 : 1015405 / 1000000 <= V 10%nat wa <= 1015625 / 1000000 /\ 798106 / 1000000 <= V 10%nat wb <= 798326 / 1000000 /\ 1019610 / 1000000 <= V 10%nat wc <= 1019830 / 1000000).
  { pose proof (S0 9%nat) as (A1 & A2 & A3). lra. }
  lra.
Qed.

(** the ten rounds do not always give the order of the stationary weights: with the code's span
    of 5 the words a b a b c a c c give [a] the largest stationary weight, but [c] comes out first *)
Theorem C122_order_refuted :
  exists (words : list tagged) (ls : list (term * term)) (nodes order : list term) (W : term -> R) (a c : term) va vc d,
    links_of lowerA (tr_stop textrank_init) [s_n] (tr_span textrank_init) false words ls /\
    nodes_of ls nodes /\ word_order nodes order /\ stationary ls nodes W /\ In a nodes /\ In c nodes /\
    (forall n, In n nodes -> W n <= W a) /\ W c < W a /\
    textrank_words numX lowerA textrank_init words [s_n] false = Ok d /\
    In (a, Some va) d /\ In (c, Some vc) d /\ va < vc.
Proof.
  assert (LS : links_of lowerA (tr_stop textrank_init) [s_n] (tr_span textrank_init) false eight eight_links) by apply pairs_links.
  assert (NN : nodes_of eight_links abc).
  { pose proof (graph_nodes eight_links) as P.
    assert (E : map fst (graph_of (fold_left bump eight_links [])) = abc) by (vm_compute; reflexivity).
    rewrite E in P. exact P. }
  assert (WO : word_order abc abc).
  { pose proof (word_sorted abc) as P.
    assert (E : sorted_asc term_ltb abc = abc) by (vm_compute; reflexivity). rewrite E in P. exact P. }
  set (W := fun m => if term_eq_dec m wa then 32468 / 30037 else if term_eq_dec m wb then 25311 / 30037 else 32332 / 30037).
  destruct abc_distinct as (N1 & N2 & N3).
  assert (Wa : W wa = 32468 / 30037) by (unfold W; destruct (term_eq_dec wa wa); [auto|congruence]).
  assert (Wb : W wb = 25311 / 30037).
  { unfold W. destruct (term_eq_dec wb wa); [congruence|]. destruct (term_eq_dec wb wb); [auto|congruence]. }
  assert (Wc : W wc = 32332 / 30037).
  { unfold W. destruct (term_eq_dec wc wa); [congruence|]. destruct (term_eq_dec wc wb); [congruence|auto]. }
  assert (ST : stationary eight_links abc W).
  { destruct (eight_collect W) as (C1 & C2 & C3).
    intros n [<-|[<-|[<-|[]]]]; [rewrite C1|rewrite C2|rewrite C3]; rewrite Wa, Wb, Wc; lra. }
  set (raw := raw_weight eight_links abc abc).
  pose proof eight_raw as ER. fold raw in ER.
  assert (BP : 0 <= raw wb) by (apply (raw_pos eight_links abc abc NN (proj1 WO)); right; left; auto).
  assert (SM : smallest eight_links abc abc (raw wb)).
  { split; [exists wb; split; [right; left|]; auto|]. fold raw. intros n [<-|[<-|[<-|[]]]]; lra. }
  assert (LG : largest eight_links abc abc (raw wc)).
  { split; [exists wc; split; [right; right; left|]; auto|]. fold raw. intros n [<-|[<-|[<-|[]]]]; lra. }
  pose proof (C73_exact lowerA textrank_init eight [s_n] false eight_links abc abc (raw wb) (raw wc) LS NN WO SM LG) as E.
  exists eight, eight_links, abc, abc, W, wa, wc,
    (weight eight_links abc abc (raw wb) (raw wc) wa), (weight eight_links abc abc (raw wb) (raw wc) wc).
  eexists. split; [exact LS|]. split; [exact NN|]. split; [exact WO|]. split; [exact ST|].
  split; [left; auto|]. split; [right; right; left; auto|].
  split; [intros n [<-|[<-|[<-|[]]]]; lra|]. split; [lra|]. split; [exact E|].
  split; [apply in_map_iff; exists wa; split; [auto|left; auto]|].
  split; [apply in_map_iff; exists wc; split; [auto|right; right; left; auto]|].
  unfold weight. fold raw. apply Rmult_lt_compat_r; [apply Rinv_0_lt_compat; lra|]. lra.
Qed.

(** ** Two words that are far enough apart: a b a c a with neighbours only *)

Notation five := [fa; fb; fa; fc; fa].
Definition five_links : list (term * term) := pairs lowerA (mkTr (tr_stop textrank_init) 2) [s_n] false five.

Lemma five_numbers :
  link five_links wa wa = 0 /\ link five_links wa wb = 2 /\ link five_links wa wc = 2 /\
  link five_links wb wa = 2 /\ link five_links wb wb = 0 /\ link five_links wb wc = 0 /\
  link five_links wc wa = 2 /\ link five_links wc wb = 0 /\ link five_links wc wc = 0.
Proof.
  assert (X : forall l k, count_occ link_eq_dec l k = length (filter (fun p => pair_eqb p k) l)).
  { induction l as [|p l IH]; intros k; [reflexivity|]. cbn [count_occ filter]. destruct (link_eq_dec p k) as [E|N].
    - rewrite (proj2 (pair_eqb_eq p k) E). cbn [length]. f_equal. auto.
    - destruct (pair_eqb p k) eqn:Q; [apply pair_eqb_eq in Q; contradiction|auto]. }
  unfold link. rewrite !X.
  assert (Y : forall n z, n = Z.to_nat z -> (0 <= z)%Z -> INR n = IZR z).
  { intros n z -> Z0. rewrite INR_IZR_INZ, Z2Nat.id; auto. }
  repeat split; apply Y; try reflexivity; lia.
Qed.

Example C122_nonvacuous :
  exists order W,
    links_of lowerA (tr_stop textrank_init) [s_n] 2 false five five_links /\
    nodes_of five_links abc /\ word_order abc order /\ stationary five_links abc W /\
    least_linked five_links abc 2 /\ most_linked five_links abc 4 /\
    W wb + 1 / 5 * (degree five_links abc wb / 2) + 1 / 5 * (degree five_links abc wa / 2) <= W wa /\
    forall n, In n abc -> Rabs (1 - W n) <= 1 / 2 * degree five_links abc n.
Proof.
  destruct five_numbers as (L1 & L2 & L3 & L4 & L5 & L6 & L7 & L8 & L9).
  assert (D : degree five_links abc wa = 4 /\ degree five_links abc wb = 2 /\ degree five_links abc wc = 2).
  { unfold degree, sum_over. cbn [fold_right]. rewrite L1, L2, L3, L4, L5, L6, L7, L8, L9. lra. }
  destruct D as (D1 & D2 & D3). destruct abc_distinct as (N1 & N2 & N3).
  set (W := fun m => if term_eq_dec m wa then 54 / 37 else 57 / 74).
  assert (Wa : W wa = 54 / 37) by (unfold W; destruct (term_eq_dec wa wa); [auto|congruence]).
  assert (Wb : W wb = 57 / 74) by (unfold W; destruct (term_eq_dec wb wa); [congruence|auto]).
  assert (Wc : W wc = 57 / 74) by (unfold W; destruct (term_eq_dec wc wa); [congruence|auto]).
  exists abc, W. split; [apply (pairs_links lowerA (mkTr (tr_stop textrank_init) 2))|]. split.
  { pose proof (graph_nodes five_links) as P.
    assert (E : map fst (graph_of (fold_left bump five_links [])) = abc) by (vm_compute; reflexivity).
    rewrite E in P. exact P. }
  split.
  { pose proof (word_sorted abc) as P.
    assert (E : sorted_asc term_ltb abc = abc) by (vm_compute; reflexivity). rewrite E in P. exact P. }
  split.
  { intros n [<-|[<-|[<-|[]]]]; unfold collected, sum_over; cbn [fold_right];
      rewrite L1, L2, L3 || rewrite L4, L5, L6 || rewrite L7, L8, L9; rewrite D1, D2, D3, Wa, Wb, Wc; lra. }
  split; [split; [exists wb; split; [right; left; auto|auto]|intros n [<-|[<-|[<-|[]]]]; lra]|].
  split; [split; [exists wa; split; [left; auto|auto]|intros n [<-|[<-|[<-|[]]]]; lra]|].
  split; [lra|]. intros n [<-|[<-|[<-|[]]]]; apply Rabs_le; lra.
Qed.

Print Assumptions C122_stationary.
Print Assumptions C122_rounds.
Print Assumptions C122_ten_rounds.
Print Assumptions C122_order.
Print Assumptions C122_order_binary64.
Print Assumptions C122_order_refuted.
