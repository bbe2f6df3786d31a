(** * TextRank: how far rounding takes the weights from the exact ones *)
From Coq Require Import Reals Lra Lia Permutation Psatz.
From Verif Require Import PyBase PyNum SpecNum ProofsBase ModelFinalseg ModelSeg ModelDict ModelApi
  ModelPosseg ModelAnalyse SpecAnalyse SpecTextrank ProofsRank ProofsGraph ProofsTextrank.
Local Open Scope R_scope.

(** ** Closeness up to a factor *)

Section Near.
  Variable v : R.
  Hypothesis V : 1 <= v.

  Definition near (k : nat) (a b : R) : Prop := a <= v ^ k * b /\ b <= v ^ k * a.

  Lemma vpow_1 k : 1 <= v ^ k.
  Proof. apply pow_R1_Rle. auto. Qed.
  Lemma vpow_le j k : (j <= k)%nat -> v ^ j <= v ^ k.
  Proof. intros. apply Rle_pow; auto. Qed.

  Lemma near_refl k a : 0 <= a -> near k a a.
  Proof. intros A. pose proof (vpow_1 k). split; nra. Qed.
  Lemma near_sym k a b : near k a b -> near k b a.
  Proof. intros [A B]. split; auto. Qed.
  Lemma near_mono j k a b : (j <= k)%nat -> 0 <= a -> 0 <= b -> near j a b -> near k a b.
  Proof.
    intros L A B [P Q]. pose proof (vpow_le j k L). split.
    - apply Rle_trans with (1 := P). apply Rmult_le_compat_r; auto.
    - apply Rle_trans with (1 := Q). apply Rmult_le_compat_r; auto.
  Qed.
  Lemma near_trans j k a b c : near j a b -> near k b c -> near (j + k) a c.
  Proof.
    intros [P Q] [P' Q']. pose proof (vpow_1 j). pose proof (vpow_1 k). unfold near. rewrite pow_add. split.
    - apply Rle_trans with (1 := P). rewrite Rmult_assoc. apply Rmult_le_compat_l; lra.
    - apply Rle_trans with (1 := Q'). rewrite (Rmult_comm (v ^ j)), Rmult_assoc. apply Rmult_le_compat_l; lra.
  Qed.
  Lemma near_plus k a b c d : near k a b -> near k c d -> near k (a + c) (b + d).
  Proof. intros [P Q] [P' Q']. split; lra. Qed.
  Lemma near_mult j k a b c d : 0 <= a -> 0 <= b -> 0 <= c -> 0 <= d ->
    near j a b -> near k c d -> near (j + k) (a * c) (b * d).
  Proof.
    intros A B C D [P Q] [P' Q']. unfold near. rewrite pow_add. split.
    - replace (v ^ j * v ^ k * (b * d)) with ((v ^ j * b) * (v ^ k * d)) by ring. apply Rmult_le_compat; auto.
    - replace (v ^ j * v ^ k * (a * c)) with ((v ^ j * a) * (v ^ k * c)) by ring. apply Rmult_le_compat; auto.
  Qed.
  Lemma near_inv k a b : 0 < a -> 0 < b -> near k a b -> near k (/ a) (/ b).
  Proof.
    intros A B [P Q]. pose proof (vpow_1 k). split.
    - apply Rmult_le_reg_l with (a * b); [nra|].
      replace (a * b * / a) with b by (field; lra). replace (a * b * (v ^ k * / b)) with (v ^ k * a) by (field; lra). auto.
    - apply Rmult_le_reg_l with (a * b); [nra|].
      replace (a * b * / b) with a by (field; lra). replace (a * b * (v ^ k * / a)) with (v ^ k * b) by (field; lra). auto.
  Qed.
  Lemma near_div j k a b c d : 0 <= a -> 0 <= b -> 0 < c -> 0 < d ->
    near j a b -> near k c d -> near (j + k) (a / c) (b / d).
  Proof.
    intros A B C D N1 N2. unfold Rdiv. apply near_mult; auto; try (apply Rlt_le, Rinv_0_lt_compat; auto).
    apply near_inv; auto.
  Qed.
  (** a difference of numbers of different size *)
  Lemma near_minus k a b c d : 0 <= c -> 0 <= d -> 3 * c <= a -> 3 * d <= b ->
    near k a b -> near k c d -> near (2 * k) (a - c) (b - d).
  Proof.
    intros C D A B [P Q] [P' Q']. pose proof (vpow_1 k) as T. set (t := v ^ k) in *.
    unfold near. replace (2 * k)%nat with (k + k)%nat by lia. rewrite pow_add. fold t.
    assert (H : forall x y x' y', 0 <= x' -> 0 <= y' -> 3 * x' <= x -> 3 * y' <= y -> x <= t * y -> y' <= t * x' ->
              x - x' <= t * t * (y - y')).
    { clear - T. intros x y x' y' X Y A B P Q.
      apply Rmult_le_reg_l with t; [lra|].
      assert (t * (x - x') <= t * (t * y) - y') by nra.
      apply Rle_trans with (1 := H).
      assert (0 <= (t - 1) * (t * t * y - y' * (t * t + t + 1))).
      { apply Rmult_le_pos; [lra|]. nra. }
      nra. }
    split; apply H; auto.
  Qed.
End Near.

(** ** The iteration without rounding *)

Section Exact.
  Variable gr : graph.
  Variable tot : Z.
  Hypothesis GO : graph_ok gr tot.
  Notation keys := (map fst gr).
  Notation D := (D gr).

  Definition coll (W : term -> R) (n : term) : R := 15 / 100 + 85 / 100 * votes gr W (edges gr n).
  Definition roundG (ns : list term) (W : term -> R) : term -> R :=
    fold_left (fun W n => fun m => if term_eq_dec m n then coll W n else W m) ns W.
  Definition startG : term -> R := fun _ => 1 / INR (length gr).
  Definition rawG (ns : list term) : term -> R := Nat.iter 10 (roundG ns) startG.

  Lemma D_pos n : In n keys -> 1 <= D n.
  Proof.
    intros I. unfold ProofsTextrank.D. apply IZR_le. pose proof (g_some _ _ GO n I) as NE.
    assert (P : forall e, In e (edges gr n) -> (1 <= snd e)%Z) by (intros e J; apply (g_edge _ _ GO n e J)).
    destruct (edges gr n) as [|e es] eqn:E; [congruence|]. rewrite <- E in *.
    assert (IE : In e (edges gr n)) by (rewrite E; left; auto).
    pose proof (P e IE). pose proof (wsum_In _ _ P IE). lia.
  Qed.

  Lemma votes_bound W c es : 0 <= c -> (forall e, In e es -> (1 <= snd e)%Z /\ In (snd (fst e)) keys) ->
    (forall n, In n keys -> 0 <= W n <= c * D n) -> 0 <= votes gr W es <= c * IZR (wsum es).
  Proof.
    intros C P H. induction es as [|e es IH]; cbn [votes fold_right wsum]; [lra|].
    destruct (P e) as [P1 P2]; [left; auto|]. pose proof (D_pos _ P2) as DP. destruct (H _ P2) as [H1 H2].
    rewrite plus_IZR. fold (votes gr W es). fold (wsum es).
    destruct IH as [I1 I2]; [intros; apply P; right; auto|].
    apply IZR_le in P1. set (w := IZR (snd e)) in *. set (m := snd (fst e)) in *.
    assert (Q : w / D m * W m <= c * w).
    { apply Rmult_le_reg_l with (D m); [lra|]. replace (D m * (w / D m * W m)) with (w * W m) by (field; lra).
      replace (D m * (c * w)) with (w * (c * D m)) by ring. apply Rmult_le_compat_l; lra. }
    assert (0 <= w / D m * W m).
    { apply Rmult_le_pos; auto. apply Rmult_le_pos; [lra|]. apply Rlt_le, Rinv_0_lt_compat. lra. }
    rewrite Rmult_plus_distr_l. lra.
  Qed.

  (** the weights are positive and at most in proportion to the degree *)
  Definition bounded (c : R) (W : term -> R) : Prop := forall n, In n keys -> 0 < W n <= c * D n.

  Lemma coll_bound c W n : (forall m, In m keys -> 1 <= c * D m) -> bounded c W -> In n keys -> 15 / 100 <= coll W n <= c * D n.
  Proof.
    intros CD B I. pose proof (D_pos n I). pose proof (CD n I) as C1.
    assert (C : 0 <= c) by nra. unfold coll.
    destruct (votes_bound W c (edges gr n) C) as [V1 V2].
    - intros e J. destruct (g_edge _ _ GO n e J) as (_ & E1 & E2). auto.
    - intros m J. destruct (B m J). lra.
    - fold (D n) in V2. split; lra.
  Qed.

  Lemma roundG_bound c ns W : (forall m, In m keys -> 1 <= c * D m) -> (forall n, In n ns -> In n keys) -> bounded c W ->
    bounded c (roundG ns W) /\ (forall n, In n ns \/ 15 / 100 <= W n -> 15 / 100 <= roundG ns W n).
  Proof.
    intros CD. unfold roundG. revert W. induction ns as [|n ns IH]; intros W P B; cbn [fold_left].
    - split; auto. intros n [[]|]; auto.
    - assert (K : In n keys) by (apply P; left; auto).
      destruct (coll_bound c W n CD B K) as [C1 C2].
      destruct (IH (fun m => if term_eq_dec m n then coll W n else W m)) as [I1 I2].
      + intros; apply P; right; auto.
      + intros m J. destruct (term_eq_dec m n) as [->|]; auto. split; auto. lra.
      + split; auto. intros m H. apply I2. destruct (term_eq_dec m n) as [->|N]; [right; auto|].
        destruct H as [[?|?]|?]; auto; congruence.
  Qed.

  Lemma start_bound c : gr <> [] -> (forall m, In m keys -> 1 <= c * D m) -> bounded c startG.
  Proof.
    intros NE CD n I. unfold startG. pose proof (CD n I).
    assert (1 <= INR (length gr)) by (apply (le_INR 1); destruct gr; [congruence|cbn; lia]).
    assert (1 / INR (length gr) <= 1).
    { apply Rmult_le_reg_r with (INR (length gr)); [lra|]. unfold Rdiv. rewrite Rmult_assoc, Rinv_l by lra. lra. }
    split; [apply Rmult_lt_0_compat; [lra|apply Rinv_0_lt_compat; lra]|lra].
  Qed.

  Lemma iterG_bound c k ns : gr <> [] -> (forall m, In m keys -> 1 <= c * D m) -> (forall n, In n ns -> In n keys) ->
    bounded c (Nat.iter k (roundG ns) startG) /\ (forall n, k <> 0%nat -> In n ns -> 15 / 100 <= Nat.iter k (roundG ns) startG n).
  Proof.
    intros NE CD P. induction k as [|k [IH1 IH2]].
    - split; [apply start_bound; auto|congruence].
    - change (Nat.iter (S k) (roundG ns) startG) with (roundG ns (Nat.iter k (roundG ns) startG)).
      destruct (roundG_bound c ns _ CD P IH1) as [B1 B2]. split; auto.
  Qed.

  (** the node with the fewest links stays at most 1 *)
  Lemma min_degree : gr <> [] -> exists n, In n keys /\ forall m, In m keys -> D n <= D m.
  Proof.
    intros NE. assert (H : forall l : list term, l <> [] -> exists n, In n l /\ forall m, In m l -> D n <= D m).
    { induction l as [|a l IH]; [congruence|]. intros _. destruct l as [|b l'] eqn:EL.
      - exists a. split; [left; auto|]. intros m [<-|[]]. lra.
      - rewrite <- EL in *. destruct IH as (n & I & M); [rewrite EL; discriminate|].
        destruct (Rle_dec (D a) (D n)).
        + exists a. split; [left; auto|]. intros m [<-|J]; [lra|]. specialize (M m J). lra.
        + exists n. split; [right; auto|]. intros m [<-|J]; [lra|]. auto. }
    apply H. destruct gr; [congruence|discriminate].
  Qed.

  Lemma rawG_min ns : gr <> [] -> (forall n, In n ns -> In n keys) -> exists n, In n keys /\ rawG ns n <= 1.
  Proof.
    intros NE P. destruct (min_degree NE) as (n & I & M). exists n. split; auto. pose proof (D_pos n I) as DP.
    destruct (iterG_bound (/ D n) 10 ns NE) as [B _]; auto.
    - intros m J. specialize (M m J). apply Rmult_le_reg_l with (D n); [lra|].
      rewrite <- Rmult_assoc, Rinv_r by lra. lra.
    - destruct (B n I) as [_ B1]. rewrite Rinv_l in B1 by lra. exact B1.
  Qed.

  Lemma rawG_low ns n : gr <> [] -> (forall m, In m ns <-> In m keys) -> In n keys -> 15 / 100 <= rawG ns n.
  Proof.
    intros NE P I. destruct (iterG_bound 1 10 ns NE) as [_ B].
    - intros m J. pose proof (D_pos m J). lra.
    - intros m J. apply P. auto.
    - apply B; [discriminate|]. apply P. auto.
  Qed.
End Exact.

(** the nodes in order *)
Lemma keys_sorted (l : list term) : Permutation l (sorted_asc term_ltb l).
Proof.
  unfold sorted_asc. induction l as [|a l IH]; cbn; auto.
  eapply perm_trans; [apply perm_skip, IH|]. generalize (fold_right (insert_asc term_ltb) [] l) as r.
  clear. induction r as [|b r IH]; cbn; auto. destruct (term_ltb b a); auto.
  eapply perm_trans; [apply perm_swap|]. auto.
Qed.

(** ** Rounded and exact weights *)

Section Compare.
  Variable num : Num.
  Variable O : NumOrder num.
  Variable Q : NumRound num O.
  Notation F := (F num).
  Notation fin := (o_fin O).
  Notation val := (o_val O).
  Notation u := (r_u Q).
  Notation G := (r_G Q).
  Notation lit := (lit num).
  Notation v := (1 + 2 * u).
  Notation near := (near v).

  Lemma V1 : 1 <= v. Proof. pose proof (U _ _ Q). lra. Qed.
  Hint Resolve V1 : core.

  Lemma pow_near k a z : 0 <= z -> (1 - u) ^ k * z <= a <= (1 + u) ^ k * z -> near k a z.
  Proof.
    intros Z [A B]. pose proof (U _ _ Q) as UU. split.
    - apply Rle_trans with (1 := B). apply Rmult_le_compat_r; auto. apply pow_incr. lra.
    - apply Rle_trans with (v ^ k * ((1 - u) ^ k * z)).
      + rewrite <- Rmult_assoc, <- Rpow_mult_distr. rewrite <- (Rmult_1_l z) at 1.
        apply Rmult_le_compat_r; auto. apply pow_R1_Rle. nra.
      + apply Rmult_le_compat_l; auto. apply pow_le. pose proof V1. lra.
  Qed.
  Lemma one_near a z : 0 <= z -> (1 - u) * z <= a <= (1 + u) * z -> near 1 a z.
  Proof. intros Z B. apply pow_near; auto. cbn. rewrite !Rmult_1_r. auto. Qed.

  Lemma damping_near : near 1 (val (damping num)) (85 / 100).
  Proof. apply one_near; [lra|]. apply damping_ok. Qed.

  Lemma undamped_near : near 7 (val (f_sub num (lit 1) (damping num))) (15 / 100).
  Proof.
    pose proof (U _ _ Q) as UU. pose proof (GB _ _ Q) as GG. destruct (damping_ok _ _ Q) as [A1 A2].
    destruct (lit_ok _ _ Q 1) as [B1 B2]; [lia|lra|].
    destruct (sub_ok _ _ Q (lit 1) (damping num) B1 A1) as [C1 C2].
    { rewrite B2. split.
      - apply Rle_trans with ((/ G) ^ 1); [apply gpow; lia|]. pose proof (g_pos _ _ Q). lra.
      - apply Rle_trans with (G ^ 1); [lra|apply Gpow; lia]. }
    rewrite B2 in C2. change 7%nat with (1 + 6)%nat. apply near_trans with (1 - val (damping num)); auto.
    - apply one_near; auto. lra.
    - assert (P : 1 + 12 * u <= v ^ 6).
      { cbn. nra. }
      split.
      + apply Rle_trans with ((1 + 12 * u) * (15 / 100)); [lra|]. apply Rmult_le_compat_r; lra.
      + apply Rle_trans with ((1 + 12 * u) * (1 - val (damping num))); [nra|]. apply Rmult_le_compat_r; lra.
  Qed.

  Variable gr : graph.
  Variable tot : Z.
  Hypothesis GO : graph_ok gr tot.
  Hypothesis LIM : IZR tot + 10 <= G.
  Notation keys := (map fst gr).

  Definition near_state (k : nat) (ws : kdict F) (W : term -> R) : Prop :=
    forall n, In n keys -> 0 <= W n /\ near k (val (kfloat num ws n)) (W n).

  Lemma votes_near k W W' es : (forall e, In e es -> (1 <= snd e)%Z /\ In (snd (fst e)) keys) ->
    (forall n, In n keys -> 0 <= W n /\ 0 <= W' n /\ near k (W n) (W' n)) ->
    0 <= votes gr W es /\ 0 <= votes gr W' es /\ near k (votes gr W es) (votes gr W' es).
  Proof.
    intros P N. induction es as [|e es IH].
    - cbn. split; [lra|]. split; [lra|]. apply near_refl; auto. lra.
    - cbn [votes fold_right]. fold (votes gr W es). fold (votes gr W' es).
      destruct (P e) as [E1 E2]; [left; auto|]. destruct (N _ E2) as (N1 & N2 & N3).
      pose proof (D_pos gr tot GO _ E2) as DP. apply IZR_le in E1.
      destruct IH as (I1 & I2 & I3); [intros; apply P; right; auto|].
      assert (R0 : 0 <= IZR (snd e) / D gr (snd (fst e))).
      { apply Rmult_le_pos; [lra|]. apply Rlt_le, Rinv_0_lt_compat. lra. }
      split; [|split]; try (apply Rplus_le_le_0_compat; auto; apply Rmult_le_pos; auto).
      apply near_plus; auto. change k with (0 + k)%nat at 1. apply near_mult; auto. apply near_refl; auto.
  Qed.

  Lemma node_near k ws done W n : state_ok num O Q gr ws done -> near_state k ws W -> In n keys ->
    exists s, rank_sum num (rank_outs num gr) ws (edges gr n) (f_zero num) = Ok s /\
      let y := f_add num (f_sub num (lit 1) (damping num)) (f_mul num (damping num) s) in
      near (k + (length (edges gr n) + 8)) (val y) (coll gr W n) /\ 0 <= coll gr W n.
  Proof.
    intros S NS I. destruct (node_ok num O Q gr tot GO LIM ws done n S I) as (s & E & Y1 & Y2 & t & Z0 & ZS & S0 & T0 & TS & YS).
    exists s. split; auto. intros y. fold y in Y1, Y2, YS.
    set (z := votes gr (fun m => val (kfloat num ws m)) (edges gr n)) in *.
    destruct (votes_near k (fun m => val (kfloat num ws m)) W (edges gr n)) as (_ & X0 & XN).
    { intros e J. destruct (g_edge _ _ GO n e J) as (_ & E1 & E2). auto. }
    { intros m J. destruct (NS m J) as [N1 N2]. split; auto.
      pose proof (w_low _ _ _ _ _ _ S m J). pose proof (g_pos _ _ Q). lra. }
    fold z in XN. set (x := votes gr W (edges gr n)) in *.
    assert (SN : near (length (edges gr n) + 2 + k) (val s) x).
    { apply near_trans with z; auto. apply pow_near; auto. }
    destruct (damping_ok _ _ Q) as [D1 D2]. destruct (undamped_ok _ _ Q) as [U1 U2]. pose proof (U _ _ Q) as UU.
    assert (DS : near (1 + (1 + (length (edges gr n) + 2 + k))) t (85 / 100 * x)).
    { assert (0 <= val (damping num)) by lra. apply near_trans with (val (damping num) * val s); auto.
      - apply one_near; auto. apply Rmult_le_pos; lra.
      - apply near_mult; auto; try lra. apply damping_near. }
    unfold coll. fold x. split; [|lra].
    replace (k + (length (edges gr n) + 8))%nat with (1 + (7 + (length (edges gr n) + k)))%nat by lia.
    apply near_trans with (val (f_sub num (lit 1) (damping num)) + t); auto.
    - apply one_near; [lra|]. exact YS.
    - apply near_plus.
      + apply near_mono with 7%nat; auto; try lia; try lra. apply undamped_near.
      + refine (near_mono _ V1 _ _ _ _ _ T0 _ DS); [lia|lra].
  Qed.

  Definition cost (ns : list term) : nat := fold_right (fun n a => length (edges gr n) + 8 + a)%nat 0%nat ns.

  Lemma sweep_near ns : forall k ws done W, state_ok num O Q gr ws done -> near_state k ws W -> (forall n, In n ns -> In n keys) ->
    exists ws', rank_sweep num gr (rank_outs num gr) ns ws = Ok ws' /\ state_ok num O Q gr ws' (rev ns ++ done) /\
      near_state (k + cost ns) ws' (roundG gr ns W).
  Proof.
    induction ns as [|n ns IH]; intros k ws done W S NS P; cbn [rank_sweep cost fold_right].
    - exists ws. split; auto. split; auto. rewrite Nat.add_0_r. exact NS.
    - assert (K : In n keys) by (apply P; left; auto).
      destruct (node_ok num O Q gr tot GO LIM ws done n S K) as (s & E & Y1 & Y2 & _).
      destruct (node_near k ws done W n S NS K) as (s' & E' & YN & C0).
      assert (s' = s) by congruence. subst s'. fold (edges gr n). rewrite E. cbn [rbind].
      set (y := f_add num (f_sub num (lit 1) (damping num)) (f_mul num (damping num) s)) in *.
      pose proof (g_pos _ _ Q) as [g1 g2].
      set (W1 := fun m => if term_eq_dec m n then coll gr W n else W m).
      destruct (IH (k + (length (edges gr n) + 8))%nat (kset ws n y) (n :: done) W1) as (ws' & E2 & S2 & N2).
      + destruct S as [S1 S2 S3 S4 S5]. constructor.
        * rewrite kset_keys; auto. rewrite S1. auto.
        * intros j J. rewrite kfloat_set. destruct (term_eq_dec j n); auto.
        * intros j J. rewrite kfloat_set. destruct (term_eq_dec j n); auto. lra.
        * intros j J. rewrite kfloat_set. destruct (term_eq_dec j n) as [->|]; auto. lra.
        * intros j J. rewrite kfloat_set. destruct (term_eq_dec j n) as [->|N]; [lra|].
          apply S5. destruct J; auto. congruence.
      + intros j J. rewrite kfloat_set. unfold W1. destruct (term_eq_dec j n) as [->|N]; [split; auto|].
        destruct (NS j J) as [N1 N2]. split; auto. apply near_mono with k; auto; [lia|].
        pose proof (w_low _ _ _ _ _ _ S j J). lra.
      + intros j J. apply P. right. auto.
      + exists ws'. split; auto. split; [cbn [rev]; rewrite <- app_assoc; exact S2|].
        unfold near_state in *. intros j J. destruct (N2 j J) as [A B]. split; [exact A|].
        change (fold_right (fun n a => (length (edges gr n) + 8 + a)%nat) 0%nat ns) with (cost ns).
        rewrite <- Nat.add_assoc in B. exact B.
  Qed.

  Lemma iter_near j ns k ws done W : state_ok num O Q gr ws done -> near_state k ws W -> (forall n, In n ns -> In n keys) ->
    exists ws' done', rank_iter num j gr (rank_outs num gr) ns ws = Ok ws' /\ state_ok num O Q gr ws' done' /\
      near_state (k + j * cost ns) ws' (Nat.iter j (roundG gr ns) W).
  Proof.
    revert k ws done W. induction j as [|j IH]; intros k ws done W ST NS P; cbn [rank_iter].
    - exists ws, done. split; auto. split; auto. rewrite Nat.add_0_r. exact NS.
    - destruct (sweep_near ns k ws done W ST NS P) as (w1 & E & S1 & N1). rewrite E. cbn [rbind].
      destruct (IH (k + cost ns)%nat w1 (rev ns ++ done) (roundG gr ns W) S1 N1 P) as (w2 & d2 & E2 & S2 & N2).
      exists w2, d2. split; auto. split; auto.
      replace (Nat.iter (S j) (roundG gr ns) W) with (Nat.iter j (roundG gr ns) (roundG gr ns W)).
      + replace (k + S j * cost ns)%nat with (k + cost ns + j * cost ns)%nat by lia. exact N2.
      + clear. induction j as [|j IH]; [reflexivity|]. simpl Nat.iter in *. rewrite IH. reflexivity.
  Qed.

  (** the weights before normalisation *)
  Lemma raw_near : gr <> [] ->
    let ns := sorted_asc term_ltb keys in
    exists ws, rank_raw num gr = Ok ws /\ map fst ws = keys /\
      (forall n x, In (n, x) ws -> 0 <= rawG gr ns n /\ near (1 + 10 * cost ns) (val x) (rawG gr ns n)).
  Proof.
    intros NE ns. unfold rank_raw. fold ns.
    assert (P : Permutation keys ns) by apply keys_sorted.
    destruct (start_ok num O Q gr tot GO LIM NE) as [S0 SV].
    destruct (iter_near 10 ns 1 (rank_start num gr) [] (startG gr) S0) as (ws & done & E & S & N).
    { intros n I. pose proof (SV n I) as B. unfold startG.
      assert (0 <= 1 / INR (length gr)).
      { apply Rmult_le_pos; [lra|]. apply Rlt_le, Rinv_0_lt_compat. apply lt_0_INR. destruct gr; [congruence|cbn; lia]. }
      split; auto. apply one_near; auto. }
    { intros n I. eapply Permutation_in; [apply Permutation_sym, P|]. auto. }
    exists ws. split; auto. destruct S as [S1 S2 S3 S4 S5]. split; auto.
    intros n x I.
    assert (KI : In n keys) by (rewrite <- S1; apply in_map_iff; exists (n, x); auto).
    assert (KX : kfloat num ws n = x).
    { unfold kfloat, kget. rewrite (In_dget _ term_eqb_eq ws n x); auto. rewrite S1. apply (g_nodup _ _ GO). }
    rewrite <- KX. apply N. auto.
  Qed.
End Compare.

Section Final.
  Variable num : Num.
  Variable O : NumOrder num.
  Variable Q : NumRound num O.
  Notation F := (F num).
  Notation val := (o_val O).
  Notation u := (r_u Q).
  Notation G := (r_G Q).
  Notation v := (1 + 2 * u).
  Notation near := (near v).

  Lemma min_attained (ws : kdict F) : (forall n x, In (n, x) ws -> o_fin O x /\ 14 / 100 <= val x <= 2 * G) ->
    (exists n x, In (n, x) ws /\ val x <= val (float_max num)) ->
    exists n x, In (n, x) ws /\ val x = val (rank_min num ws).
  Proof.
    intros WS (n0 & x0 & I0 & L0). destruct (min_ok num O Q ws WS) as (M1 & M2 & M3).
    assert (A : rank_min num ws = float_max num \/ In (rank_min num ws) (map snd ws)).
    { unfold rank_min. generalize (map snd ws) as l, (float_max num) as m. clear.
      induction l as [|x l IH]; intros m; cbn [fold_left]; auto.
      destruct (IH (if f_lt num x m then x else m)) as [E|I]; [|right; right; auto].
      rewrite E. destruct (f_lt num x m); auto. right. left. auto. }
    destruct A as [A|A].
    - exists n0, x0. split; auto. specialize (M3 _ _ I0). rewrite A in *. lra.
    - apply in_map_iff in A. destruct A as ([n x] & E & I). cbn in E. exists n, x. subst. auto.
  Qed.

  Variable gr : graph.
  Variable tot : Z.
  Hypothesis GO : graph_ok gr tot.
  Hypothesis LIM : IZR tot + 10 <= G.
  Notation keys := (map fst gr).
  Notation ns := (sorted_asc term_ltb keys).
  Notation K := (1 + 10 * cost gr ns)%nat.
  Hypothesis SMALL : v ^ K <= 2.

  Lemma rank_near LO HI :
    (exists n, In n keys /\ rawG gr ns n = LO) -> (forall n, In n keys -> LO <= rawG gr ns n) ->
    (exists n, In n keys /\ rawG gr ns n = HI) -> (forall n, In n keys -> rawG gr ns n <= HI) ->
    exists d, rank num gr = Ok d /\ map fst d = keys /\
      forall n y, In (n, y) d -> let z := (rawG gr ns n - LO / 10) / (HI - LO / 10) in 0 < z <= 1 /\ near (4 * K + 7) (val y) z.
  Proof.
    intros (a0 & IA & EA) LA (b0 & IB & EB) LB.
    assert (NE : gr <> []) by (destruct gr; [contradiction|discriminate]).
    pose proof (U _ _ Q) as UU. pose proof (V1 _ _ Q) as V. pose proof (vpow_1 v V K) as VK.
    destruct (raw_near num O Q gr tot GO LIM NE) as (ws & E & KW & RN).
    destruct (raw_ok num O Q gr tot GO LIM NE) as (ws' & E' & _ & B).
    assert (ws' = ws) by congruence. subst ws'. clear E'.
    assert (PS : forall m, In m ns <-> In m keys) by (intros m; split; apply Permutation_in; [apply Permutation_sym|]; apply keys_sorted).
    assert (GET : forall n, In n keys -> exists x, In (n, x) ws).
    { intros n I. rewrite <- KW in I. apply in_map_iff in I. destruct I as ([m x] & <- & I). eauto. }
    assert (LOWB : forall n, In n keys -> 15 / 100 <= rawG gr ns n) by (intros; eapply rawG_low; eauto).
    assert (MIN : exists n x, In (n, x) ws /\ val x = val (rank_min num ws)).
    { apply min_attained; auto. destruct (rawG_min gr tot GO ns NE) as (n & I & R); [intros; apply PS; auto|].
      destruct (GET n I) as (x & J). exists n, x. split; auto. destruct (RN _ _ J) as (R0 & N1 & N2).
      apply Rle_trans with 2; [|apply (r_max _ _ Q)]. nra. }
    destruct MIN as (a & xa & Ia & Ea). destruct (min_ok num O Q ws B) as (M1 & M2 & M3).
    assert (NEW : ws <> []) by (intros ->; contradiction).
    destruct (max_ok num O Q ws B NEW) as ((b & Ib) & HX).
    assert (KI : forall n x, In (n, x) ws -> In n keys) by (intros n x I; rewrite <- KW; apply in_map_iff; exists (n, x); auto).
    set (lo := val (rank_min num ws)) in *. set (hi := val (rank_max num ws)) in *.
    assert (NL : near K lo LO).
    { destruct (GET a0 IA) as (x & J). destruct (RN _ _ J) as (_ & N1 & N2). destruct (RN _ _ Ia) as (_ & P1 & P2).
      specialize (M3 _ _ J). specialize (LA a (KI _ _ Ia)). rewrite EA in *. rewrite Ea in *. split; lra. }
    assert (NH : near K hi HI).
    { destruct (GET b0 IB) as (x & J). destruct (RN _ _ J) as (_ & N1 & N2). destruct (RN _ _ Ib) as (_ & P1 & P2).
      specialize (HX _ _ J). specialize (LB b (KI _ _ Ib)). rewrite EB in *. fold hi in P1, P2. split.
      - apply Rle_trans with (1 := P1). apply Rmult_le_compat_l; lra.
      - apply Rle_trans with (1 := N2). apply Rmult_le_compat_l; lra. }
    destruct (norm_ok num O Q ws B) as (d & Ed & Kd & _ & _ & X).
    exists d. unfold rank. rewrite E. cbn [rbind]. split; [exact Ed|]. split; [congruence|].
    intros n y I. set (z := (rawG gr ns n - LO / 10) / (HI - LO / 10)). destruct (X n y I) as (x & J & EY). pose proof (KI _ _ J) as JK.
    destruct (norm_one num O Q ws B n x J) as (_ & _ & _ & _ & l & p & q & L1 & p0 & q0 & L2 & P & Q' & Y).
    rewrite <- EY in Y. fold lo in L1, L2. fold hi in Q'.
    destruct (RN _ _ J) as (R0 & RNx). pose proof (M3 _ _ J) as ML. pose proof (HX _ _ J) as MH. fold hi in MH.
    pose proof (LA n JK) as LAn. pose proof (LB n JK) as LBn. pose proof (LOWB n JK) as LWn. pose proof (LOWB a0 IA) as LW0.
    rewrite EA in LW0.
    assert (Z0 : 0 < HI - LO / 10) by lra.
    split.
    { unfold z. split; [apply Rmult_lt_0_compat; [lra|apply Rinv_0_lt_compat; auto]|].
      apply Rmult_le_reg_r with (HI - LO / 10); auto. unfold Rdiv at 1. rewrite Rmult_assoc, Rinv_l by lra. lra. }
    assert (NLL : near (1 + K) l (LO / 10)).
    { apply near_trans with (lo / 10); auto.
      - apply one_near; lra.
      - unfold Rdiv. destruct NL. split; lra. }
    assert (NX : near (2 * (1 + K)) (val x - l) (rawG gr ns n - LO / 10)).
    { apply near_minus; auto; try lra. apply near_mono with K; auto; try lia; lra. }
    assert (NHX : near (2 * (1 + K)) (hi - l) (HI - LO / 10)).
    { apply near_minus; auto; try lra. apply near_mono with K; auto; try lia; lra. }
    replace (4 * K + 7)%nat with (1 + ((1 + 2 * (1 + K)) + (1 + 2 * (1 + K))))%nat by lia.
    apply near_trans with (p / q); auto.
    - apply one_near; [|exact Y]. apply Rlt_le, Rmult_lt_0_compat; auto. apply Rinv_0_lt_compat. auto.
    - unfold z. apply near_div; auto; try lra.
      + apply near_trans with (val x - l); auto. apply one_near; [lra|exact P].
      + apply near_trans with (hi - l); auto. apply one_near; [lra|exact Q'].
  Qed.
End Final.
