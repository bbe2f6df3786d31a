(** * TextRank: bounds on the weights, in rounded arithmetic *)
From Coq Require Import Reals Lra Lia Permutation Psatz.
From Verif Require Import PyBase PyNum SpecNum ProofsBase ModelFinalseg ModelSeg ModelDict ModelApi
  ModelPosseg ModelAnalyse SpecAnalyse ProofsRank ProofsGraph.
Local Open Scope R_scope.

Lemma dget_keys {K V W} (eqb : K -> K -> bool) (d : list (K * V)) (e : list (K * W)) k :
  map fst d = map fst e -> (dget eqb d k = None <-> dget eqb e k = None).
Proof.
  revert e. induction d as [|[j v] d IH]; intros [|[j' w] e] E; cbn in *; try discriminate; [tauto|].
  inversion E; subst. destruct (eqb k j'); [split; discriminate|]. apply IH. auto.
Qed.

Section Rank.
  Variable num : Num.
  Variable O : NumOrder num.
  Variable Q : NumRound num O.

  Notation F := (F num).
  Notation fin := (o_fin O).
  Notation val := (o_val O).
  Notation u := (r_u Q).
  Notation G := (r_G Q).
  Notation rnd := (r_rnd Q).
  Notation lit := (lit num).

  Let g := / G.
  Lemma U : 0 <= u <= 1 / 1000. Proof. apply r_u_pos. Qed.
  Lemma GB : 100 <= G. Proof. apply r_G_big. Qed.
  Lemma Gg : G * g = 1. Proof. unfold g. pose proof GB. field. lra. Qed.
  Lemma g_pos : 0 < g <= 1 / 100.
  Proof.
    pose proof GB. unfold g. split; [apply Rinv_0_lt_compat; lra|].
    replace (1 / 100) with (/ 100) by lra. apply Rinv_le_contravar; lra.
  Qed.
  Lemma G8g8 : / G ^ 8 = g ^ 8.
  Proof. unfold g. rewrite pow_inv; auto. Qed.
  Lemma Gpow j k : (j <= k)%nat -> G ^ j <= G ^ k.
  Proof. intros L. apply Rle_pow; auto. pose proof GB. lra. Qed.
  Lemma gpow j k : (j <= k)%nat -> g ^ k <= g ^ j.
  Proof.
    intros L. pose proof GB. unfold g. rewrite !pow_inv.
    apply Rinv_le_contravar; [apply pow_lt; lra|]. apply Gpow; auto.
  Qed.
  Lemma gpow_pos k : 0 < g ^ k.
  Proof. apply pow_lt. apply g_pos. Qed.

  (** rounding within the range *)
  Lemma rel x : g ^ 8 <= x <= G ^ 8 -> (1 - u) * x <= rnd x <= (1 + u) * x.
  Proof. intros B. apply r_rel. rewrite G8g8. auto. Qed.
  Lemma abs_in x : g ^ 8 <= x <= G ^ 8 -> Rabs x <= G ^ 8.
  Proof. intros [A B]. pose proof (gpow_pos 8). rewrite Rabs_pos_eq; lra. Qed.

  Lemma add_ok x y : fin x -> fin y -> g ^ 8 <= val x + val y <= G ^ 8 ->
    fin (f_add num x y) /\ (1 - u) * (val x + val y) <= val (f_add num x y) <= (1 + u) * (val x + val y).
  Proof.
    intros X Y B. destruct (r_add _ _ Q x y X Y (abs_in _ B)) as [A E]. rewrite E. split; auto. apply rel; auto.
  Qed.
  Lemma sub_ok x y : fin x -> fin y -> g ^ 8 <= val x - val y <= G ^ 8 ->
    fin (f_sub num x y) /\ (1 - u) * (val x - val y) <= val (f_sub num x y) <= (1 + u) * (val x - val y).
  Proof.
    intros X Y B. destruct (r_sub _ _ Q x y X Y (abs_in _ B)) as [A E]. rewrite E. split; auto. apply rel; auto.
  Qed.
  Lemma mul_ok x y : fin x -> fin y -> g ^ 8 <= val x * val y <= G ^ 8 ->
    fin (f_mul num x y) /\ (1 - u) * (val x * val y) <= val (f_mul num x y) <= (1 + u) * (val x * val y).
  Proof.
    intros X Y B. destruct (r_mul _ _ Q x y X Y (abs_in _ B)) as [A E]. rewrite E. split; auto. apply rel; auto.
  Qed.
  Lemma div_ok x y : fin x -> fin y -> val y <> 0 -> g ^ 8 <= val x / val y <= G ^ 8 ->
    fin (f_div num x y) /\ (1 - u) * (val x / val y) <= val (f_div num x y) <= (1 + u) * (val x / val y).
  Proof.
    intros X Y N B. destruct (r_div _ _ Q x y X Y N (abs_in _ B)) as [A E]. rewrite E. split; auto. apply rel; auto.
  Qed.
  Lemma pydiv_ok x y : fin x -> fin y -> val y <> 0 -> g ^ 8 <= val x / val y <= G ^ 8 ->
    py_div num x y = Ok (f_div num x y).
  Proof.
    intros X Y N B. unfold py_div. destruct (f_eq num y (f_zero num)) eqn:E; auto.
    apply (o_eq num O) in E; [|apply o_fin_dom; auto|apply o_fin_dom, o_zero].
    rewrite (r_zero _ _ Q) in E. contradiction.
  Qed.
  Lemma lit_ok z : (0 <= z)%Z -> IZR z <= G -> fin (lit z) /\ val (lit z) = IZR z.
  Proof. apply r_lit. Qed.

  (** ** The damping factor *)

  Lemma damping_ok : fin (damping num) /\ (1 - u) * (85 / 100) <= val (damping num) <= (1 + u) * (85 / 100).
  Proof.
    pose proof GB. destruct (lit_ok 85) as [A1 A2]; [lia|lra|]. destruct (lit_ok 100) as [B1 B2]; [lia|lra|].
    unfold damping. replace (85 / 100) with (val (lit 85) / val (lit 100)) by (rewrite A2, B2; auto).
    apply div_ok; auto; rewrite ?A2, ?B2; [lra|]. split.
    - apply Rle_trans with (g ^ 1); [apply gpow; lia|]. pose proof g_pos. lra.
    - apply Rle_trans with (G ^ 1); [lra|apply Gpow; lia].
  Qed.
  Lemma undamped_ok : fin (f_sub num (lit 1) (damping num)) /\
    148 / 1000 <= val (f_sub num (lit 1) (damping num)) <= 152 / 1000.
  Proof.
    pose proof GB. pose proof U. destruct (lit_ok 1) as [A1 A2]; [lia|lra|].
    destruct damping_ok as [B1 B2]. destruct (sub_ok (lit 1) (damping num)) as [C1 C2]; auto.
    - rewrite A2. split.
      + apply Rle_trans with (g ^ 1); [apply gpow; lia|]. pose proof g_pos. lra.
      + apply Rle_trans with (G ^ 1); [lra|apply Gpow; lia].
    - split; auto. rewrite A2 in C2. nra.
  Qed.

  (** ** One graph *)

  Variable gr : graph.
  Variable tot : Z.
  Hypothesis GO : graph_ok gr tot.
  Hypothesis LIM : IZR tot + 10 <= G.

  Notation keys := (map fst gr).
  Definition D (n : term) : R := IZR (wsum (edges gr n)).

  Lemma edge_pos n e : In e (edges gr n) -> (1 <= snd e)%Z.
  Proof. intros I. apply (g_edge _ _ GO n e I). Qed.

  Lemma D_bounds n : In n keys -> 1 <= D n <= G.
  Proof.
    intros I. unfold D. split.
    - apply IZR_le. pose proof (g_some _ _ GO n I) as NE. pose proof (edge_pos n) as P.
      destruct (edges gr n) as [|e es] eqn:E; [congruence|]. rewrite <- E in *.
      assert (IE : In e (edges gr n)) by (rewrite E; left; auto).
      pose proof (P e IE). pose proof (wsum_In _ _ P IE). lia.
    - pose proof (g_sum _ _ GO n) as [_ S]. apply IZR_le in S. lra.
  Qed.

  (** an edge of [n] *)
  Lemma edge_in n e : In e (edges gr n) -> In (snd (fst e)) keys /\ 1 <= IZR (snd e) <= G.
  Proof.
    intros I. destruct (g_edge _ _ GO n e I) as (_ & W & K). split; auto. split; [apply IZR_le; auto|].
    pose proof (g_sum _ _ GO n) as [_ S]. apply Rle_trans with (IZR tot); [|lra]. apply IZR_le.
    pose proof (wsum_In _ _ (edge_pos n) I). lia.
  Qed.

  Lemma fold_outs (es : list edge) a x : fin x -> val x = IZR a -> (0 <= a)%Z ->
    (forall e, In e es -> (1 <= snd e)%Z) -> IZR (a + wsum es) <= G ->
    fin (fold_left (fun x (e : edge) => f_add num x (lit (snd e))) es x) /\
    val (fold_left (fun x (e : edge) => f_add num x (lit (snd e))) es x) = IZR (a + wsum es).
  Proof.
    revert a x. induction es as [|e es IH]; intros a x X V A P L; cbn [fold_left].
    - cbn. rewrite Z.add_0_r. auto.
    - assert (E1 : (1 <= snd e)%Z) by (apply P; left; auto).
      assert (S : (0 <= wsum es)%Z) by (apply wsum_nonneg; intros; apply P; right; auto).
      replace (a + wsum (e :: es))%Z with ((a + snd e) + wsum es)%Z in * by (cbn; unfold wsum; lia).
      assert (L1 : IZR (a + snd e) <= G) by (apply Rle_trans with (2 := L); apply IZR_le; lia).
      destruct (lit_ok (snd e)) as [B1 B2]; [lia| |].
      { apply Rle_trans with (2 := L1). apply IZR_le. lia. }
      destruct (r_add _ _ Q x (lit (snd e)) X B1) as [C1 C2].
      { rewrite V, B2, <- plus_IZR. rewrite Rabs_pos_eq by (apply IZR_le; lia).
        apply Rle_trans with (G ^ 1); [lra|apply Gpow; lia]. }
      apply IH; auto; [|lia|intros; apply P; right; auto].
      rewrite C2, V, B2, <- plus_IZR. apply r_int; auto. lia.
  Qed.

  Lemma outs_ok n : In n keys ->
    fin (kfloat num (rank_outs num gr) n) /\ val (kfloat num (rank_outs num gr) n) = D n.
  Proof.
    intros I. pose proof (D_bounds n I) as [D1 D2]. unfold kfloat.
    assert (E : kget (rank_outs num gr) n =
      Some (fold_left (fun x (e : edge) => f_add num x (lit (snd e))) (edges gr n) (f_zero num))).
    { revert I. unfold edges, kget, rank_outs. clear. induction gr as [|[k es] gr' IH]; cbn; [tauto|].
      destruct (term_eqb n k) eqn:E; auto. intros [->|I]; auto.
      assert (term_eqb n n = true) by (apply term_eqb_eq; auto). congruence. }
    rewrite E. unfold D in *. rewrite <- (Z.add_0_l (wsum (edges gr n))) in D2 |- *.
    apply fold_outs; auto; [apply o_zero|apply (r_zero _ _ Q)|lia|apply edge_pos].
  Qed.

  (** ** The iteration *)

  (** weights so far: not too small, and at most twice the weight of the edges; those
      of [done] have been computed at least once *)
  Record state_ok (ws : kdict F) (done : list term) : Prop := {
    w_keys : map fst ws = keys;
    w_fin : forall n, In n keys -> fin (kfloat num ws n);
    w_low : forall n, In n keys -> g / 2 <= val (kfloat num ws n);
    w_high : forall n, In n keys -> val (kfloat num ws n) <= 2 * D n;
    w_done : forall n, In n done -> 14 / 100 <= val (kfloat num ws n);
  }.

  Lemma pow_ge_1 k : 1 <= (1 + u) ^ k.
  Proof. apply pow_R1_Rle. pose proof U. lra. Qed.

  (** one term of the sum of line 39 *)
  Lemma term_ok ws done (e : edge) : state_ok ws done -> In (snd (fst e)) keys -> 1 <= IZR (snd e) <= G ->
    (1 <= snd e)%Z ->
    let q := f_div num (lit (snd e)) (kfloat num (rank_outs num gr) (snd (fst e))) in
    let p := f_mul num q (kfloat num ws (snd (fst e))) in
    py_div num (lit (snd e)) (kfloat num (rank_outs num gr) (snd (fst e))) = Ok q /\
    fin p /\ g ^ 4 <= val p <= (1 + u) ^ 2 * (2 * IZR (snd e)) /\
    (let z := IZR (snd e) / D (snd (fst e)) * val (kfloat num ws (snd (fst e))) in
     0 <= z /\ (1 - u) ^ 2 * z <= val p <= (1 + u) ^ 2 * z).
  Proof.
    intros S K [W1 W2] WZ q p. set (m := snd (fst e)) in *.
    pose proof U. pose proof GB. pose proof g_pos as [g1 g2]. pose proof Gg as GG.
    destruct (outs_ok m K) as [O1 O2]. pose proof (D_bounds m K) as [D1 D2].
    destruct (lit_ok (snd e)) as [L1 L2]; [lia|lra|].
    set (r := IZR (snd e) / D m).
    assert (R1 : g <= r).
    { unfold r. apply Rmult_le_reg_r with (D m); [lra|]. unfold Rdiv. rewrite Rmult_assoc, Rinv_l by lra.
      apply Rle_trans with (g * G); [apply Rmult_le_compat_l; lra|lra]. }
    assert (R2 : r <= G).
    { unfold r. apply Rmult_le_reg_r with (D m); [lra|]. unfold Rdiv. rewrite Rmult_assoc, Rinv_l by lra. nra. }
    assert (RD : r * D m = IZR (snd e)) by (unfold r; field; lra).
    assert (RG : g ^ 8 <= r <= G ^ 8).
    { split; [apply Rle_trans with (g ^ 1); [apply gpow; lia|lra]|apply Rle_trans with (G ^ 1); [lra|apply Gpow; lia]]. }
    assert (DE : py_div num (lit (snd e)) (kfloat num (rank_outs num gr) m) = Ok q /\
                 fin q /\ (1 - u) * r <= val q <= (1 + u) * r).
    { split; [apply pydiv_ok; auto; rewrite O2; try lra; rewrite L2; exact RG|].
      destruct (div_ok (lit (snd e)) (kfloat num (rank_outs num gr) m)) as [A1 A2]; auto; rewrite ?O2, ?L2 in *; try lra.
      - exact RG.
      - split; auto. }
    destruct DE as (DE & Q1 & Q2 & Q3). split; auto.
    pose proof (w_fin _ _ S m K) as X1. pose proof (w_low _ _ S m K) as X2. pose proof (w_high _ _ S m K) as X3.
    set (x := val (kfloat num ws m)) in *.
    assert (QP : 999 / 1000 * g <= val q) by nra.
    assert (P1 : 499 / 1000 * (g * g) <= val q * x) by nra.
    assert (P2 : val q * x <= (1 + u) * (2 * IZR (snd e))).
    { apply Rle_trans with ((1 + u) * r * (2 * D m)); [apply Rmult_le_compat; nra|]. rewrite <- RD. lra. }
    assert (PG : g ^ 3 <= val q * x).
    { apply Rle_trans with (2 := P1). cbn. nra. }
    destruct (mul_ok q (kfloat num ws m)) as [M1 M2]; auto.
    - fold x. split; [apply Rle_trans with (2 := PG); apply gpow; lia|].
      apply Rle_trans with (1 := P2). apply Rle_trans with (G ^ 2); [cbn; nra|apply Gpow; lia].
    - fold p in M1, M2. fold x in M2. split; auto. split.
      + split.
        * apply Rle_trans with ((1 - u) * (g ^ 3)); [|nra].
          pose proof (gpow_pos 3). change (g ^ 4) with (g * g ^ 3). nra.
        * apply Rle_trans with (1 := proj2 M2). cbn. nra.
      + cbv zeta. fold m r x. assert (X0 : 0 <= x) by lra. assert (R0 : 0 <= r) by lra. split; [nra|]. split.
        * apply Rle_trans with (2 := proj1 M2).
          replace ((1 - u) ^ 2 * (r * x)) with ((1 - u) * ((1 - u) * r * x)) by (cbn; ring).
          apply Rmult_le_compat_l; [lra|]. apply Rmult_le_compat_r; lra.
        * apply Rle_trans with (1 := proj2 M2).
          replace ((1 + u) ^ 2 * (r * x)) with ((1 + u) * ((1 + u) * r * x)) by (cbn; ring).
          apply Rmult_le_compat_l; [lra|]. apply Rmult_le_compat_r; lra.
  Qed.

  (** the sum of lines 37-39 without rounding *)
  Definition votes (W : term -> R) (es : list edge) : R :=
    fold_right (fun (e : edge) a => IZR (snd e) / D (snd (fst e)) * W (snd (fst e)) + a) 0 es.

  Lemma pow_le_1 k : 0 <= (1 - u) ^ k <= 1.
  Proof. pose proof U. induction k; cbn; [lra|]. nra. Qed.

  Lemma sum_ok ws done (es : list edge) s : state_ok ws done ->
    (forall e, In e es -> In (snd (fst e)) keys /\ 1 <= IZR (snd e) <= G /\ (1 <= snd e)%Z) ->
    fin s -> 0 <= val s ->
    (1 + u) ^ length es * (val s + (1 + u) ^ 2 * (2 * IZR (wsum es))) <= G ^ 2 ->
    exists s', rank_sum num (rank_outs num gr) ws es s = Ok s' /\ fin s' /\ 0 <= val s' /\
      (es <> [] -> g ^ 5 <= val s') /\
      val s' <= (1 + u) ^ length es * (val s + (1 + u) ^ 2 * (2 * IZR (wsum es))) /\
      (let z := votes (fun m => val (kfloat num ws m)) es in
       0 <= z /\ (1 - u) ^ length es * (val s + (1 - u) ^ 2 * z) <= val s' <= (1 + u) ^ length es * (val s + (1 + u) ^ 2 * z)).
  Proof.
    intros S. revert s. pose proof U as UU. pose proof GB. pose proof g_pos as [g1 g2].
    induction es as [|[[n m] w] es IH]; intros s P S1 S2 B.
    - exists s. cbn. cbn in B. split; auto. split; auto. split; auto. split; [congruence|]. split; [lra|]. split; lra.
    - destruct (P (n, m, w)) as (K & W & WZ); [left; auto|]. cbn [fst snd] in *.
      destruct (term_ok ws done (n, m, w) S) as (DE & P1 & (P2 & P3) & ZZ); auto. cbn [fst snd] in *.
      set (p := f_mul num (f_div num (lit w) (kfloat num (rank_outs num gr) m)) (kfloat num ws m)) in *.
      cbn [rank_sum]. rewrite DE. cbn [rbind]. fold p.
      assert (W0 : 0 <= IZR (wsum es)).
      { apply IZR_le. apply wsum_nonneg. intros e I. apply P. right. auto. }
      rewrite wsum_cons, plus_IZR in B. rewrite wsum_cons, plus_IZR. cbn [length snd] in *.
      set (c := (1 + u) ^ length es) in *. assert (C1 : 1 <= c) by apply pow_ge_1.
      cbn [pow] in B |- *. fold c in B |- *. rewrite !Rmult_1_r in *.
      set (v := (1 + u) * (1 + u)) in *. assert (V1 : 1 <= v) by (unfold v; nra).
      assert (SP : val s + val p <= (1 + u) * c * (val s + v * (2 * (IZR w + IZR (wsum es))))).
      { assert (0 <= v * (2 * IZR (wsum es))) by nra. assert (1 <= (1 + u) * c) by nra.
        assert (val s + val p <= val s + v * (2 * (IZR w + IZR (wsum es)))) by (cbn in P3; unfold v in *; nra). nra. }
      pose proof (gpow_pos 4) as G4.
      destruct (add_ok s p) as [A1 A2]; auto.
      { split; [apply Rle_trans with (g ^ 4); [apply gpow; lia|lra]|].
        apply Rle_trans with (1 := SP). apply Rle_trans with (1 := B). rewrite <- Rmult_1_r with (r := G * G).
        replace (G * G * 1) with (G ^ 2) by (cbn; ring). apply Gpow. lia. }
      set (s1 := f_add num s p) in *.
      assert (S10 : g ^ 5 <= val s1).
      { change (g ^ 5) with (g * g ^ 4). apply Rle_trans with ((1 - u) * (val s + val p)); [nra|lra]. }
      assert (ST : c * (val s1 + v * (2 * IZR (wsum es))) <= (1 + u) * c * (val s + v * (2 * (IZR w + IZR (wsum es))))).
      { replace ((1 + u) * c * (val s + v * (2 * (IZR w + IZR (wsum es)))))
          with (c * ((1 + u) * (val s + v * (2 * IZR w)) + (1 + u) * (v * (2 * IZR (wsum es))))) by ring.
        apply Rmult_le_compat_l; [lra|]. apply Rplus_le_compat.
        - apply Rle_trans with (1 := proj2 A2). apply Rmult_le_compat_l; [lra|].
          cbn in P3. rewrite Rmult_1_r in P3. fold v in P3. lra.
        - assert (0 <= v * (2 * IZR (wsum es))) by nra. nra. }
      destruct (IH s1) as (s' & E & F1 & F2 & F3 & F4 & F5); auto.
      { intros e I. apply P. right. auto. }
      { pose proof (gpow_pos 5). lra. }
      { cbn [pow]. rewrite !Rmult_1_r. fold v. lra. }
      exists s'. split; auto. split; auto. split; auto. split.
      + intros _. replace (g * (g * (g * (g * g)))) with (g ^ 5) by (cbn; ring). destruct es as [|e es]; [|apply F3; discriminate].
        cbn in E. inversion E; subst; auto.
      + split; [cbn [pow] in F4; rewrite !Rmult_1_r in F4; fold v in F4; lra|].
        cbv zeta. cbn [votes fold_right fst snd]. fold (votes (fun m => val (kfloat num ws m)) es).
        destruct ZZ as (Z0 & Z1 & Z2). destruct F5 as (F50 & F51 & F52).
        set (z := IZR w / D m * val (kfloat num ws m)) in *. set (zs := votes (fun m => val (kfloat num ws m)) es) in *.
        cbn [pow] in Z1, Z2, F51, F52. rewrite !Rmult_1_r in Z1, Z2, F51, F52. fold v in Z2, F52. fold c in F52.
        destruct (pow_le_1 (length es)) as [c0 c1]. set (c' := (1 - u) ^ length es) in *.
        set (v' := (1 - u) * (1 - u)) in *. assert (V' : 0 <= v' <= 1) by (unfold v'; nra).
        split; [lra|]. split.
        * apply Rle_trans with (2 := F51). apply Rle_trans with (c' * ((1 - u) * (val s + v' * (z + zs)))); [right; ring|].
          apply Rmult_le_compat_l; [lra|].
          assert (val s1 >= (1 - u) * (val s + v' * z)) by (apply Rle_ge, Rle_trans with (2 := proj1 A2); apply Rmult_le_compat_l; lra).
          assert (0 <= v' * zs) by nra. nra.
        * apply Rle_trans with (1 := F52). apply Rle_trans with (c * ((1 + u) * (val s + v * (z + zs)))); [|right; ring].
          apply Rmult_le_compat_l; [lra|].
          assert (val s1 <= (1 + u) * (val s + v * z)) by (apply Rle_trans with (1 := proj2 A2); apply Rmult_le_compat_l; lra).
          assert (0 <= v * zs) by nra. nra.
  Qed.

  Lemma tot_nonneg n : In n keys -> 1 <= IZR tot.
  Proof.
    intros I. pose proof (D_bounds n I) as [D1 _]. unfold D in D1.
    pose proof (g_sum _ _ GO n) as [_ S]. apply IZR_le in S. lra.
  Qed.

  (** lines 37-40 for one node *)
  Lemma node_ok ws done n : state_ok ws done -> In n keys ->
    exists s, rank_sum num (rank_outs num gr) ws (edges gr n) (f_zero num) = Ok s /\
      let y := f_add num (f_sub num (lit 1) (damping num)) (f_mul num (damping num) s) in
      fin y /\ 14 / 100 <= val y <= 2 * D n /\
      (let z := votes (fun m => val (kfloat num ws m)) (edges gr n) in
       let k := length (edges gr n) in
       exists t, 0 <= z /\ (1 - u) ^ (k + 2) * z <= val s <= (1 + u) ^ (k + 2) * z /\ 0 <= val s /\ 0 <= t /\
         (1 - u) * (val (damping num) * val s) <= t <= (1 + u) * (val (damping num) * val s) /\
         (1 - u) * (val (f_sub num (lit 1) (damping num)) + t) <= val y <= (1 + u) * (val (f_sub num (lit 1) (damping num)) + t)).
  Proof.
    intros S I. pose proof U as [U1 U2]. pose proof GB. pose proof g_pos as [g1 g2].
    pose proof (D_bounds n I) as [D1 D2].
    assert (DEG : INR (length (edges gr n) + 2) <= G).
    { pose proof (g_deg _ _ GO n) as DG. apply IZR_le in DG. rewrite <- INR_IZR_INZ in DG.
      rewrite plus_INR. cbn. lra. }
    pose proof (r_steps _ _ Q _ DEG) as ST. rewrite pow_add in ST.
    set (c := (1 + u) ^ length (edges gr n)) in *. assert (C1 : 1 <= c) by apply pow_ge_1.
    assert (V1 : 1 <= (1 + u) ^ 2) by apply pow_ge_1. set (v := (1 + u) ^ 2) in *.
    assert (BND : c * (0 + v * (2 * IZR (wsum (edges gr n)))) <= 21 / 10 * D n).
    { fold (D n). replace (c * (0 + v * (2 * D n))) with (c * v * (2 * D n)) by ring. nra. }
    destruct (sum_ok ws done (edges gr n) (f_zero num) S) as (s & E & F1 & F2 & F3 & F4 & F6).
    { intros e J. destruct (edge_in n e J) as [A B]. split; auto. split; auto. apply edge_pos in J. auto. }
    { apply o_zero. }
    { rewrite (r_zero _ _ Q). lra. }
    { rewrite (r_zero _ _ Q). apply Rle_trans with (1 := BND). cbn. nra. }
    rewrite (r_zero _ _ Q) in F4. exists s. split; auto. intros y.
    specialize (F3 (g_some _ _ GO n I)). fold c v in F4.
    assert (F5 : val s <= 21 / 10 * D n) by lra. clear F4 BND.
    destruct damping_ok as [A1 A2]. destruct undamped_ok as [B1 B2].
    pose proof (gpow_pos 5) as G5.
    assert (DS1 : g ^ 6 <= val (damping num) * val s).
    { change (g ^ 6) with (g * g ^ 5). apply Rmult_le_compat; try lra. }
    assert (DS2 : val (damping num) * val s <= (1 + u) * (85 / 100) * (21 / 10 * D n)).
    { apply Rmult_le_compat; try lra. }
    destruct (mul_ok (damping num) s) as [M1 M2]; auto.
    { split; [apply Rle_trans with (2 := DS1); apply gpow; lia|].
      apply Rle_trans with (1 := DS2). apply Rle_trans with (G ^ 2); [cbn; nra|apply Gpow; lia]. }
    set (t := f_mul num (damping num) s) in *.
    assert (T0 : 0 <= val t).
    { pose proof (gpow_pos 6). apply Rle_trans with (2 := proj1 M2). nra. }
    assert (T1 : val t <= 179 / 100 * D n).
    { apply Rle_trans with (1 := proj2 M2).
      apply Rle_trans with ((1 + u) * ((1 + u) * (85 / 100) * (21 / 10 * D n))); [apply Rmult_le_compat_l; lra|]. nra. }
    destruct (add_ok (f_sub num (lit 1) (damping num)) t) as [Y1 Y2]; auto.
    { split; [apply Rle_trans with (g ^ 1); [apply gpow; lia|lra]|].
      apply Rle_trans with (G ^ 2); [cbn; nra|apply Gpow; lia]. }
    fold y in Y1, Y2. split; auto.
    split; cycle 1.
    { cbv zeta in F6 |- *. rewrite (r_zero _ _ Q), !Rplus_0_l, <- !Rmult_assoc, <- !pow_add in F6. destruct F6 as [F61 F62].
      exists (val t). split; [exact F61|]. split; [exact F62|]. split; [exact F2|]. split; [exact T0|].
      split; [exact M2|exact Y2]. }
    split.
    - apply Rle_trans with (2 := proj1 Y2). apply Rle_trans with (999 / 1000 * (148 / 1000)); [lra|].
      apply Rmult_le_compat; lra.
    - apply Rle_trans with (1 := proj2 Y2). apply Rle_trans with (1001 / 1000 * (1942 / 1000 * D n)); [|lra].
      apply Rmult_le_compat; lra.
  Qed.

  Lemma kfloat_set (ws : kdict F) k x n :
    kfloat num (kset ws k x) n = if term_eq_dec n k then x else kfloat num ws n.
  Proof.
    unfold kfloat, kget, kset. destruct (term_eq_dec n k) as [->|N].
    - rewrite dget_dset_same by apply term_eqb_eq. auto.
    - rewrite dget_dset_other; auto. apply term_eqb_eq.
  Qed.

  Lemma kset_keys (ws : kdict F) k x : In k (map fst ws) -> map fst (kset ws k x) = map fst ws.
  Proof.
    intros I. unfold kset. rewrite dset_keys. unfold dmem. fold (kget ws k).
    destruct (kget ws k) eqn:E; auto. apply kget_In in E. contradiction.
  Qed.

  Lemma sweep_ok ns ws done : state_ok ws done -> (forall n, In n ns -> In n keys) ->
    exists ws', rank_sweep num gr (rank_outs num gr) ns ws = Ok ws' /\ state_ok ws' (rev ns ++ done).
  Proof.
    revert ws done. induction ns as [|n ns IH]; intros ws done S P; cbn [rank_sweep].
    - exists ws. auto.
    - assert (K : In n keys) by (apply P; left; auto).
      fold (edges gr n). destruct (node_ok ws done n S K) as (s & -> & Y1 & Y2 & _). cbn [rbind].
      set (y := f_add num (f_sub num (lit 1) (damping num)) (f_mul num (damping num) s)) in *.
      pose proof g_pos as [g1 g2].
      destruct (IH (kset ws n y) (n :: done)) as (ws' & E & S').
      + destruct S as [S1 S2 S3 S4 S5]. constructor.
        * rewrite kset_keys; auto. rewrite S1. auto.
        * intros j J. rewrite kfloat_set. destruct (term_eq_dec j n); auto.
        * intros j J. rewrite kfloat_set. destruct (term_eq_dec j n); auto. lra.
        * intros j J. rewrite kfloat_set. destruct (term_eq_dec j n) as [->|]; auto. lra.
        * intros j J. rewrite kfloat_set. destruct (term_eq_dec j n) as [->|N]; [lra|].
          apply S5. destruct J; auto. congruence.
      + intros j J. apply P. right. auto.
      + exists ws'. split; auto. cbn [rev]. rewrite <- app_assoc. exact S'.
  Qed.

  Lemma iter_ok k ns ws done : state_ok ws done -> (forall n, In n ns -> In n keys) ->
    exists ws' done', rank_iter num k gr (rank_outs num gr) ns ws = Ok ws' /\ state_ok ws' done' /\
      (forall n, In n done -> In n done') /\ (k <> 0%nat -> forall n, In n ns -> In n done').
  Proof.
    revert ws done. induction k as [|k IH]; intros ws done S P; cbn [rank_iter].
    - exists ws, done. split; auto. split; auto. split; auto. congruence.
    - destruct (sweep_ok ns ws done S P) as (w1 & -> & S1). cbn [rbind].
      destruct (IH w1 (rev ns ++ done) S1 P) as (w2 & d2 & E & S2 & I2 & _).
      exists w2, d2. split; auto. split; auto.
      split; intros; apply I2; apply in_or_app; auto. left. apply in_rev in H0. auto.
  Qed.

  Lemma start_ok : gr <> [] -> state_ok (rank_start num gr) [] /\
    forall n, In n keys -> (1 - u) * (1 / INR (length gr)) <= val (kfloat num (rank_start num gr) n) <= (1 + u) * (1 / INR (length gr)).
  Proof.
    intros NE. pose proof U. pose proof GB. pose proof g_pos as [g1 g2]. pose proof Gg as GG.
    set (N := IZR (Z.of_nat (length gr))).
    assert (N1 : 1 <= N).
    { apply IZR_le. destruct gr; [congruence|]. cbn [length]. lia. }
    assert (N2 : N <= G).
    { pose proof (g_size _ _ GO) as S. apply IZR_le in S. fold N in S. lra. }
    destruct (lit_ok (Z.of_nat (length gr))) as [A1 A2]; [lia|auto|]. fold N in A2.
    destruct (lit_ok 1) as [B1 B2]; [lia|lra|].
    assert (R1 : g <= 1 / N).
    { unfold Rdiv. rewrite Rmult_1_l. apply Rinv_le_contravar; lra. }
    assert (R2 : 1 / N <= 1).
    { apply Rmult_le_reg_r with N; [lra|]. unfold Rdiv. rewrite Rmult_assoc, Rinv_l by lra. lra. }
    destruct (div_ok (lit 1) (lit (Z.of_nat (length gr)))) as [C1 C2]; auto.
    { rewrite A2. lra. }
    { rewrite A2, B2. split; [apply Rle_trans with (g ^ 1); [apply gpow; lia|lra]|].
      apply Rle_trans with (G ^ 1); [lra|apply Gpow; lia]. }
    rewrite A2, B2 in C2.
    set (wd := f_div num (lit 1) (lit (Z.of_nat (length gr)))) in *.
    assert (E : rank_start num gr = map (fun no => (fst no, wd)) gr).
    { unfold rank_start, wd. destruct gr; [congruence|]. reflexivity. }
    assert (V : forall n, In n keys -> kfloat num (rank_start num gr) n = wd).
    { rewrite E. unfold kfloat, kget. clearbody wd. clear. intros n. induction gr as [|[k es] gr' IH]; cbn; [tauto|].
      destruct (term_eqb n k) eqn:E; auto. intros [->|I]; auto.
      assert (term_eqb n n = true) by (apply term_eqb_eq; auto). congruence. }
    split; cycle 1.
    { intros n I. rewrite V by auto. rewrite INR_IZR_INZ. exact C2. }
    constructor.
    - rewrite E, map_map. reflexivity.
    - intros n I. rewrite V; auto.
    - intros n I. rewrite V; auto. nra.
    - intros n I. rewrite V; auto. pose proof (D_bounds n I). nra.
    - intros n [].
  Qed.

  Lemma raw_ok : gr <> [] -> exists ws, rank_raw num gr = Ok ws /\ map fst ws = keys /\
    forall n x, In (n, x) ws -> fin x /\ 14 / 100 <= val x <= 2 * G.
  Proof.
    intros NE. unfold rank_raw.
    assert (P : Permutation keys (sorted_asc term_ltb keys)).
    { generalize keys as l. clear. unfold sorted_asc. induction l as [|a l IH]; cbn; auto.
      eapply perm_trans; [apply perm_skip, IH|]. generalize (fold_right (insert_asc term_ltb) [] l) as r.
      clear. induction r as [|b r IH]; cbn; auto. destruct (term_ltb b a); auto.
      eapply perm_trans; [apply perm_swap|]. auto. }
    destruct (iter_ok 10 (sorted_asc term_ltb keys) (rank_start num gr) [] (proj1 (start_ok NE))) as (ws & done & E & S & _ & DN).
    { intros n I. eapply Permutation_in; [apply Permutation_sym, P|]. auto. }
    exists ws. split; auto. destruct S as [S1 S2 S3 S4 S5]. split; auto.
    intros n x I.
    assert (KI : In n keys) by (rewrite <- S1; apply in_map_iff; exists (n, x); auto).
    assert (KX : kfloat num ws n = x).
    { unfold kfloat, kget. rewrite (In_dget _ term_eqb_eq ws n x); auto. rewrite S1. apply (g_nodup _ _ GO). }
    rewrite <- KX. split; auto. split.
    - apply S5. apply DN; [discriminate|]. eapply Permutation_in; [apply P|]. auto.
    - specialize (S4 n KI). pose proof (D_bounds n KI). lra.
  Qed.

End Rank.

(** ** Normalisation, lines 42-52 *)

Section Norm.
  Variable num : Num.
  Variable O : NumOrder num.
  Variable Q : NumRound num O.
  Notation F := (F num).
  Notation fin := (o_fin O).
  Notation val := (o_val O).
  Notation G := (r_G Q).
  Notation rnd := (r_rnd Q).
  Notation lit := (lit num).

  Variable ws : kdict F.
  Hypothesis WS : forall n x, In (n, x) ws -> fin x /\ 14 / 100 <= val x <= 2 * G.

  Let lo := rank_min num ws.
  Let hi := rank_max num ws.

  Lemma min_ok : fin lo /\ 14 / 100 <= val lo /\ forall n x, In (n, x) ws -> val lo <= val x.
  Proof.
    unfold lo, rank_min. assert (V : forall x, In x (map snd ws) -> fin x /\ 14 / 100 <= val x).
    { intros x I. apply in_map_iff in I. destruct I as ([n y] & <- & I). apply WS in I. cbn. intuition. }
    enough (H : forall l m, (forall x, In x l -> fin x /\ 14 / 100 <= val x) -> fin m -> 14 / 100 <= val m ->
      let m' := fold_left (fun m x => if f_lt num x m then x else m) l m in
      fin m' /\ 14 / 100 <= val m' /\ val m' <= val m /\ forall x, In x l -> val m' <= val x).
    { destruct (r_max _ _ Q) as [M1 M2]. destruct (H (map snd ws) (float_max num)) as (A & B & C & D); auto; [lra|].
      split; auto. split; auto. intros n x I. apply D. apply in_map_iff. exists (n, x). auto. }
    clear. induction l as [|x l IH]; intros m P FM LM; cbn [fold_left].
    - cbn. split; auto. split; auto. split; [lra|]. intros x [].
    - destruct (P x) as [X1 X2]; [left; auto|].
      destruct (IH (if f_lt num x m then x else m)) as (A & B & C & D).
      + intros y I. apply P. right. auto.
      + destruct (f_lt num x m); auto.
      + destruct (f_lt num x m); auto.
      + assert (L : val (if f_lt num x m then x else m) <= val m /\ val (if f_lt num x m then x else m) <= val x).
        { destruct (f_lt num x m) eqn:E.
          - apply (o_lt num O) in E; try (apply o_fin_dom; auto). lra.
          - split; [lra|]. apply Rnot_lt_le. intros L. apply (o_lt num O) in L; try (apply o_fin_dom; auto). congruence. }
        split; auto. split; auto. split; [lra|]. intros y [<-|I]; [lra|]. apply D. auto.
  Qed.

  Lemma max_ok : ws <> [] -> (exists n, In (n, hi) ws) /\ forall n x, In (n, x) ws -> val x <= val hi.
  Proof.
    intros NE. unfold hi, rank_max. assert (V : forall x, In x (map snd ws) -> fin x).
    { intros x I. apply in_map_iff in I. destruct I as ([n y] & <- & I). apply WS in I. cbn. intuition. }
    enough (H : forall l m, (forall x, In x l -> fin x) -> fin m ->
      let m' := fold_left (fun m x => if f_lt num m x then x else m) l m in
      (m' = m \/ In m' l) /\ val m <= val m' /\ forall x, In x l -> val x <= val m').
    { destruct (r_min _ _ Q) as [M1 M2]. destruct (H (map snd ws) (float_min num)) as (A & B & D); auto.
      set (m := fold_left (fun m x => if f_lt num m x then x else m) (map snd ws) (float_min num)) in *.
      assert (D' : forall n x, In (n, x) ws -> val x <= val m).
      { intros n x I. apply D. apply in_map_iff. exists (n, x). auto. }
      split; auto. destruct A as [A|A].
      - exfalso. destruct ws as [|[n x] ws']; [congruence|]. specialize (D' n x (or_introl eq_refl)).
        destruct (WS n x (or_introl eq_refl)) as (_ & W & _). rewrite A in D'. lra.
      - apply in_map_iff in A. destruct A as ([n y] & E & I). cbn in E. subst y. eauto. }
    clear. induction l as [|x l IH]; intros m P FM; cbn [fold_left].
    - cbn. split; auto. split; [lra|]. intros x [].
    - assert (FX : fin x) by (apply P; left; auto).
      destruct (IH (if f_lt num m x then x else m)) as (A & B & D).
      + intros y I. apply P. right. auto.
      + destruct (f_lt num m x); auto.
      + assert (L : val m <= val (if f_lt num m x then x else m) /\ val x <= val (if f_lt num m x then x else m)).
        { destruct (f_lt num m x) eqn:E.
          - apply (o_lt num O) in E; try (apply o_fin_dom; auto). lra.
          - split; [lra|]. apply Rnot_lt_le. intros L. apply (o_lt num O) in L; try (apply o_fin_dom; auto). congruence. }
        split; [|split; [lra|]].
        * destruct A as [->|A]; [|right; right; auto]. destruct (f_lt num m x); auto. right. left. auto.
        * intros y [<-|I]; [lra|]. apply D. auto.
  Qed.

  Let low := f_div num lo (lit 10).

  (** one weight *)
  Lemma norm_one n x : In (n, x) ws ->
    let y := f_div num (f_sub num x low) (f_sub num hi low) in
    py_div num (f_sub num x low) (f_sub num hi low) = Ok y /\ fin y /\ 0 < val y <= 1 /\
    (val x = val hi -> val y = 1) /\
    (let u := r_u Q in exists l a b, 0 <= l <= 1002 / 10000 * val lo /\ 0 < a /\ 0 < b /\
      (1 - u) * (val lo / 10) <= l <= (1 + u) * (val lo / 10) /\
      (1 - u) * (val x - l) <= a <= (1 + u) * (val x - l) /\
      (1 - u) * (val hi - l) <= b <= (1 + u) * (val hi - l) /\
      (1 - u) * (a / b) <= val y <= (1 + u) * (a / b)).
  Proof.
    intros I y. assert (NE : ws <> []) by (destruct ws; [contradiction|discriminate]).
    destruct min_ok as (L1 & L2 & L3). destruct (max_ok NE) as ((nh & HI) & HX).
    destruct (WS _ _ I) as (X1 & X2 & X3). destruct (WS _ _ HI) as (H1 & H2 & H3).
    specialize (HX _ _ I). pose proof (L3 _ _ I) as LX. pose proof (L3 _ _ HI) as LH.
    pose proof (U _ _ Q) as UU. pose proof (GB _ _ Q) as GG.
    assert (g8 : forall k, (k <= 8)%nat -> (/ G) ^ 8 <= (/ G) ^ k) by (intros; apply gpow; auto).
    assert (G8 : forall k, (k <= 8)%nat -> G ^ k <= G ^ 8) by (intros; apply Gpow; auto).
    pose proof (g_pos _ _ Q) as [g1 g2]. pose proof (Gg _ _ Q) as Gg.
    set (g := / G) in *.
    destruct (lit_ok _ _ Q 10) as [T1 T2]; [lia|lra|].
    destruct (div_ok _ _ Q lo (lit 10)) as [W1 W2]; auto.
    { rewrite T2. lra. }
    { rewrite T2. split.
      - apply Rle_trans with (g ^ 1); [apply g8; lia|]. lra.
      - apply Rle_trans with (G ^ 1); [lra|apply G8; lia]. }
    fold low in W1, W2. rewrite T2 in W2.
    assert (LW : 0 <= val low <= 1002 / 10000 * val lo) by nra.
    assert (RX : g ^ 8 <= val x - val low <= G ^ 8).
    { split; [apply Rle_trans with (g ^ 1); [apply g8; lia|]; lra|].
      apply Rle_trans with (G ^ 2); [cbn; nra|apply G8; lia]. }
    assert (RH : g ^ 8 <= val hi - val low <= G ^ 8).
    { split; [apply Rle_trans with (g ^ 1); [apply g8; lia|]; lra|].
      apply Rle_trans with (G ^ 2); [cbn; nra|apply G8; lia]. }
    destruct (r_sub _ _ Q x low X1 W1 (abs_in _ _ Q _ RX)) as [_ EX].
    destruct (r_sub _ _ Q hi low H1 W1 (abs_in _ _ Q _ RH)) as [_ EH].
    destruct (sub_ok _ _ Q x low X1 W1 RX) as [Y1 Y2].
    destruct (sub_ok _ _ Q hi low H1 W1 RH) as [Z1 Z2].
    set (a := f_sub num x low) in *. set (b := f_sub num hi low) in *.
    assert (AB : val a <= val b) by (rewrite EX, EH; apply (r_mono _ _ Q); lra).
    assert (A0 : 1 / 10 <= val a).
    { apply Rle_trans with (2 := proj1 Y2). apply Rle_trans with (999 / 1000 * (12 / 100)); [lra|].
      apply Rmult_le_compat; lra. }
    assert (B1 : val b <= 3 * G).
    { apply Rle_trans with (1 := proj2 Z2). replace (3 * G) with (3 / 2 * (2 * G)) by lra.
      apply Rmult_le_compat; lra. }
    assert (R1 : 1 / 30 * g <= val a / val b).
    { apply Rmult_le_reg_r with (val b); [lra|]. replace (val a / val b * val b) with (val a) by (field; lra). nra. }
    assert (R2 : val a / val b <= 1).
    { apply Rmult_le_reg_r with (val b); [lra|]. unfold Rdiv. rewrite Rmult_assoc, Rinv_l by lra. lra. }
    assert (RR : g ^ 8 <= val a / val b <= G ^ 8).
    { split; [apply Rle_trans with (g ^ 2); [apply g8; lia|]; cbn; nra|].
      apply Rle_trans with (G ^ 1); [lra|apply G8; lia]. }
    assert (BZ : val b <> 0) by lra.
    destruct (div_ok _ _ Q a b Y1 Z1 BZ RR) as [V1 V2].
    destruct (r_div _ _ Q a b Y1 Z1 BZ (abs_in _ _ Q _ RR)) as [_ EV].
    split; [apply (pydiv_ok _ _ Q); auto|]. split; auto. fold y in V1, V2, EV |- *.
    assert (R1E : rnd 1 = 1) by (apply (r_int _ _ Q 1); [lia|lra]).
    split; [split|split].
    - apply Rlt_le_trans with (2 := proj1 V2). apply Rmult_lt_0_compat; lra.
    - rewrite EV, <- R1E. apply (r_mono _ _ Q). auto.
    - intros E. rewrite EV.
      assert (VE : val a = val b) by (rewrite EX, EH, E; auto).
      rewrite VE. replace (val b / val b) with 1 by (field; auto). auto.
    - cbv zeta. exists (val low), (val a), (val b).
      split; [exact LW|]. split; [lra|]. split; [lra|]. split; [exact W2|]. split; [exact Y2|]. split; [exact Z2|exact V2].
  Qed.

  Lemma norm_ok : exists d, rank_norm num lo hi ws = Ok d /\ map fst d = map fst ws /\
    (forall n y, In (n, y) d -> fin y /\ 0 < val y <= 1) /\
    (ws <> [] -> exists n y, In (n, y) d /\ val y = 1) /\
    (forall n y, In (n, y) d -> exists x, In (n, x) ws /\ y = f_div num (f_sub num x low) (f_sub num hi low)).
  Proof.
    enough (H : forall l, (forall n x, In (n, x) l -> In (n, x) ws) ->
      exists d, rank_norm num lo hi l = Ok d /\ map fst d = map fst l /\
        (forall n y, In (n, y) d -> fin y /\ 0 < val y <= 1) /\
        ((exists n, In (n, hi) l) -> exists n y, In (n, y) d /\ val y = 1) /\
        (forall n y, In (n, y) d -> exists x, In (n, x) ws /\ y = f_div num (f_sub num x low) (f_sub num hi low))).
    { destruct (H ws) as (d & E & K & B & T & X); auto. exists d. split; auto. split; auto. split; auto. split; auto.
      intros NE. apply T. apply max_ok. auto. }
    induction l as [|[n x] l IH]; intros P.
    - exists []. split; auto. split; auto. split; [intros n y []|]. split; [intros (n & [])|intros n y []].
    - destruct IH as (d & E & K & B & T & X); [intros; apply P; right; auto|].
      destruct (norm_one n x) as (E1 & F1 & B1 & T1 & _); [apply P; left; auto|].
      cbn [rank_norm]. fold low. rewrite E1. cbn [rbind]. rewrite E. cbn [rbind].
      eexists. split; [reflexivity|]. split; [cbn; rewrite K; auto|]. split.
      + intros m y [EQ|I]; [|eauto]. inversion EQ; subst. auto.
      + split.
        * intros (m & [EQ|I]).
          -- inversion EQ; subst. eexists _, _. split; [left; reflexivity|]. auto.
          -- destruct T as (m' & y & I' & V); [eauto|]. exists m', y. split; [right|]; auto.
        * intros m y [EQ|I]; [|eauto]. inversion EQ; subst. exists x. split; auto. apply P. left. auto.
  Qed.
End Norm.

(** ** The whole *)

Theorem rank_ok num (O : NumOrder num) (Q : NumRound num O) gr tot :
  graph_ok gr tot -> IZR tot + 10 <= r_G Q ->
  exists d, rank num gr = Ok d /\ map fst d = map fst gr /\
    (forall n y, In (n, y) d -> o_fin O y /\ 0 < o_val O y <= 1) /\
    (d <> [] -> exists n y, In (n, y) d /\ o_val O y = 1).
Proof.
  intros GO LIM. unfold rank. destruct gr as [|no gr'] eqn:EG.
  - exists []. split; [reflexivity|]. split; auto. split; [intros n y []|congruence].
  - rewrite <- EG in *. assert (NE : gr <> []) by (rewrite EG; discriminate).
    destruct (raw_ok num O Q gr tot GO LIM NE) as (ws & -> & K & B). cbn [rbind].
    destruct (norm_ok num O Q ws B) as (d & E & K' & B' & T & _). exists d. split; auto.
    split; [congruence|]. split; auto. intros _. apply T.
    intros ->. cbn in K. rewrite EG in K. discriminate.
Qed.
