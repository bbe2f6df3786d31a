(** * The Viterbi table in binary64 around a character without emission probabilities *)
From Coq Require Import Reals Lra.
From Flocq Require Import Core BinarySingleNaN.
From Verif Require Import PyBase PyNum ModelFinalseg SpecBase SpecHmm InstB64 InstB64Ext SpecUnknown
  ProofsBase ProofsFinalseg ProofsAbsorb.
Local Open Scope R_scope.

Definition U : R := bpow radix2 200.
Lemma U_pos : 0 < U.
Proof. apply bpow_gt_0. Qed.

Lemma small_format k : blim k -> generic_format radix2 (SpecFloat.fexp 53 1024) (INR k * U).
Proof.
  unfold blim. intros L. rewrite INR_IZR_INZ. unfold U.
  change (IZR (Z.of_nat k) * bpow radix2 200) with (F2R (Float radix2 (Z.of_nat k) 200)).
  apply generic_format_F2R. cbn [Fnum Fexp]. intros NZ.
  unfold cexp. rewrite mag_F2R by auto.
  assert (B : (mag radix2 (IZR (Z.of_nat k)) <= 51)%Z).
  { apply mag_le_bpow.
    - apply IZR_neq. auto.
    - rewrite Rabs_right by (apply Rle_ge, IZR_le; lia).
      apply Rle_lt_trans with (IZR (2 ^ 50)); [apply IZR_le; auto|].
      change (bpow radix2 51) with (IZR (2 ^ 51)). apply IZR_lt. reflexivity. }
  unfold SpecFloat.fexp, SpecFloat.emin. lia.
Qed.

Lemma k_small k : blim k -> INR k * U < bpow radix2 279.
Proof.
  unfold blim. intros L. rewrite INR_IZR_INZ. unfold U.
  apply Rle_lt_trans with (IZR (2 ^ 50) * bpow radix2 200).
  - apply Rmult_le_compat_r; [apply bpow_ge_0|]. apply IZR_le. auto.
  - change (IZR (2 ^ 50)) with (bpow radix2 50). rewrite <- bpow_plus. apply bpow_lt. lia.
Qed.
Lemma U_small : U < bpow radix2 279.
Proof. apply bpow_lt. lia. Qed.
Lemma U_unit : U <= unit340.
Proof. apply bpow_le. lia. Qed.

Lemma small_bfin x : small x -> bfin 1 x.
Proof.
  intros [F B]. split; auto. simpl INR. pose proof U_unit. unfold U in *. rewrite Rmult_1_l. lra.
Qed.
Lemma small_le x : small x -> - U <= B2R x <= U.
Proof. intros [_ B]. apply Rabs_le_inv in B. exact B. Qed.

Lemma blim_le j k : (j <= k)%nat -> blim k -> blim j.
Proof. unfold blim. lia. Qed.

Lemma rnd_swallow_min t : Rabs t < bpow radix2 279 -> rnd (t + B2R b64_min_float) = B2R b64_min_float.
Proof.
  intros T. rewrite Rplus_comm. apply rnd_swallow; auto; [apply B2R_format|apply min_float_low].
Qed.

Lemma add_up k (x y : b64) :
  bfin k x -> bfin 1 y -> blim (S k) -> B2R x <= INR k * U -> B2R y <= U ->
  B2R (Bplus mode_NE x y) <= INR (S k) * U.
Proof.
  intros X Y L LX LY. rewrite (add_val k x y X Y L). unfold rnd.
  apply round_le_generic; [exact vfx|apply valid_rnd_N|apply small_format; auto|]. rewrite S_INR. lra.
Qed.
Lemma add_down k (x y : b64) :
  bfin k x -> bfin 1 y -> blim (S k) -> - (INR k * U) <= B2R x -> - U <= B2R y ->
  - (INR (S k) * U) <= B2R (Bplus mode_NE x y).
Proof.
  intros X Y L LX LY. rewrite (add_val k x y X Y L). unfold rnd.
  apply round_ge_generic; [exact vfx|apply valid_rnd_N|apply generic_format_opp, small_format; auto|].
  rewrite S_INR. lra.
Qed.

Section Table.
  Variable lg : Z -> b64.
  Notation numB := (numB lg).
  Variable H : hmm numB.
  Hypothesis PT : plain_tables H.

  Definition val (v : column numB) (y : label) : b64 := fst (col_get v y).
  Definition em (y : label) (c : char) : b64 := get_or numB (h_emit H y c).
  Definition tr (a y : label) : b64 := get_or numB (h_trans H a y).
  Definition cand (v : column numB) (c : char) (a y : label) : b64 :=
    Bplus mode_NE (Bplus mode_NE (val v a) (tr a y)) (em y c).

  Lemma em_ok y c : bfin 1 (em y c) /\ B2R (em y c) <= U.
  Proof.
    unfold em, get_or. destruct (h_emit H y c) as [x|] eqn:E.
    - pose proof (@pt_emit lg H PT _ _ _ E) as SM. split; [apply small_bfin; auto|apply small_le; auto].
    - cbn [f_min_float InstB64.numB]. split; [apply bfin_min|].
      pose proof min_float_low. pose proof U_pos. pose proof (bpow_gt_0 radix2 333). lra.
  Qed.
  Lemma em_known c : known H c -> - U <= B2R (em LS c) <= U.
  Proof.
    unfold known, em, get_or. destruct (h_emit H LS c) as [x|] eqn:E; [|congruence]. intros _.
    apply small_le, (@pt_emit lg H PT _ _ _ E).
  Qed.
  Lemma em_unknown y c : unknown H c -> em y c = b64_min_float.
  Proof. intros UN. unfold em. rewrite (UN y). reflexivity. Qed.
  Lemma tr_ok a y : follows a y -> bfin 1 (tr a y) /\ - U <= B2R (tr a y) <= U.
  Proof.
    intros FO. destruct (@pt_trans lg H PT a y FO) as (x & E & SM). unfold tr. rewrite E. cbn [get_or].
    split; [apply small_bfin; auto|apply small_le; auto].
  Qed.

  (** the cell of [y] holds the better of its two candidates *)
  Lemma cell_of v c y :
    exists a, follows a y /\ vit_cell H v c y = (cand v c a y, snd (col_get v a) ++ [y]).
  Proof.
    destruct (@vit_cell_eq numB H v c y) as (a & HA & E). exists a. split; [|exact E].
    pose proof (prev_status_follows y) as [P Q]. destruct HA as [->| ->]; auto.
  Qed.
  Lemma cell_S v c :
    is_finite (cand v c LS LS) = true -> is_finite (cand v c LE LS) = true ->
    B2R (cand v c LE LS) <= B2R (cand v c LS LS) ->
    vit_cell H v c LS = (cand v c LS LS, snd (col_get v LS) ++ [LS]).
  Proof.
    intros FS FE LE'. unfold vit_cell. cbn [prev_status]. unfold max_from. cbn [fold_left].
    match goal with |- context [tup_gt ?n ?o ?p ?q] =>
      change (tup_gt n o p q) with (tup_gt numB label_gt (cand v c LE LS, LE) (cand v c LS LS, LS)) end.
    destruct (tup_gt numB label_gt (cand v c LE LS, LE) (cand v c LS LS, LS)) eqn:T; [|reflexivity].
    apply tup_finite in T; auto. destruct T as [T|[_ T]]; [lra|discriminate].
  Qed.
  Lemma cell_S_ge v c :
    is_finite (cand v c LS LS) = true -> is_finite (cand v c LE LS) = true ->
    B2R (cand v c LS LS) <= B2R (fst (vit_cell H v c LS) : b64).
  Proof.
    intros FS FE. unfold vit_cell. cbn [prev_status]. unfold max_from. cbn [fold_left].
    match goal with |- context [tup_gt ?n ?o ?p ?q] =>
      change (tup_gt n o p q) with (tup_gt numB label_gt (cand v c LE LS, LE) (cand v c LS LS, LS)) end.
    destruct (tup_gt numB label_gt (cand v c LE LS, LE) (cand v c LS LS, LS)) eqn:T.
    - apply tup_finite in T; auto. cbn [fst].
      match goal with |- _ <= B2R ?t => change t with (cand v c LE LS) end. destruct T as [T|[T _]]; lra.
    - cbn [fst]. match goal with |- _ <= B2R ?t => change t with (cand v c LS LS) end. lra.
  Qed.
  Lemma val_step v c y : val (vit_step H v c) y = fst (vit_cell H v c y).
  Proof. unfold val, vit_step. rewrite col_get_make. reflexivity. Qed.
  Lemma path_step v c y : snd (col_get (vit_step H v c) y) = snd (vit_cell H v c y).
  Proof. unfold vit_step. rewrite col_get_make. reflexivity. Qed.

  (** ** Before the unknown character *)

  Definition before (k : nat) (v : column numB) : Prop :=
    (forall y, bfin k (val v y) /\ B2R (val v y) <= INR k * U) /\ - (INR k * U) <= B2R (val v LS).

  Lemma cand_fin k v c a y : (forall z, bfin k (val v z)) -> blim (S (S k)) -> follows a y ->
    bfin (S k) (Bplus mode_NE (val v a) (tr a y)) /\ bfin (S (S k)) (cand v c a y).
  Proof.
    intros B L FO. destruct (tr_ok a y FO) as [T _]. destruct (em_ok y c) as [E _].
    assert (A : bfin (S k) (Bplus mode_NE (val v a) (tr a y))).
    { apply bfin_add; auto. eapply blim_le; [|exact L]. lia. }
    split; auto. apply bfin_add; auto.
  Qed.

  Lemma before_step k v c : before k v -> known H c -> blim (S (S k)) -> before (S (S k)) (vit_step H v c).
  Proof.
    intros [BE LO] KN L. assert (L' : blim (S k)) by (eapply blim_le; [|exact L]; lia).
    assert (FI : forall z, bfin k (val v z)) by (intros; apply BE). split.
    - intros y. rewrite val_step. destruct (cell_of v c y) as (a & FO & ->). cbn [fst].
      destruct (@cand_fin k v c a y FI L FO) as [A B]. split; auto.
      destruct (tr_ok a y FO) as [T [_ T']]. destruct (em_ok y c) as [E E'].
      apply add_up; auto. apply add_up; auto. apply BE.
    - rewrite val_step.
      assert (F1 : follows LS LS) by exact I. assert (F2 : follows LE LS) by exact I.
      destruct (@cand_fin k v c LS LS FI L F1) as [A B]. destruct (@cand_fin k v c LE LS FI L F2) as [_ C].
      eapply Rle_trans; [|apply cell_S_ge; [apply B|apply C]].
      destruct (tr_ok LS LS F1) as [T [T' _]]. destruct (em_ok LS c) as [E _].
      destruct (em_known _ KN) as [E' _].
      apply add_down; auto. apply add_down; auto.
  Qed.

  Lemma before_init c : known H c -> before 2 (vit_init H c).
  Proof.
    intros KN. assert (L : blim 2) by (unfold blim; lia).
    assert (V : forall y, val (vit_init H c) y = Bplus mode_NE (h_start H y) (em y c)).
    { intros y. unfold val, vit_init. rewrite col_get_make. reflexivity. }
    assert (ST : forall y, bfin 1 (h_start H y)).
    { intros y. destruct (@pt_start lg H PT y) as [[F B] _]. split; auto. simpl INR. rewrite Rmult_1_l. auto. }
    split.
    - intros y. rewrite V. destruct (em_ok y c) as [E E']. split; [apply bfin_add; auto|].
      apply add_up; auto. simpl INR. rewrite Rmult_1_l. apply (@pt_start lg H PT y).
    - rewrite V. destruct (em_ok LS c) as [E _]. destruct (em_known _ KN) as [E' _].
      apply add_down; auto. simpl INR. rewrite Rmult_1_l. apply small_le, (@pt_single lg H PT).
  Qed.

  (** ** From the unknown character on *)

  Definition after (k : nat) (v : column numB) : Prop :=
    (forall y, bfin k (val v y) /\ B2R (val v y) <= B2R (val v LS)) /\ B2R (val v LS) <= - bpow radix2 333.

  Lemma abs_between x b : - b <= x <= b -> b < bpow radix2 279 -> Rabs x < bpow radix2 279.
  Proof. intros [A B] C. apply Rle_lt_trans with b; auto. apply Rabs_le. auto. Qed.

  Lemma after_init c : unknown H c -> after 2 (vit_init H c).
  Proof.
    intros UN. assert (L : blim 2) by (unfold blim; lia).
    assert (V : forall y, val (vit_init H c) y = Bplus mode_NE (h_start H y) b64_min_float).
    { intros y. rewrite <- (em_unknown y _ UN). unfold val, vit_init. rewrite col_get_make. reflexivity. }
    assert (ST : forall y, bfin 1 (h_start H y)).
    { intros y. destruct (@pt_start lg H PT y) as [[F B] _]. split; auto. simpl INR. rewrite Rmult_1_l. auto. }
    assert (VS : B2R (val (vit_init H c) LS) = B2R b64_min_float).
    { rewrite V, (add_val 1) by (auto; apply bfin_min). apply rnd_swallow_min.
      eapply abs_between; [apply small_le, (@pt_single lg H PT)|apply U_small]. }
    split; [|rewrite VS; apply min_float_low].
    intros y. rewrite VS, V. split; [apply bfin_add; auto; apply bfin_min|].
    rewrite (add_val 1) by (auto; apply bfin_min).
    rewrite <- (rnd_swallow_min U) at 2 by (apply (abs_between U U); [pose proof U_pos; lra|apply U_small]).
    apply rnd_mono. destruct (@pt_start lg H PT y) as [_ B]. fold U in B. lra.
  Qed.

  Lemma enter k v c : before k v -> unknown H c -> blim (S (S k)) ->
    after (S (S k)) (vit_step H v c) /\
    snd (col_get (vit_step H v c) LS) = snd (col_get v LS) ++ [LS].
  Proof.
    intros [BE LO] UN L. assert (L' : blim (S k)) by (eapply blim_le; [|exact L]; lia).
    assert (FI : forall z, bfin k (val v z)) by (intros; apply BE).
    assert (UP : forall a y, follows a y -> B2R (cand v c a y) <= B2R b64_min_float).
    { intros a y FO. destruct (@cand_fin k v c a y FI L FO) as [A B]. unfold cand.
      destruct (tr_ok a y FO) as [T [_ T']]. destruct (em_ok y c) as [E _].
      rewrite (add_val (S k)) by auto. rewrite (em_unknown _ _ UN).
      rewrite <- (rnd_swallow_min (INR (S k) * U)) at 2
        by (apply (abs_between (INR (S k) * U) (INR (S k) * U)); [|apply k_small; auto];
            pose proof (Rmult_le_pos _ _ (pos_INR (S k)) (Rlt_le _ _ U_pos)); lra).
      apply rnd_mono. apply Rplus_le_compat_r. apply add_up; auto. apply BE. }
    assert (F1 : follows LS LS) by exact I. assert (F2 : follows LE LS) by exact I.
    assert (VS : B2R (cand v c LS LS) = B2R b64_min_float).
    { destruct (@cand_fin k v c LS LS FI L F1) as [A B]. unfold cand.
      destruct (tr_ok LS LS F1) as [T [T0 T']]. destruct (em_ok LS c) as [E _].
      rewrite (add_val (S k)) by auto. rewrite (em_unknown _ _ UN). apply rnd_swallow_min.
      apply (abs_between _ (INR (S k) * U)); [split|apply k_small; exact L'].
      - apply add_down; auto.
      - apply add_up; auto. apply BE. }
    destruct (@cand_fin k v c LS LS FI L F1) as [_ B1]. destruct (@cand_fin k v c LE LS FI L F2) as [_ B2].
    assert (C : vit_cell H v c LS = (cand v c LS LS, snd (col_get v LS) ++ [LS])).
    { apply cell_S; [apply B1|apply B2|]. rewrite VS. apply UP; auto. }
    split.
    - assert (VV : B2R (val (vit_step H v c) LS) = B2R b64_min_float) by (rewrite val_step, C; exact VS).
      split; [|rewrite VV; apply min_float_low].
      intros y. rewrite VV, val_step. destruct (cell_of v c y) as (a & FO & ->). cbn [fst].
      split; [apply (@cand_fin k v c a y FI L FO)|apply UP; auto].
    - rewrite path_step, C. reflexivity.
  Qed.

  Lemma stay k v c : after k v -> known H c \/ unknown H c -> blim (S (S k)) ->
    after (S (S k)) (vit_step H v c) /\
    snd (col_get (vit_step H v c) LS) = snd (col_get v LS) ++ [LS].
  Proof.
    intros [AF LO] KU L. assert (L' : blim (S k)) by (eapply blim_le; [|exact L]; lia).
    assert (FI : forall z, bfin k (val v z)) by (intros; apply AF).
    set (m := B2R (val v LS)) in *.
    assert (G : generic_format radix2 (SpecFloat.fexp 53 1024) m) by apply B2R_format.
    assert (SW : forall t, - U <= t <= U -> rnd (m + t) = m).
    { intros t B. apply rnd_swallow; auto. eapply abs_between; [exact B|apply U_small]. }
    pose proof U_pos as UP.
    (* what every candidate is at most, and the first one exactly *)
    assert (X1 : forall a y, follows a y -> B2R (Bplus mode_NE (val v a) (tr a y)) <= m).
    { intros a y FO. destruct (tr_ok a y FO) as [T [_ T']]. rewrite (add_val k) by auto.
      rewrite <- (SW U) by lra. apply rnd_mono. destruct (AF a) as [_ A]. lra. }
    assert (F1 : follows LS LS) by exact I. assert (F2 : follows LE LS) by exact I.
    assert (X2 : B2R (Bplus mode_NE (val v LS) (tr LS LS)) = m).
    { destruct (tr_ok LS LS F1) as [T T']. rewrite (add_val k) by auto. apply SW. auto. }
    set (m' := B2R (cand v c LS LS)).
    assert (TOP : (forall a y, follows a y -> B2R (cand v c a y) <= m') /\ m' <= - bpow radix2 333).
    { assert (EQ : m' = rnd (m + B2R (em LS c))).
      { unfold m', cand. destruct (@cand_fin k v c LS LS FI L F1) as [A _]. destruct (em_ok LS c) as [E _].
        rewrite (add_val (S k)) by auto. rewrite X2. reflexivity. }
      assert (CE : forall a y, follows a y -> B2R (cand v c a y) = rnd (B2R (Bplus mode_NE (val v a) (tr a y)) + B2R (em y c))).
      { intros a y FO. destruct (@cand_fin k v c a y FI L FO) as [A _]. destruct (em_ok y c) as [E _].
        unfold cand. apply (add_val (S k)); auto. }
      destruct KU as [KN|UN].
      - rewrite SW in EQ by (apply em_known; auto). split; [|rewrite EQ; auto].
        intros a y FO. rewrite (CE a y FO), EQ. rewrite <- (SW U) by lra. apply rnd_mono.
        pose proof (X1 a y FO). destruct (em_ok y c) as [_ E]. lra.
      - rewrite (em_unknown _ _ UN) in EQ. split.
        + intros a y FO. rewrite (CE a y FO), EQ, (em_unknown _ _ UN). apply rnd_mono. pose proof (X1 a y FO). lra.
        + rewrite EQ. eapply Rle_trans; [|exact LO].
          replace m with (rnd m) at 2 by (unfold rnd; apply round_generic; [apply valid_rnd_N|exact G]).
          apply rnd_mono. pose proof min_float_low. pose proof (bpow_gt_0 radix2 333). lra. }
    destruct TOP as [TOP LOW].
    destruct (@cand_fin k v c LS LS FI L F1) as [_ B1]. destruct (@cand_fin k v c LE LS FI L F2) as [_ B2].
    assert (C : vit_cell H v c LS = (cand v c LS LS, snd (col_get v LS) ++ [LS])).
    { apply cell_S; [apply B1|apply B2|]. apply TOP; auto. }
    split.
    - assert (VV : B2R (val (vit_step H v c) LS) = m') by (rewrite val_step, C; reflexivity).
      split; [|rewrite VV; exact LOW].
      intros y. rewrite VV, val_step. destruct (cell_of v c y) as (a & FO & ->). cbn [fst].
      split; [apply (@cand_fin k v c a y FI L FO)|apply TOP; auto].
    - rewrite path_step, C. reflexivity.
  Qed.

  Lemma stay_all cs : forall k v, after k v -> Forall (fun c => known H c \/ unknown H c) cs ->
    blim (k + 2 * length cs) ->
    after (k + 2 * length cs) (fold_left (vit_step H) cs v) /\
    snd (col_get (fold_left (vit_step H) cs v) LS) = snd (col_get v LS) ++ repeat LS (length cs).
  Proof.
    induction cs as [|c cs IH]; intros k v A FA L.
    - cbn. rewrite Nat.add_0_r, app_nil_r. auto.
    - inversion FA as [|? ? KU FA']; subst. cbn [length] in *.
      destruct (@stay k v c A KU) as [A' E']; [eapply blim_le; [|exact L]; lia|].
      destruct (IH (S (S k)) (vit_step H v c) A' FA') as [A2 E2]; [eapply blim_le; [|exact L]; lia|].
      cbn [fold_left]. replace (k + 2 * S (length cs))%nat with (S (S k) + 2 * length cs)%nat by lia.
      split; auto. rewrite E2, E', <- app_assoc. reflexivity.
  Qed.

  (** the state after a beginning of known and unknown characters *)
  Lemma any_all cs : forall k v, before k v \/ after k v -> Forall (fun c => known H c \/ unknown H c) cs ->
    blim (k + 2 * length cs) ->
    before (k + 2 * length cs) (fold_left (vit_step H) cs v) \/ after (k + 2 * length cs) (fold_left (vit_step H) cs v).
  Proof.
    induction cs as [|c cs IH]; intros k v A FA L.
    - cbn. rewrite Nat.add_0_r. auto.
    - inversion FA as [|? ? KU FA']; subst. cbn [length fold_left] in *.
      assert (L' : blim (S (S k))) by (eapply blim_le; [|exact L]; lia).
      replace (k + 2 * S (length cs))%nat with (S (S k) + 2 * length cs)%nat in * by lia.
      apply IH; auto. destruct A as [A|A].
      + destruct KU as [KN|UN]; [left; apply before_step; auto|right; apply enter; auto].
      + right. apply stay; auto.
  Qed.

  Lemma viterbi_S c obs k : after k (fold_left (vit_step H) obs (vit_init H c)) ->
    snd (viterbi H c obs) = snd (col_get (fold_left (vit_step H) obs (vit_init H c)) LS).
  Proof.
    unfold viterbi. set (v := fold_left _ _ _). intros [A _]. unfold max_from. cbn [fold_left].
    change (fst (col_get v LS)) with (val v LS). change (fst (col_get v LE)) with (val v LE).
    assert (T : tup_gt numB label_gt (val v LS, LS) (val v LE, LE) = true).
    { apply tup_finite; [apply A|apply A|]. destruct (A LE) as [_ B].
      destruct (Rle_lt_or_eq_dec _ _ B) as [B'|B']; auto. }
    match goal with |- context [tup_gt ?n ?o ?p ?q] =>
      change (tup_gt n o p q) with (tup_gt numB label_gt (val v LS, LS) (val v LE, LE)) end.
    rewrite T. reflexivity.
  Qed.

  Lemma labels_from u c :
    Forall (fun x => known H x \/ unknown H x) u -> unknown H c ->
    exists p, length p = length u /\ chain p /\ (u = [] \/ exists p', p = p' ++ [LS]) /\
      forall v a obs, u ++ c :: v = a :: obs ->
        Forall (fun x => known H x \/ unknown H x) v -> blim (2 * length (u ++ c :: v)) ->
        snd (viterbi H a obs) = p ++ repeat LS (S (length v)).
  Proof.
    intros FU UN. destruct u as [|b u].
    - exists []. split; auto. split; [exact I|]. split; auto.
      intros v a obs E FV L. cbn in E. injection E as <- <-.
      pose proof (after_init _ UN) as A. cbn [app length] in L.
      destruct (@stay_all v 2 _ A FV) as [A2 E2]; [eapply blim_le; [|exact L]; lia|].
      rewrite (@viterbi_S c v _ A2), E2. unfold vit_init. rewrite col_get_make. reflexivity.
    - inversion FU as [|? ? KB FU']; subst.
      set (w := fold_left (vit_step H) u (vit_init H b)).
      assert (CO : col_ok (1 + length u) w) by (apply (@vit_fold_ok numB H u), vit_init_ok).
      destruct (CO LS) as (P1 & P2 & P3).
      exists (snd (col_get w LS)). split; [exact P1|]. split; auto. split; auto.
      intros v a obs E FV L. cbn in E. injection E as <- <-.
      rewrite !app_length in L. cbn [length] in L.
      assert (A : before (2 + 2 * length u) w \/ after (2 + 2 * length u) w).
      { apply any_all; auto; [|eapply blim_le; [|exact L]; lia].
        destruct KB as [K|K]; [left; apply before_init; auto|right; apply after_init; auto]. }
      assert (B : after (S (S (2 + 2 * length u))) (vit_step H w c) /\
                  snd (col_get (vit_step H w c) LS) = snd (col_get w LS) ++ [LS]).
      { assert (L2 : blim (S (S (2 + 2 * length u)))) by (eapply blim_le; [|exact L]; lia).
        destruct A as [A|A]; [apply enter; auto|apply stay; auto]. }
      destruct B as [B EB].
      destruct (@stay_all v _ _ B FV) as [A2 E2]; [eapply blim_le; [|exact L]; lia|].
      assert (FF : fold_left (vit_step H) (u ++ c :: v) (vit_init H b) = fold_left (vit_step H) v (vit_step H w c)).
      { rewrite fold_left_app. reflexivity. }
      assert (AF : after (S (S (2 + 2 * length u)) + 2 * length v) (fold_left (vit_step H) (u ++ c :: v) (vit_init H b)))
        by (rewrite FF; exact A2).
      rewrite (viterbi_S b (u ++ c :: v) _ AF), FF, E2, EB, <- app_assoc. reflexivity.
  Qed.
End Table.

(** ** The words of such labels *)

Lemma decode_app u p : forall cur r q, length p = length u -> (exists p', p = p' ++ [LS]) ->
  decode cur (u ++ r) (p ++ q) = decode cur u p ++ decode [] r q.
Proof.
  revert p. induction u as [|c u IH]; intros p cur r q L [p' E].
  - destruct p; [|discriminate]. destruct p'; discriminate.
  - destruct p as [|y p]; [discriminate|]. cbn [length] in L. injection L as L. cbn [app].
    destruct p as [|z p].
    + destruct u; [|discriminate]. destruct p' as [|? p']; cbn in E;
        [injection E as ->; reflexivity|injection E as _ E; destruct p'; discriminate].
    + assert (EX : exists p', z :: p = p' ++ [LS]).
      { destruct p' as [|? p']; cbn in E; [discriminate|]. injection E as E1 E2. exists p'. auto. }
      destruct y; cbn [decode]; rewrite IH; auto.
Qed.
Lemma decode_last p : forall cur u x, length p = length u ->
  exists ws, decode cur (u ++ [x]) (p ++ [LS]) = ws ++ [[x]].
Proof.
  induction p as [|y p IH]; intros cur u x L.
  - destruct u; [|discriminate]. exists []. reflexivity.
  - destruct u as [|c u]; [discriminate|]. cbn [length] in L. injection L as L. cbn [app].
    destruct y; cbn [decode].
    + apply IH; auto.
    + apply IH; auto.
    + destruct (IH [] u x L) as [ws E]. rewrite E. exists ((cur ++ [c]) :: ws). reflexivity.
    + destruct (IH [] u x L) as [ws E]. rewrite E. exists ([c] :: ws). reflexivity.
Qed.
Lemma decode_S v : decode [] v (repeat LS (length v)) = map (fun c => [c]) v.
Proof. induction v as [|c v IH]; cbn; auto. rewrite IH. reflexivity. Qed.

Lemma han_words lg (H : hmm (numB lg)) u c :
  plain_tables H -> Forall (fun x => known H x \/ unknown H x) u -> unknown H c ->
  exists ws, concat ws = u /\ Forall (fun w => w <> []) ws /\
    (forall u' x, u = u' ++ [x] -> exists ws', ws = ws' ++ [[x]]) /\
    forall v, Forall (fun x => known H x \/ unknown H x) v -> blim (2 * length (u ++ c :: v)) ->
      fs_cut_han H (u ++ c :: v) = gof (ws ++ map (fun c => [c]) (c :: v)).
Proof.
  intros PT FU UN. destruct (@labels_from lg H PT u c FU UN) as (p & LP & CP & PE & ALL).
  exists (decode [] u p).
  assert (CC : concat (decode [] u p) = u /\ Forall (fun w => w <> []) (decode [] u p)).
  { destruct PE as [->|[p' ->]].
    - destruct p; [|discriminate]. split; [reflexivity|constructor].
    - apply (@decode_concat None); auto; [exact eq_refl|].
      assert (FN : final (p' ++ [LS])) by (exists p', LS; auto).
      unfold final_from. destruct (p' ++ [LS]) eqn:E; [destruct p'; discriminate|]. exact FN. }
  destruct CC as [C1 C2]. split; auto. split; auto. split.
  - intros u' x ->. destruct PE as [E|[p' ->]]; [destruct u'; discriminate|].
    apply decode_last. rewrite !app_length in LP. cbn in LP. lia.
  - intros v FV L. destruct (u ++ c :: v) as [|a obs] eqn:E; [destruct u; discriminate|].
    rewrite fs_cut_han_eq, (ALL v a obs E FV) by (rewrite E; exact L). rewrite <- E. f_equal.
    destruct PE as [->|PE].
    + destruct p; [|discriminate]. exact (decode_S (c :: v)).
    + rewrite decode_app by auto. f_equal. exact (decode_S (c :: v)).
Qed.
