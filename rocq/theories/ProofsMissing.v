(** * The Viterbi table in binary64 counts missing entries *)
From Coq Require Import Reals Lra.
From Flocq Require Import Core BinarySingleNaN.
From Verif Require Import PyBase PyNum ModelFinalseg SpecBase SpecHmm InstB64 InstB64Ext SpecUnknown SpecMissing
  ProofsBase ProofsFinalseg ProofsAbsorb ProofsUnknown.
Local Open Scope R_scope.

(** ** Sums of [k] times -3.14e100 *)

Fixpoint mins (k : nat) : R := match k with O => 0 | S k' => rnd (mins k' + B2R b64_min_float) end.

Lemma min_float_high : - bpow radix2 334 <= B2R b64_min_float.
Proof.
  assert (E : Bltb (binary_normalize 53 1024 _ _ mode_NE (-1) 334 false : b64) b64_min_float = true)
    by (vm_compute; reflexivity).
  assert (F1 : is_finite b64_min_float = true) by (vm_compute; reflexivity).
  pose proof (binary_normalize_correct 53 1024 _ _ mode_NE (-1) 334 false) as BC.
  cbv zeta in BC. cbn [round_mode] in BC.
  assert (V : F2R (Float radix2 (-1) 334) = - bpow radix2 334).
  { unfold F2R. cbn [Fnum Fexp]. ring. }
  rewrite V in BC.
  assert (G : round radix2 fx ZnearestE (- bpow radix2 334) = - bpow radix2 334).
  { apply round_generic; [apply valid_rnd_N|]. apply generic_format_opp, generic_format_bpow.
    unfold SpecFloat.fexp, SpecFloat.emin. lia. }
  rewrite G in BC. rewrite Rabs_Ropp, Rabs_right in BC by (apply Rle_ge, bpow_ge_0).
  rewrite Rlt_bool_true in BC by (apply bpow_lt; lia). destruct BC as (BV & BF & _).
  rewrite Bltb_correct in E by auto. rewrite BV in E.
  revert E. clear. generalize (B2R b64_min_float) (- bpow radix2 334). intros a b E.
  destruct (Rlt_bool_spec b a); [lra|discriminate].
Qed.

Lemma units334_format k : blim k -> generic_format radix2 fx (INR k * bpow radix2 334).
Proof.
  unfold blim. intros L. rewrite INR_IZR_INZ.
  change (IZR (Z.of_nat k) * bpow radix2 334) with (F2R (Float radix2 (Z.of_nat k) 334)).
  apply generic_format_F2R. cbn [Fnum Fexp]. intros NZ.
  unfold cexp. rewrite mag_F2R by auto.
  assert (B : (mag radix2 (IZR (Z.of_nat k)) <= 51)%Z).
  { apply mag_le_bpow.
    - apply IZR_neq. auto.
    - rewrite Rabs_right by (apply Rle_ge, IZR_le; lia).
      apply Rle_lt_trans with (IZR (2 ^ 50)); [apply IZR_le; auto|].
      change (bpow radix2 51) with (IZR (2 ^ 51)). apply IZR_lt. reflexivity. }
  unfold SpecFloat.fexp, SpecFloat.emin. lia.
Qed.

Lemma mins_format k : generic_format radix2 fx (mins k).
Proof. destruct k; cbn [mins]; [apply generic_format_0|]. unfold rnd. apply generic_format_round; [exact vfx|apply valid_rnd_N]. Qed.

Lemma mins_1 : mins 1 = B2R b64_min_float.
Proof. cbn [mins]. rewrite Rplus_0_l. unfold rnd. apply round_generic; [apply valid_rnd_N|apply B2R_format]. Qed.

Lemma mins_size k : blim k -> - (INR k * bpow radix2 334) <= mins k <= 0.
Proof.
  induction k as [|k IH]; intros L.
  - cbn [mins]. simpl INR. lra.
  - assert (L' : blim k) by (eapply blim_le; [|exact L]; lia). specialize (IH L').
    pose proof min_float_high. pose proof min_float_low. pose proof (bpow_gt_0 radix2 333).
    cbn [mins]. unfold rnd. split.
    + apply round_ge_generic; [exact vfx|apply valid_rnd_N|apply generic_format_opp, units334_format; auto|].
      rewrite S_INR. lra.
    + apply round_le_generic; [exact vfx|apply valid_rnd_N|apply generic_format_0|]. lra.
Qed.

Lemma mins_lt k : blim (S k) -> mins (S k) < mins k.
Proof.
  intros L. assert (L' : blim k) by (eapply blim_le; [|exact L]; lia).
  pose proof (mins_size k L') as [LO HI]. pose proof min_float_low as ML. pose proof (bpow_gt_0 radix2 333) as BP.
  destruct k as [|k]; [rewrite mins_1; cbn [mins]; lra|].
  set (x := mins (S k)) in *. change (mins (S (S k))) with (rnd (x + B2R b64_min_float)).
  assert (X0 : x <> 0).
  { intros E. assert (x <= B2R b64_min_float); [|lra].
    unfold x. cbn [mins]. unfold rnd. apply round_le_generic; [exact vfx|apply valid_rnd_N|apply B2R_format|].
    destruct (mins_size k); [eapply blim_le; [|exact L]; lia|lra]. }
  assert (G : generic_format radix2 fx x) by apply mins_format.
  assert (U : ulp radix2 fx (- x) <= bpow radix2 333).
  { rewrite ulp_neq_0 by lra. apply bpow_le. unfold cexp.
    assert (M : (mag radix2 (- x) <= 385)%Z).
    { apply mag_le_bpow; [lra|]. rewrite Rabs_right by lra.
      apply Rle_lt_trans with (INR (S k) * bpow radix2 334); [lra|].
      apply Rle_lt_trans with (bpow radix2 50 * bpow radix2 334).
      - apply Rmult_le_compat_r; [apply bpow_ge_0|]. rewrite INR_IZR_INZ.
        change (bpow radix2 50) with (IZR (2 ^ 50)). apply IZR_le. exact L'.
      - rewrite <- bpow_plus. apply bpow_lt. lia. }
    unfold SpecFloat.fexp, SpecFloat.emin. lia. }
  assert (P : x + B2R b64_min_float <= pred radix2 fx x).
  { replace x with (- - x) at 2 by ring. rewrite pred_opp, succ_eq_pos by lra. lra. }
  apply Rle_lt_trans with (pred radix2 fx x); [|apply pred_lt_id; exact X0].
  unfold rnd. apply round_le_generic; [exact vfx|apply valid_rnd_N|apply generic_format_pred; [exact vfx|exact G]|exact P].
Qed.

Lemma mins_lt_all j k : (j < k)%nat -> blim k -> mins k < mins j.
Proof.
  intros LT. induction LT as [|k LT IH]; intros L; [apply mins_lt; auto|].
  eapply Rlt_trans; [apply mins_lt; auto|]. apply IH. eapply blim_le; [|exact L]. lia.
Qed.

Lemma mins_low k : (0 < k)%nat -> blim k -> mins k <= - bpow radix2 333.
Proof.
  intros P L. eapply Rle_trans; [|apply min_float_low]. rewrite <- mins_1.
  destruct (Nat.eq_dec k 1) as [->|N]; [lra|]. left. apply mins_lt_all; auto. lia.
Qed.

(** ** A number that stands for [k] missing entries *)

Definition rep (n k : nat) (x : b64) : Prop :=
  bfin n x /\ (k <= n)%nat /\
  (k = 0%nat /\ - (INR n * U) <= B2R x <= INR n * U \/ (0 < k)%nat /\ B2R x = mins k).

Lemma rep_small n k x t : rep n k x -> small t -> blim (S n) -> rep (S n) k (Bplus mode_NE x t).
Proof.
  intros (F & LE & R) SM L. pose proof (small_bfin _ SM) as FT. pose proof (small_le _ SM) as BT.
  split; [apply bfin_add; auto|]. split; [lia|]. destruct R as [[-> R]|[P R]].
  - left. split; auto. split; [apply add_down|apply add_up]; auto; apply R || apply BT.
  - right. split; auto. rewrite (add_val n) by auto. rewrite R.
    apply rnd_swallow; [apply mins_format|apply mins_low; auto; eapply blim_le; [|exact L]; lia|].
    apply (abs_between _ U); [exact BT|apply U_small].
Qed.

Lemma rep_min n k x : rep n k x -> blim (S n) -> rep (S n) (S k) (Bplus mode_NE x b64_min_float).
Proof.
  intros (F & LE & R) L. split; [apply bfin_add; auto; apply bfin_min|]. split; [lia|]. right. split; [lia|].
  rewrite (add_val n) by (auto; apply bfin_min). destruct R as [[-> R]|[P R]].
  - rewrite mins_1. apply rnd_swallow_min. apply (abs_between _ (INR n * U)); [exact R|].
    apply k_small. eapply blim_le; [|exact L]. lia.
  - rewrite R. reflexivity.
Qed.

(** fewer missing entries make a greater number *)
Lemma rep_order n j k x y : rep n j x -> rep n k y -> blim n -> (j < k)%nat -> B2R y < B2R x.
Proof.
  intros (_ & LJ & RJ) (_ & LK & RK) L LT.
  destruct RK as [[-> _]|[PK EK]]; [lia|]. rewrite EK. destruct RJ as [[-> RJ]|[PJ EJ]].
  - pose proof (mins_low k PK) as B. assert (blim k) as Lk by (eapply blim_le; [|exact L]; lia). specialize (B Lk).
    pose proof (k_small n L). assert (bpow radix2 279 < bpow radix2 333) by (apply bpow_lt; lia). lra.
  - rewrite EJ. apply mins_lt_all; auto. eapply blim_le; [|exact L]. lia.
Qed.
Lemma rep_equal n k x y : rep n k x -> rep n k y -> (0 < k)%nat -> B2R x = B2R y.
Proof. intros (_ & _ & [[E _]|[_ RX]]) (_ & _ & [[E' _]|[_ RY]]) P; try lia. congruence. Qed.

(** ** Lists of labels *)

Lemma not_above_snoc l' l y : not_above l' l -> not_above (l' ++ [y]) (l ++ [y]).
Proof.
  intros [->|(p' & a' & p & a & q & -> & -> & LP & LT)]; [left; reflexivity|].
  right. exists p', a', p, a, (q ++ [y]). rewrite <- !app_assoc. cbn [app]. auto.
Qed.
Lemma not_above_last l' l a' a q : length l' = length l -> (label_code a' < label_code a)%N ->
  not_above (l' ++ a' :: q) (l ++ a :: q).
Proof. intros L LT. right. exists l', a', l, a, q. auto. Qed.
Lemma not_above_antisym l' l : not_above l' l -> not_above l l' -> l' = l.
Proof.
  intros [E|(p' & a' & p & a & q & E1 & E2 & LP & LT)] [E'|(r' & b' & r & b & t & E3 & E4 & LR & LU)]; auto.
  exfalso. rewrite E1 in E4. rewrite E2 in E3. clear E1 E2.
  assert (X : forall (q t : list label) p' a' p a r' b' r b,
    length p' = length p -> length r' = length r -> (label_code a' < label_code a)%N -> (label_code b' < label_code b)%N ->
    p ++ a :: rev q = r' ++ b' :: rev t -> p' ++ a' :: rev q = r ++ b :: rev t -> False).
  { clear. induction q as [|y q IH]; intros t p' a' p a r' b' r b LP LR LT LU E3 E4; cbn [rev] in *.
    - destruct t as [|z t]; cbn [rev] in *.
      + apply app_inj_tail in E3, E4. destruct E3 as [_ ->], E4 as [_ ->]. lia.
      + rewrite app_comm_cons, app_assoc in E3, E4. apply app_inj_tail in E3, E4.
        destruct E3 as [_ E3], E4 as [_ E4]. subst. lia.
    - destruct t as [|z t]; cbn [rev] in *.
      + rewrite app_comm_cons, app_assoc in E3, E4. apply app_inj_tail in E3, E4.
        destruct E3 as [_ E3], E4 as [_ E4]. subst. lia.
      + rewrite !app_comm_cons, !app_assoc in E3, E4. apply app_inj_tail in E3, E4.
        destruct E3 as [E3 _], E4 as [E4 _]. eapply (IH t p' a' p a r' b' r b); eauto. }
  apply (X (rev q) (rev t) p' a' p a r' b' r b); auto; rewrite !rev_involutive; auto.
Qed.
Lemma skipn_snoc {A} d (l : list A) y : (d <= length l)%nat -> skipn d (l ++ [y]) = skipn d l ++ [y].
Proof. intros L. rewrite skipn_app. replace (d - length l)%nat with 0%nat by lia. reflexivity. Qed.

(** ** The table *)

Section Count.
  Variable lg : Z -> b64.
  Notation numB := (numB lg).
  Variable H : hmm numB.
  Hypothesis ST : sound_tables H.

  Notation mis := (missing H (no_start H)).
  Notation path v y := (snd (col_get v y)).
  Notation cand := (ProofsUnknown.cand lg H).
  Notation em := (ProofsUnknown.em lg H).
  Notation tr := (ProofsUnknown.tr lg H).
  Notation val := (ProofsUnknown.val lg).

  (** the better of the two candidates, ties by the greater letter *)
  Lemma cell_best v c y :
    (forall a, follows a y -> is_finite (cand v c a y) = true) ->
    exists a, follows a y /\ vit_cell H v c y = (cand v c a y, path v a ++ [y]) /\
      forall a', follows a' y -> B2R (cand v c a' y) <= B2R (cand v c a y) /\
        (B2R (cand v c a' y) = B2R (cand v c a y) -> (label_code a' <= label_code a)%N).
  Proof.
    intros FI.
    assert (PS : forall a b, prev_status y = (a, b) ->
              follows a y /\ follows b y /\ (forall a', follows a' y -> a' = a \/ a' = b)).
    { intros a b E. destruct y; cbn in E; injection E as <- <-; (split; [exact I|split; [exact I|]]);
        intros [] F; cbn in F; tauto || auto. }
    unfold vit_cell. destruct (prev_status y) as [a b]. destruct (PS a b eq_refl) as (FA & FB & AL).
    unfold max_from. cbn [fold_left].
    match goal with |- context [tup_gt ?n ?o ?p ?q] =>
      change (tup_gt n o p q) with (tup_gt numB label_gt (cand v c b y, b) (cand v c a y, a)) end.
    destruct (tup_gt numB label_gt (cand v c b y, b) (cand v c a y, a)) eqn:T.
    - exists b. split; auto. split; [reflexivity|].
      apply tup_finite in T; [|apply FI; auto|apply FI; auto].
      intros a' F. destruct (AL a' F) as [->| ->]; [|split; [lra|lia]].
      destruct T as [T|[T O]]; split; try lra.
      intros _. unfold label_gt in O. apply N.ltb_lt in O. lia.
    - exists a. split; auto. split; [reflexivity|].
      intros a' F. destruct (AL a' F) as [->| ->]; [split; [lra|lia]|].
      assert (NT : ~ (B2R (cand v c a y) < B2R (cand v c b y) \/
                      (B2R (cand v c b y) = B2R (cand v c a y) /\ label_gt b a = true))).
      { intros X. apply (tup_finite lg label_gt _ _ b a (FI b FB) (FI a FA)) in X. congruence. }
      split; [apply Rnot_lt_le; tauto|]. intros E. unfold label_gt in NT.
      apply N.nlt_ge. intros LT. apply NT. right. split; auto. apply N.ltb_lt. auto.
  Qed.

  (** one entry more *)
  Lemma rep_emit n k x y c : rep n k x -> blim (S n) ->
    rep (S n) (k + lacks H y c) (Bplus mode_NE x (em y c)).
  Proof.
    intros R L. unfold lacks, ProofsUnknown.em, get_or. destruct (h_emit H y c) as [t|] eqn:E.
    - rewrite Nat.add_0_r. apply rep_small; auto. eapply (@st_emit lg H ST); eauto.
    - rewrite Nat.add_1_r. apply (@rep_min n k x R L).
  Qed.
  Lemma rep_cand n k v c a y : rep n k (val v a) -> follows a y -> blim (S (S n)) ->
    rep (S (S n)) (k + lacks H y c) (cand v c a y).
  Proof.
    intros R F L. unfold ProofsUnknown.cand. apply rep_emit; auto. apply rep_small; auto; [|eapply blim_le; [|exact L]; lia].
    destruct (@st_trans lg H ST a y F) as (x & E & SM). unfold ProofsUnknown.tr. rewrite E. exact SM.
  Qed.

  Lemma lacking_snoc cs : forall ls c y, length ls = length cs ->
    lacking H (cs ++ [c]) (ls ++ [y]) = (lacking H cs ls + lacks H y c)%nat.
  Proof.
    induction cs as [|d cs IH]; intros ls c y L; destruct ls as [|z ls]; try discriminate; cbn [app lacking].
    - lia.
    - rewrite IH by (cbn in L; lia). lia.
  Qed.
  Lemma mis_snoc cs ls c y : length ls = length cs -> ls <> [] ->
    mis (cs ++ [c]) (ls ++ [y]) = (mis cs ls + lacks H y c)%nat.
  Proof.
    intros L N. unfold missing. rewrite lacking_snoc by auto. destruct ls; [congruence|]. cbn [app]. lia.
  Qed.

  (** labels of the first characters, with [y] as the last *)
  Definition upto (cs : str) (y : label) (ls : list label) : Prop :=
    length ls = length cs /\ chain ls /\ exists p, ls = p ++ [y].

  Lemma chain_front p a : chain (p ++ [a]) -> chain p.
  Proof.
    induction p as [|b p IH]; [exact (fun _ => I)|]. cbn [app chain]. intros [A C]. split; auto.
    destruct p; auto.
  Qed.
  Lemma chain_two p a y : chain (p ++ [a; y]) -> follows a y.
  Proof. induction p as [|b p IH]; cbn [app chain]; tauto. Qed.

  Lemma upto_snoc cs c y ls : upto (cs ++ [c]) y ls -> cs <> [] ->
    exists a o, ls = o ++ [y] /\ follows a y /\ upto cs a o.
  Proof.
    intros (L & C & p & E) N. subst ls. rewrite !app_length in L. cbn [length] in L.
    destruct (exists_last (l:=p)) as (o & a & ->).
    { intros ->. destruct cs; [congruence|]. cbn in L. lia. }
    exists a, (o ++ [a]). split; [reflexivity|]. split; [|split; [|split]].
    - rewrite <- app_assoc in C. eapply chain_two. exact C.
    - lia.
    - eapply chain_front. exact C.
    - eauto.
  Qed.

  Definition good (n : nat) (cs : str) (v : column numB) : Prop :=
    cs <> [] /\ forall y, upto cs y (path v y) /\ rep n (mis cs (path v y)) (val v y) /\
      forall o, upto cs y o -> (mis cs (path v y) <= mis cs o)%nat.
  Definition tied (d : nat) (cs : str) (v : column numB) : Prop :=
    (d < length cs)%nat /\
    forall y o, upto cs y o -> mis cs o = mis cs (path v y) -> not_above (skipn d o) (skipn d (path v y)).

  Lemma upto_nonempty cs y o : upto cs y o -> o <> [].
  Proof. intros (_ & _ & p & ->). destruct p; discriminate. Qed.

  Lemma good_step n cs c v : good n cs v -> blim (S (S n)) ->
    good (S (S n)) (cs ++ [c]) (vit_step H v c) /\
    forall d, tied d cs v ->
      (unknown H c \/ forall y, (0 < mis cs (path v y))%nat) -> tied d (cs ++ [c]) (vit_step H v c).
  Proof.
    intros [NE G] L.
    assert (RC : forall a y, follows a y -> rep (S (S n)) (mis cs (path v a) + lacks H y c) (cand v c a y)).
    { intros a y F. apply rep_cand; auto. apply G. }
    assert (FI : forall y a, follows a y -> is_finite (cand v c a y) = true).
    { intros y a F. destruct (RC a y F) as [[X _] _]. exact X. }
    assert (LE : forall y a a', follows a y -> follows a' y ->
              B2R (cand v c a' y) <= B2R (cand v c a y) -> (mis cs (path v a) <= mis cs (path v a'))%nat).
    { intros y a a' F F' LE. apply Nat.nlt_ge. intros LT.
      pose proof (rep_order (S (S n)) _ _ _ _ (RC a' y F') (RC a y F) L) as X.
      assert (mis cs (path v a') + lacks H y c < mis cs (path v a) + lacks H y c)%nat as Y by lia.
      specialize (X Y). lra. }
    split.
    - split; [destruct cs; discriminate|]. intros y.
      destruct (cell_best v c y (FI y)) as (a & F & E & BEST).
      rewrite path_step, val_step, E. cbn [fst snd].
      destruct (G a) as (UA & RA & MA). pose proof (upto_nonempty _ _ _ UA) as NA.
      destruct UA as (LA & CA & p & EA). rewrite mis_snoc by auto.
      split; [|split].
      + split; [rewrite !app_length; cbn [length]; rewrite LA; reflexivity|]. split; [|eauto]. rewrite EA in *. apply chain_snoc; auto.
      + apply RC; auto.
      + intros o UO. destruct (upto_snoc _ _ _ _ UO NE) as (a' & o' & -> & F' & UO').
        pose proof (upto_nonempty _ _ _ UO') as NO.
        rewrite mis_snoc by (auto; apply UO'). destruct (BEST a' F') as [B _].
        pose proof (LE y a a' F F' B). destruct (G a') as (_ & _ & MA'). specialize (MA' o' UO'). lia.
    - intros d [LD T] POS. split; [rewrite app_length; lia|]. intros y o UO.
      destruct (upto_snoc _ _ _ _ UO NE) as (a' & o' & -> & F' & UO').
      destruct (cell_best v c y (FI y)) as (a & F & E & BEST).
      rewrite path_step, E. cbn [fst snd].
      destruct (G a) as (UA & RA & MA). pose proof (upto_nonempty _ _ _ UA) as NA.
      pose proof (upto_nonempty _ _ _ UO') as NO.
      rewrite !mis_snoc by (auto; (apply UO' || apply UA)). intros EQ.
      destruct (BEST a' F') as [B TB]. pose proof (LE y a a' F F' B) as L1.
      destruct (G a') as (UA' & RA' & MA'). pose proof (MA' o' UO') as L2.
      assert (E1 : mis cs (path v a') = mis cs (path v a)) by lia.
      assert (E2 : mis cs o' = mis cs (path v a')) by lia.
      assert (EV : B2R (cand v c a' y) = B2R (cand v c a y)).
      { pose proof (RC a y F) as R1. pose proof (RC a' y F') as R2. rewrite E1 in R2.
        apply (rep_equal (S (S n)) _ _ _ R2 R1).
        destruct POS as [UN|POS]; [unfold lacks; rewrite (UN y); lia|]. specialize (POS a). lia. }
      specialize (TB EV).
      destruct UO' as (LO' & CO' & po & EO'). destruct UA as (LA & CA & pa & EA).
      rewrite !skipn_snoc by lia.
      destruct (N.eq_dec (label_code a') (label_code a)) as [EC|NC].
      + assert (a' = a) as -> by (destruct a', a; cbn in EC; congruence).
        apply not_above_snoc. apply T; auto. split; auto. split; auto. eauto.
      + rewrite EA, EO' in *. rewrite app_length in LO', LA. cbn [length] in LO', LA.
        rewrite !skipn_snoc by lia. rewrite <- !app_assoc. cbn [app].
        apply not_above_last; [rewrite !skipn_length; lia|lia].
  Qed.

  Lemma good_init c : good 2 [c] (vit_init H c) /\ tied 0 [c] (vit_init H c).
  Proof.
    assert (V : forall y, col_get (vit_init H c) y = (Bplus mode_NE (h_start H y) (em y c), [y])).
    { intros y. unfold vit_init. rewrite col_get_make. reflexivity. }
    assert (UP : forall y o, upto [c] y o -> o = [y]).
    { intros y o (LO & _ & p & ->). rewrite app_length in LO. cbn in LO. destruct p; [reflexivity|cbn in LO; lia]. }
    split.
    - split; [discriminate|]. intros y. unfold ProofsUnknown.val. rewrite V. cbn [fst snd]. split; [|split].
      + split; [reflexivity|]. split; [exact (conj I I)|]. exists []. reflexivity.
      + unfold missing. cbn [lacking]. rewrite Nat.add_0_r.
        apply rep_emit; [|unfold blim; lia]. unfold no_start.
        destruct (@st_start lg H ST y) as [SM|E].
        * assert (Beqb (h_start H y : b64) b64_min_float = false) as ->.
          { rewrite Beqb_correct by (apply SM || apply bfin_min).
            apply Req_bool_false. pose proof (small_le _ SM). pose proof min_float_low. pose proof U_small.
            assert (bpow radix2 279 < bpow radix2 333) by (apply bpow_lt; lia). lra. }
          split; [apply small_bfin; auto|]. split; [lia|]. left. split; auto. simpl INR. rewrite Rmult_1_l.
          apply small_le; auto.
        * rewrite E. assert (Beqb b64_min_float b64_min_float = true) as -> by (vm_compute; reflexivity).
          split; [apply bfin_min|]. split; [lia|]. right. split; [lia|]. symmetry. apply mins_1.
      + intros o UO. rewrite (UP y o UO). lia.
    - split; [cbn; lia|]. intros y o UO _. rewrite (UP y o UO), V. left. reflexivity.
  Qed.

  Lemma good_all obs : forall n cs v, good n cs v -> blim (n + 2 * length obs) ->
    good (n + 2 * length obs) (cs ++ obs) (fold_left (vit_step H) obs v).
  Proof.
    induction obs as [|c obs IH]; intros n cs v G L.
    - cbn [length fold_left]. rewrite app_nil_r. replace (n + 2 * 0)%nat with n by lia. auto.
    - cbn [length fold_left] in *. replace (n + 2 * S (length obs))%nat with (S (S n) + 2 * length obs)%nat in * by lia.
      replace (cs ++ c :: obs) with ((cs ++ [c]) ++ obs) by (rewrite <- app_assoc; reflexivity).
      apply IH; auto. apply good_step; auto. eapply blim_le; [|exact L]. lia.
  Qed.
  Lemma tied_all obs : forall n cs v d, good n cs v -> tied d cs v ->
    (forall y, (0 < mis cs (path v y))%nat) -> blim (n + 2 * length obs) ->
    tied d (cs ++ obs) (fold_left (vit_step H) obs v).
  Proof.
    induction obs as [|c obs IH]; intros n cs v d G T POS L.
    - cbn [length fold_left]. rewrite app_nil_r. auto.
    - cbn [length fold_left] in *. replace (n + 2 * S (length obs))%nat with (S (S n) + 2 * length obs)%nat in * by lia.
      replace (cs ++ c :: obs) with ((cs ++ [c]) ++ obs) by (rewrite <- app_assoc; reflexivity).
      assert (L' : blim (S (S n))) by (eapply blim_le; [|exact L]; lia).
      destruct (good_step n cs c v G L') as [G' T'].
      apply (IH (S (S n))); auto. intros y. destruct G as [NE G]. destruct G' as [_ G'].
      destruct (G' y) as (UY & _ & _). destruct (upto_snoc _ _ _ _ UY NE) as (a & o & E & F & UO).
      rewrite E, mis_snoc by (apply UO || eapply upto_nonempty; eauto).
      destruct (G a) as (_ & _ & MA). specialize (MA o UO). specialize (POS a). lia.
  Qed.

  Lemma mis_unknown u c v o : length o = length (u ++ c :: v) -> unknown H c -> (0 < mis (u ++ c :: v) o)%nat.
  Proof.
    intros L UN. unfold missing. enough (0 < lacking H (u ++ c :: v) o)%nat by lia.
    revert o L. induction u as [|d u IH]; intros o L; destruct o as [|y o]; try discriminate; cbn [app lacking].
    - unfold lacks. rewrite (UN y). lia.
    - cbn in L. specialize (IH o). lia.
  Qed.

  Lemma tied_from u c w a obs : unknown H c -> u ++ c :: w = a :: obs -> blim (2 * length (a :: obs)) ->
    tied (Nat.pred (length u)) (a :: obs) (fold_left (vit_step H) obs (vit_init H a)).
  Proof.
    intros UN E L. destruct (good_init a) as [G0 T0]. cbn [length] in L. destruct u as [|b u]; cbn in E; injection E as <- <-.
    - cbn [length Nat.pred]. change (c :: w) with ([c] ++ w). apply (tied_all w 2); auto; [|eapply blim_le; [|exact L]; lia].
      intros y. destruct G0 as [_ G0]. destruct (G0 y) as (UY & _). apply (mis_unknown [] c []); auto. apply UY.
    - rewrite !app_length in L. cbn [length] in L.
      assert (G1 : good (2 + 2 * length u) ([b] ++ u) (fold_left (vit_step H) u (vit_init H b))).
      { apply good_all; auto. eapply blim_le; [|exact L]. lia. }
      set (v := fold_left (vit_step H) u (vit_init H b)) in *.
      assert (T1 : tied (Nat.pred (length (b :: u))) (b :: u) v).
      { split; [cbn; lia|]. destruct G1 as [_ G1]. intros y o UO _. destruct (G1 y) as (UY & _).
        destruct UO as (LO & _ & p & ->). destruct UY as (LY & _ & q & EY). rewrite EY in *. cbn [app] in LY.
        rewrite app_length in LO, LY. cbn [length] in LO, LY. cbn [length Nat.pred].
        rewrite !skipn_snoc by lia. left. f_equal. rewrite !skipn_all2 by lia. reflexivity. }
      assert (L2 : blim (S (S (2 + 2 * length u)))) by (eapply blim_le; [|exact L]; lia).
      destruct (good_step _ _ c v G1 L2) as [G2 T2]. specialize (T2 _ T1 (or_introl UN)).
      replace (b :: u ++ c :: w) with (([b] ++ u) ++ [c] ++ w) by reflexivity.
      replace (fold_left (vit_step H) (u ++ c :: w) (vit_init H b)) with (fold_left (vit_step H) w (vit_step H v c))
        by (unfold v; rewrite fold_left_app; reflexivity).
      rewrite app_assoc. apply (tied_all w _ _ _ _ G2 T2).
      + intros y. destruct G2 as [_ G2]. destruct (G2 y) as ((LY & _) & _).
        apply (mis_unknown ([b] ++ u) c []); auto.
      + eapply blim_le; [|exact L]. lia.
  Qed.

  (** ** The labels that [viterbi] chooses *)

  Theorem viterbi_missing a obs : blim (2 * length (a :: obs)) ->
    let s := a :: obs in let l := snd (viterbi H a obs) in
    labelling s l /\
    (forall o, labelling s o -> (mis s l <= mis s o)%nat) /\
    (forall u c w, s = u ++ c :: w -> unknown H c ->
       forall o, labelling s o -> mis s o = mis s l -> not_above (skipn (Nat.pred (length u)) o) (skipn (Nat.pred (length u)) l)).
  Proof.
    intros L s l. destruct (viterbi_path H a obs) as (PL & PC & PF). fold l in PL, PC, PF.
    split; [split; [exact PL|auto]|].
    destruct (good_init a) as [G0 _].
    assert (G : good (2 + 2 * length obs) s (fold_left (vit_step H) obs (vit_init H a))).
    { apply (good_all obs 2 [a]); auto. cbn [length] in L. eapply blim_le; [|exact L]. lia. }
    set (v := fold_left (vit_step H) obs (vit_init H a)) in *.
    assert (LB : blim (2 + 2 * length obs)) by (cbn [length] in L; eapply blim_le; [|exact L]; lia).
    destruct G as [NE G].
    assert (CH : exists y, (y = LE \/ y = LS) /\ l = path v y /\
      forall y', y' = LE \/ y' = LS -> B2R (val v y') <= B2R (val v y) /\
        (B2R (val v y') = B2R (val v y) -> (label_code y' <= label_code y)%N)).
    { unfold l, viterbi. fold v. unfold max_from. cbn [fold_left].
      assert (FF : forall y, is_finite (val v y) = true) by (intros y; destruct (G y) as (_ & [[X _] _] & _); exact X).
      match goal with |- context [tup_gt ?n ?o ?p ?q] =>
        change (tup_gt n o p q) with (tup_gt numB label_gt (val v LS, LS) (val v LE, LE)) end.
      destruct (tup_gt numB label_gt (val v LS, LS) (val v LE, LE)) eqn:T.
      - exists LS. split; auto. split; [reflexivity|]. apply tup_finite in T; auto.
        intros y' [-> | ->]; (split; [|intros _; cbn; lia]); destruct T as [T|[T _]]; lra.
      - exists LE. split; auto. split; [reflexivity|].
        assert (NT : ~ (B2R (val v LE) < B2R (val v LS) \/ (B2R (val v LS) = B2R (val v LE) /\ label_gt LS LE = true))).
        { intros X. apply (tup_finite lg label_gt _ _ LS LE (FF LS) (FF LE)) in X. congruence. }
        intros y' [-> | ->]; (split; [|]); try lra; try (intros _; cbn; lia).
        + intros E. exfalso. apply NT. right. split; auto. }
    destruct CH as (y & HY & EL & BEST).
    assert (LAB : forall o, labelling s o -> exists y', (y' = LE \/ y' = LS) /\ upto s y' o).
    { intros o (LO & CO & p & y' & E & HY'). exists y'. split; auto. split; auto. split; auto. eauto. }
    assert (STEP : forall y', y' = LE \/ y' = LS -> (mis s (path v y) <= mis s (path v y'))%nat).
    { intros y' HY'. apply Nat.nlt_ge. intros LT. destruct (G y) as (_ & RY & _). destruct (G y') as (_ & RY' & _).
      pose proof (rep_order _ _ _ _ _ RY' RY LB LT). destruct (BEST y' HY'). lra. }
    rewrite EL. split.
    - intros o LO. destruct (LAB o LO) as (y' & HY' & UO). destruct (G y') as (_ & _ & MY). specialize (MY o UO).
      specialize (STEP y' HY'). lia.
    - intros u c w ES UN o LO EQ. destruct (LAB o LO) as (y' & HY' & UO).
      assert (T : tied (Nat.pred (length u)) s v) by (apply (tied_from u c w a obs); auto).
      destruct T as [LD T]. destruct (G y') as ((LY' & CY' & py' & EY') & RY' & MY'). pose proof (MY' o UO) as M1. pose proof (STEP y' HY') as M2.
      assert (E1 : mis s (path v y') = mis s (path v y)) by lia.
      destruct (G y) as (UY & RY & MY). destruct UY as (LY & CY & py & EY).
      assert (EV : B2R (val v y') = B2R (val v y)).
      { rewrite E1 in RY'. apply (rep_equal _ _ _ _ RY' RY). rewrite ES. apply (mis_unknown u c w); auto. rewrite <- ES. exact LY. }
      destruct (BEST y' HY') as [_ TB]. specialize (TB EV).
      destruct (N.eq_dec (label_code y') (label_code y)) as [EC|NC].
      + assert (y' = y) as -> by (destruct y', y; cbn in EC; congruence). apply T; auto.
      + destruct UO as (LO' & CO' & po & EO'). rewrite EO', EY in *. rewrite app_length in LO', LY. cbn [length] in LO', LY.
        rewrite !skipn_snoc by lia. apply not_above_last; [rewrite !skipn_length; lia|lia].
  Qed.
End Count.

(** ** The words behind the last place where labels may differ *)

Definition stops (y : label) : Prop := y = LE \/ y = LS.

Lemma decode_split u : forall p cur r q, length p = length u -> (exists p' y, p = p' ++ [y] /\ stops y) ->
  decode cur (u ++ r) (p ++ q) = decode cur u p ++ decode [] r q.
Proof.
  induction u as [|c u IH]; intros p cur r q L (p' & y & E & SY).
  - destruct p; [|discriminate]. destruct p'; discriminate.
  - destruct p as [|x p]; [discriminate|]. cbn [length] in L. injection L as L. cbn [app].
    destruct p as [|z p].
    + destruct u; [|discriminate]. destruct p' as [|? p']; cbn in E;
        [injection E as ->|injection E as _ E; destruct p'; discriminate].
      destruct SY as [-> | ->]; reflexivity.
    + assert (EX : exists p' y, z :: p = p' ++ [y] /\ stops y).
      { destruct p' as [|? p']; cbn in E; [discriminate|]. injection E as E1 E2. exists p', y. auto. }
      destruct x; cbn [decode]; rewrite IH; auto.
Qed.

Lemma decode_front x : forall p cur xr pr, length p = length x ->
  exists ws cur', decode cur (x ++ xr) (p ++ pr) = ws ++ decode cur' xr pr /\
    (length (concat ws) <= length cur + length x)%nat.
Proof.
  induction x as [|c x IH]; intros p cur xr pr L; destruct p as [|y p]; try discriminate.
  - exists [], cur. split; [reflexivity|]. cbn. lia.
  - cbn [length] in L. injection L as L. cbn [app].
    destruct y; cbn [decode].
    + destruct (IH p [c] xr pr L) as (ws & cur' & E & LE). exists ws, cur'. split; auto. cbn [length] in *. lia.
    + destruct (IH p (cur ++ [c]) xr pr L) as (ws & cur' & E & LE). exists ws, cur'. split; auto.
      rewrite app_length in LE. cbn [length] in *. lia.
    + destruct (IH p [] xr pr L) as (ws & cur' & E & LE). exists ((cur ++ [c]) :: ws), cur'. rewrite E. split; auto.
      cbn [concat]. rewrite !app_length. cbn [length] in *. lia.
    + destruct (IH p [] xr pr L) as (ws & cur' & E & LE). exists ([c] :: ws), cur'. rewrite E. split; auto.
      cbn [concat]. rewrite !app_length. cbn [length] in *. lia.
Qed.
Lemma decode_one m : forall cur x z e, length m = length x -> Forall (fun y => ~ stops y) m -> stops e ->
  exists w, decode cur (x ++ [z]) (m ++ [e]) = [w].
Proof.
  induction m as [|y m IH]; intros cur x z e L F SE; destruct x as [|c x]; try discriminate.
  - destruct SE as [-> | ->]; cbn; eauto.
  - cbn [length] in L. injection L as L. inversion F as [|? ? NS F']; subst. cbn [app].
    destruct y; cbn [decode]; auto; destruct NS; unfold stops; auto.
Qed.

Lemma first_stop q : final q -> exists m e r, q = m ++ e :: r /\ Forall (fun y => ~ stops y) m /\ stops e.
Proof.
  intros (q' & y & -> & SY). induction q' as [|x q' IH].
  - exists [], y, []. auto.
  - destruct IH as (m & e & r & E & F & SE). cbn [app]. rewrite E.
    destruct x; [exists (LB :: m), e, r|exists (LM :: m), e, r|exists [], LE, (m ++ e :: r)|exists [], LS, (m ++ e :: r)];
      (split; [reflexivity|split; [|unfold stops; auto]]); auto; constructor; auto; unfold stops; intros [|]; discriminate.
Qed.

Lemma final_skip l n : final l -> (n < length l)%nat -> final (skipn n l).
Proof.
  intros (p & y & -> & SY) LT. rewrite app_length in LT. cbn in LT. rewrite skipn_snoc by lia. exists (skipn n p), y. auto.
Qed.

Lemma chain_app_l p q : chain (p ++ q) -> chain p.
Proof.
  revert p. induction q as [|y q IH]; intros p; [rewrite app_nil_r; auto|].
  replace (p ++ y :: q) with ((p ++ [y]) ++ q) by (rewrite <- app_assoc; reflexivity). intros C.
  eapply chain_front. apply IH. exact C.
Qed.

Lemma same_words u c v l1 l2 :
  labelling (u ++ c :: v) l1 -> labelling (u ++ c :: v) l2 -> skipn (length u) l1 = skipn (length u) l2 ->
  exists a1 a2 b,
    decode [] (u ++ c :: v) l1 = a1 ++ b /\ decode [] (u ++ c :: v) l2 = a2 ++ b /\
    concat a1 = concat a2 /\ (length u < length (concat a1))%nat /\
    (exists a w, a1 = a ++ [w] /\ (length (concat a) <= length u)%nat) /\
    (exists a w, a2 = a ++ [w] /\ (length (concat a) <= length u)%nat).
Proof.
  intros (L1 & C1 & F1) (L2 & C2 & F2) ES. rewrite app_length in L1, L2. cbn [length] in L1, L2.
  destruct (first_stop (skipn (length u) l1)) as (m & e & r & EQ & NS & SE); [apply final_skip; auto; lia|].
  assert (X : forall l, length l = (length u + S (length v))%nat -> chain l -> skipn (length u) l = m ++ e :: r ->
    exists a, decode [] (u ++ c :: v) l = a ++ decode [] (skipn (S (length m)) (c :: v)) r /\
      concat a = u ++ firstn (S (length m)) (c :: v) /\
      exists a' w, a = a' ++ [w] /\ (length (concat a') <= length u)%nat).
  { intros l L C E. rewrite <- (firstn_skipn (length u) l) in C |- *. rewrite E in *.
    assert (LP : length (firstn (length u) l) = length u) by (rewrite firstn_length; lia).
    set (p := firstn (length u) l) in *.
    assert (LM : (S (length m) <= S (length v))%nat).
    { pose proof (skipn_length (length u) l) as SL. rewrite E in SL. rewrite app_length in SL. cbn [length] in SL. lia. }
    assert (EU : u ++ c :: v = (u ++ firstn (S (length m)) (c :: v)) ++ skipn (S (length m)) (c :: v))
      by (rewrite <- app_assoc, firstn_skipn; reflexivity).
    rewrite EU. clear EU.
    replace (p ++ m ++ e :: r) with ((p ++ m ++ [e]) ++ r) in * by (rewrite <- !app_assoc; reflexivity).
    assert (LF : length (firstn (S (length m)) (c :: v)) = S (length m)) by (rewrite firstn_length; cbn [length]; lia).
    rewrite decode_split.
    2:{ rewrite !app_length, LP, LF. cbn [length]. lia. }
    2:{ exists (p ++ m), e. rewrite <- app_assoc. auto. }
    set (x := firstn (S (length m)) (c :: v)) in *.
    exists (decode [] (u ++ x) (p ++ m ++ [e])). split; [reflexivity|]. split.
    - apply (@decode_concat None [] (u ++ x) (p ++ m ++ [e])); [rewrite !app_length, LP, LF; cbn [length]; lia|exact eq_refl| |].
      + apply chain_app_l in C. exact C.
      + assert (final (p ++ m ++ [e])) by (exists (p ++ m), e; rewrite <- app_assoc; auto).
        unfold final_from. destruct (p ++ m ++ [e]) eqn:EE; auto. destruct p, m; discriminate.
    - destruct (decode_front u p [] x (m ++ [e]) LP) as (ws & cur' & EW & LW).
      destruct (exists_last (l:=x)) as (x' & z & EX); [intros EN; rewrite EN in LF; discriminate|].
      rewrite EX in LF. rewrite app_length in LF. cbn [length] in LF.
      assert (LX : length m = length x') by lia.
      destruct (decode_one m cur' x' z e LX NS SE) as [w EO]. rewrite <- EX in EO.
      exists ws, w. rewrite EW. split; [|exact LW]. f_equal. exact EO. }
  destruct (X l1) as (a1 & D1 & K1 & W1); auto. destruct (X l2) as (a2 & D2 & K2 & W2); auto; [congruence|].
  exists a1, a2, (decode [] (skipn (S (length m)) (c :: v)) r).
  split; auto. split; auto. split; [congruence|]. split; auto.
  rewrite K1, app_length. cbn [firstn length]. lia.
Qed.
