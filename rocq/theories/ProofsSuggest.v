(** * suggested frequencies, in exact arithmetic *)
From Coq Require Import Reals Lra.
From Verif Require Import PyBase PyRegex PyNum ModelFinalseg ModelSeg ModelDict SpecBase SpecSeg SpecNum SpecScore
  SpecDict SpecHealth InstR ProofsBase ProofsRegex ProofsSplit ProofsDag ProofsFinalseg ProofsSeg ProofsOpt ProofsNoHmm
  ProofsDict ProofsTotal ProofsDemo.
Set Implicit Arguments.

Lemma healthy_sane fr T : healthy fr T -> sane (sget fr) T.
Proof. intros [PC [P [ND [NN S]]]]. split; auto. intros w n E. apply sget_In in E. eauto. Qed.

Lemma healthy_get fr T w n : healthy fr T -> sget fr w = Some n -> (0 <= n <= T)%Z.
Proof.
  intros [PC [P [ND [NN S]]]] E. split; [apply sget_In in E; eauto|].
  pose proof (sum_of_get _ _ NN E). lia.
Qed.

Lemma healthy_weight fr T w : healthy fr T -> (1 <= weight_of (sget fr) w <= T)%Z.
Proof.
  intros HE. unfold weight_of. destruct (sget fr w) as [n|] eqn:E.
  - pose proof (healthy_get _ HE E). destruct (Z.eqb_spec n 0); [|lia]. destruct HE as [_ [P _]]. lia.
  - destruct HE as [_ [P _]]. lia.
Qed.

Lemma healthy_add fr T w f : healthy fr T -> (0 <= f)%Z -> healthy (add_prefixes (sset fr w f) w) (T + f).
Proof.
  intros [PC [P TO]] L. split; [apply add_closed; auto|]. split; [lia|apply total_ok_add; auto].
Qed.

(** ** Runs *)

Lemma runs_whole (p : char -> bool) s b : s <> [] -> Forall (fun c => p c = b) s -> runs p s = [(b, s)].
Proof.
  induction s as [|c s IH]; [congruence|]. intros _ F. inversion F; subst. simpl.
  destruct s as [|d s]; [reflexivity|]. rewrite IH; auto; [|discriminate]. rewrite eqb_reflx. reflexivity.
Qed.

(** ** Candidates *)

Lemma candidate_partition D s ws : candidate D s ws -> partition s ws.
Proof.
  revert s. induction ws as [|w ws IH]; intros s C; simpl in C.
  - subst. split; auto.
  - destruct C as [s' [-> [NE [_ C]]]]. destruct (IH _ C) as [E F]. split; [simpl; congruence|auto].
Qed.

Lemma candidate_one D w : w <> [] -> is_word D w -> candidate D w [w].
Proof. intros NE W. exists []. rewrite app_nil_r. simpl. auto. Qed.

Lemma partition_head_long (w : str) x xs : partition w (x :: xs) -> length w <= length x -> x = w /\ xs = [].
Proof.
  intros [E F] L. simpl in E. subst w. rewrite app_length in L. inversion F; subst.
  destruct xs as [|y xs]; [simpl; rewrite app_nil_r; auto|].
  inversion H2; subst. simpl in L. rewrite app_length in L. destruct y; [congruence|simpl in L; lia].
Qed.

Section R.
  Variable H : hmm numR.
  Notation chosen := (chosen numR).

  Lemma score_le_prob fr T a b :
    sane (sget fr) T ->
    (score numR (sget fr) T a <= score numR (sget fr) T b)%R <-> (prob (sget fr) T a <= prob (sget fr) T b)%R.
  Proof.
    intros [P NN]. rewrite !score_ln_prob by auto. split.
    - intros L. apply ln_le_inv; auto using prob_pos.
    - intros L. destruct (Rle_lt_or_eq_dec _ _ L) as [L1| ->]; [|lra].
      left. apply ln_increasing; auto using prob_pos.
  Qed.

  Lemma chosen_prob fr T s ws :
    sane (sget fr) T -> prefix_closed (sget fr) -> candidate (sget fr) s ws ->
    (prob (sget fr) T ws <= prob (sget fr) T (chosen fr T s))%R.
  Proof.
    intros SA PC C. apply score_le_prob; auto. apply (@chosen_best numR orderR fr T s ws SA PC C).
  Qed.

  Lemma chosen_whole fr T w :
    sane (sget fr) T -> prefix_closed (sget fr) -> w <> [] -> is_word (sget fr) w ->
    (prob (sget fr) T (chosen fr T w) <= prob (sget fr) T [w])%R ->
    chosen fr T w = [w].
  Proof.
    intros SA PC NE W L. pose proof (chosen_candidate numR w SA PC) as C. apply candidate_partition in C.
    destruct (chosen fr T w) as [|x xs] eqn:E.
    - destruct C as [C _]. simpl in C. congruence.
    - assert (LX : length w <= length x).
      { eapply (@chosen_longest numR orderR fr T w [] x xs w []); auto.
        - destruct C as [-> _]. apply candidate_one; auto.
        - apply (proj2 (score_le_prob (x :: xs) [w] SA)). exact L. }
      destruct (partition_head_long C LX) as [-> ->]. reflexivity.
  Qed.

  Lemma cut_chosen_whole fr T force HMM w :
    sane (sget fr) T -> w <> [] -> Forall (fun c => word_char c = true) w ->
    chosen fr T w = [w] -> cut numR H (mode_of false HMM) fr T force w = gof [w].
  Proof.
    intros SA NE FW EC. destruct HMM.
    - simpl. rewrite cut_runs_accurate by reflexivity. rewrite (@runs_whole word_char w true NE FW). simpl.
      destruct SA as [P NN]. unfold ProofsNoHmm.chosen in EC.
      destruct (calc_total numR fr T w P NN) as [route E]. rewrite E in EC.
      rewrite (cut_hmm_block_eq H fr T force w E), EC. simpl.
      unfold cut_buf. destruct (length w =? 1) eqn:E1; [|reflexivity].
      destruct w; [congruence|]. cbn [app flush_hmm]. unfold cut_buf. rewrite E1. reflexivity.
    - simpl mode_of. rewrite cut_nohmm_text by auto. rewrite (@runs_whole word_char w true NE FW). simpl. rewrite EC. simpl.
      rewrite eng1_single. destruct (single_alnum w); [|reflexivity].
      destruct w; [congruence|]. reflexivity.
  Qed.

  (** ** Probabilities before and after an addition *)

  Lemma prob_words D T ws : (0 < T)%Z -> prob D T ws = (IZR (weights D ws) / IZR T ^ length ws)%R.
  Proof.
    intros P. assert (IZR T <> 0)%R by (apply not_0_IZR; lia).
    induction ws as [|w ws IH]; simpl; [lra|]. unfold prob in *. simpl. rewrite IH, mult_IZR.
    field. split; auto. apply pow_nonzero; auto.
  Qed.

  Lemma weight_after fr w f u :
    u <> w -> weight_of (sget (add_prefixes (sset fr w f) w)) u = weight_of (sget fr) u.
  Proof.
    intros NE. unfold weight_of. rewrite add_get. unfold after_add.
    destruct (str_eqb u w) eqn:E; [apply str_eqb_eq in E; congruence|].
    destruct (sget fr u); auto. destruct (is_prefix u w); reflexivity.
  Qed.

  Lemma is_word_after fr w f u :
    u <> w -> is_word (sget (add_prefixes (sset fr w f) w)) u <-> is_word (sget fr) u.
  Proof.
    intros NE. unfold is_word. rewrite add_get. unfold after_add.
    destruct (str_eqb u w) eqn:E; [apply str_eqb_eq in E; congruence|].
    destruct (sget fr u); [tauto|]. destruct (is_prefix u w); split; intros [n [E1 E2]]; congruence.
  Qed.

  Lemma is_word_after_self fr w f : f <> 0%Z -> is_word (sget (add_prefixes (sset fr w f) w)) w.
  Proof.
    intros NZ. exists f. rewrite add_get. unfold after_add. rewrite str_eqb_refl. auto.
  Qed.

  (** adding only removes candidates that do not use the word *)
  Lemma candidate_before fr w f s ws :
    f <> 0%Z -> ~ In w ws ->
    candidate (sget (add_prefixes (sset fr w f) w)) s ws -> candidate (sget fr) s ws.
  Proof.
    intros NZ. revert s. induction ws as [|u ws IH]; intros s NI C; simpl in *; auto.
    destruct C as [s' [-> [NE [W C]]]]. exists s'. split; auto. split; auto. split; [|apply IH; auto].
    destruct W as [W|[L W]].
    - left. apply is_word_after in W; auto.
    - right. split; auto. intros v NV PV WV. apply (W v NV PV).
      destruct (list_eq_dec N.eq_dec v w) as [->|NW]; [apply is_word_after_self; auto|].
      apply is_word_after; auto.
  Qed.

  Lemma weights_after fr w f ws :
    ~ In w ws -> weights (sget (add_prefixes (sset fr w f) w)) ws = weights (sget fr) ws.
  Proof.
    induction ws as [|u ws IH]; simpl; intros NI; auto. rewrite weight_after, IH by tauto. reflexivity.
  Qed.

  Lemma partition_no_whole (w : str) x y xs : partition w (x :: y :: xs) -> ~ In w (x :: y :: xs).
  Proof.
    intros [E F] HI. apply in_split in HI. destruct HI as [a [b EL]].
    rewrite EL in E, F. rewrite concat_app in E. simpl in E.
    apply (f_equal (@length _)) in E. rewrite !app_length in E.
    apply Forall_app in F. destruct F as [Fa Fb]. inversion Fb; subst.
    assert (A : a = []). { destruct a as [|z a]; auto. inversion Fa; subst. simpl in E. rewrite app_length in E. destruct z; [congruence|simpl in E; lia]. }
    assert (B : b = []). { destruct b as [|z b]; auto. inversion H3; subst. simpl in E. rewrite app_length in E. destruct z; [congruence|simpl in E; lia]. }
    subst. discriminate.
  Qed.

  Lemma pow_ratio a b n : (0 < a <= b)%R -> (0 < (a / b) ^ n <= 1)%R.
  Proof.
    intros [A B]. assert (R : (0 < a / b <= 1)%R).
    { split; [apply Rdiv_lt_0_compat; lra|]. apply (Rmult_le_reg_r b); [lra|]. unfold Rdiv.
      rewrite Rmult_assoc, Rinv_l by lra. lra. }
    induction n; simpl; [lra|]. split; [apply Rmult_lt_0_compat; lra|].
    replace 1%R with (1 * 1)%R by lra. apply Rmult_le_compat; lra.
  Qed.

  (** A word whose frequency is at least [total * best old probability] is kept
      whole. *)
  Lemma added_whole fr T w f :
    healthy fr T -> w <> [] -> (1 <= f)%Z ->
    (prob (sget fr) T (chosen fr T w) * IZR T <= IZR f)%R ->
    chosen (add_prefixes (sset fr w f) w) (T + f) w = [w].
  Proof.
    intros HE NE L1 LQ. assert (HE' : healthy (add_prefixes (sset fr w f) w) (T + f)) by (apply healthy_add; auto; lia).
    pose proof HE as [PC [PT _]]. pose proof HE' as [PC' [PT' _]].
    apply chosen_whole; auto using healthy_sane; [apply is_word_after_self; lia|].
    set (fr' := add_prefixes (sset fr w f) w) in *.
    pose proof (chosen_candidate numR w (healthy_sane HE') PC') as C.
    destruct (chosen fr' (T + f) w) as [|x xs] eqn:E.
    - simpl in C. congruence.
    - pose proof (candidate_partition _ _ _ C) as PA. destruct xs as [|y xs].
      + destruct PA as [PA _]. simpl in PA. rewrite app_nil_r in PA. rewrite PA. apply Rle_refl.
      + pose proof (partition_no_whole PA) as NI. set (ws := x :: y :: xs) in *.
        assert (C0 : candidate (sget fr) w ws) by (eapply (@candidate_before fr w f); eauto; lia).
        pose proof (chosen_prob _ _ (healthy_sane HE) PC C0) as B.
        rewrite prob_words in B by auto. rewrite !prob_words by auto.
        unfold fr'. rewrite weights_after by auto.
        assert (EW : weights (sget fr') [w] = f).
        { simpl. unfold weight_of, fr'. rewrite add_get. unfold after_add. rewrite str_eqb_refl.
          destruct (Z.eqb_spec f 0); lia. }
        unfold fr' in EW. rewrite EW. clear EW.
        assert (P1 : (0 < IZR T)%R) by (apply IZR_lt; lia).
        assert (P2 : (IZR T <= IZR (T + f))%R) by (apply IZR_le; lia).
        assert (P3 : (1 <= IZR f)%R) by (apply IZR_le; lia).
        assert (EQ : (IZR (weights (sget fr) ws) / IZR (T + f) ^ length ws
               = (IZR (weights (sget fr) ws) / IZR T ^ length ws) * (IZR T / IZR (T + f)) ^ length ws)%R).
        { unfold Rdiv. rewrite Rpow_mult_distr, pow_inv. field. split; apply pow_nonzero; lra. }
        rewrite EQ. unfold ws at 3. cbn [length pow]. rewrite Rmult_1_r.
        change (S (length xs)) with (length (y :: xs)).
        pose proof (@pow_ratio (IZR T) (IZR (T + f)) (length (y :: xs)) ltac:(lra)) as [R0 R1].
        change ((IZR T / IZR (T + f) * (IZR T / IZR (T + f)) ^ length xs)%R)
          with ((IZR T / IZR (T + f)) ^ length (y :: xs))%R.
        set (r := ((IZR T / IZR (T + f)) ^ length (y :: xs))%R) in *.
        assert (Q : (IZR (weights (sget fr) ws) / IZR T ^ length ws * IZR T <= IZR f)%R).
        { eapply Rle_trans; [|exact LQ]. apply Rmult_le_compat_r; lra. }
        set (q := (IZR (weights (sget fr) ws) / IZR T ^ length ws)%R) in *.
        replace (q * (IZR T / IZR (T + f) * r))%R with ((q * IZR T) * r / IZR (T + f))%R by (field; lra).
        unfold Rdiv. apply Rmult_le_compat_r; [left; apply Rinv_0_lt_compat; lra|].
        destruct (Rle_or_lt 0 (q * IZR T)) as [Q0|Q0].
        * replace (IZR f) with (IZR f * 1)%R by lra. apply Rmult_le_compat; lra.
        * assert (q * IZR T * r < 0)%R by nra. lra.
  Qed.

  (** ** The suggested frequency *)

  Lemma freq_product_R fr ft segs acc :
    ft <> 0%R ->
    freq_product numR fr ft segs acc =
    Ok (match segs, acc with
        | [], _ => acc
        | _, _ => Some (match acc with Some a => a | None => 1%R end
                  * fold_right (fun s r => IZR (freq_get fr s 1) / ft * r) 1%R segs)%R
        end).
  Proof.
    intros NZ. revert acc. induction segs as [|s segs IH]; intros acc; [reflexivity|].
    cbn [freq_product]. unfold py_float, py_div. cbn [f_of_Z numR rbind f_eq f_zero f_div].
    replace (Reqb ft 0) with false by (symmetry; apply Reqb_false; auto).
    cbn [rbind]. rewrite IH. f_equal. destruct segs as [|s' segs].
    - destruct acc; cbn [acc_mul fold_right f_mul numR]; f_equal; lra.
    - destruct acc; cbn [acc_mul f_mul numR]; f_equal; cbn [fold_right]; lra.
  Qed.

  Definition raw (fr : freqs) (T : Z) (segs : list str) : R :=
    fold_right (fun s r => IZR (freq_get fr s 1) / IZR T * r)%R 1%R segs.

  Lemma raw_bounds fr T segs : healthy fr T -> (0 <= raw fr T segs <= 1)%R.
  Proof.
    intros HE. pose proof HE as [_ [P _]]. assert (0 < IZR T)%R by (apply IZR_lt; auto).
    induction segs as [|s segs IH]; simpl; [lra|].
    assert (B : (0 <= freq_get fr s 1 <= T)%Z).
    { unfold freq_get. destruct (sget fr s) eqn:E; [eapply healthy_get; eauto|lia]. }
    assert (B1 : (0 <= IZR (freq_get fr s 1) / IZR T <= 1)%R).
    { destruct B as [B1 B2]. apply IZR_le in B1, B2. split.
      - apply Rmult_le_pos; auto. left. apply Rinv_0_lt_compat; auto.
      - apply (Rmult_le_reg_r (IZR T)); auto. unfold Rdiv. rewrite Rmult_assoc, Rinv_l by lra. lra. }
    fold (raw fr T segs) in *. split; [apply Rmult_le_pos; lra|].
    replace 1%R with (1 * 1)%R by lra. apply Rmult_le_compat; lra.
  Qed.

  (** the probability used for choosing is that of the suggestion, except that
      absent words count: then it is at most 1 / total *)
  Lemma prob_raw fr T segs :
    healthy fr T -> prob (sget fr) T segs = raw fr T segs \/ (prob (sget fr) T segs * IZR T <= 1)%R.
  Proof.
    intros HE. pose proof HE as [_ [P _]]. assert (PT : (0 < IZR T)%R) by (apply IZR_lt; auto).
    assert (PR : forall ws, (0 < prob (sget fr) T ws <= 1)%R).
    { intros ws. split; [apply prob_pos; auto; intros w n E; exact (proj1 (healthy_get _ HE E))|].
      induction ws as [|s ws IH].
      { unfold prob; simpl. idtac. apply Rle_refl. }
      cbn [prob fold_right]; fold (prob (sget fr) T ws).
      pose proof (healthy_weight s HE) as [W1 W2]. apply IZR_le in W1, W2.
      replace 1%R with (1 * 1)%R by lra. apply Rmult_le_compat.
      - apply Rmult_le_pos; [lra|]. left. apply Rinv_0_lt_compat; auto.
      - left. apply prob_pos; auto; intros w n E; exact (proj1 (healthy_get _ HE E)).
      - apply (Rmult_le_reg_r (IZR T)); auto. unfold Rdiv. rewrite Rmult_assoc, Rinv_l by lra. lra.
      - exact IH. }
    induction segs as [|s segs IH]; [left; reflexivity|].
    change (prob (sget fr) T (s :: segs)) with (IZR (weight_of (sget fr) s) / IZR T * prob (sget fr) T segs)%R.
    change (raw fr T (s :: segs)) with (IZR (freq_get fr s 1) / IZR T * raw fr T segs)%R.
    assert (D : freq_get fr s 1 = weight_of (sget fr) s \/ weight_of (sget fr) s = 1%Z).
    { unfold freq_get, weight_of. destruct (sget fr s) as [n|]; auto. destruct (Z.eqb_spec n 0); auto. }
    pose proof (PR segs) as PS.
    destruct D as [D|D].
    - destruct IH as [IH|IH]; [left; rewrite D, <- IH; reflexivity|right].
      pose proof (healthy_weight s HE) as [W1 W2]. apply IZR_le in W1, W2.
      assert (WT : (0 <= IZR (weight_of (sget fr) s) / IZR T <= 1)%R).
      { split; [apply Rmult_le_pos; [lra|left; apply Rinv_0_lt_compat; auto]|].
        apply (Rmult_le_reg_r (IZR T)); auto. unfold Rdiv. rewrite Rmult_assoc, Rinv_l by lra. lra. }
      rewrite Rmult_assoc. replace 1%R with (1 * 1)%R by lra. apply Rmult_le_compat; try lra.
      apply Rmult_le_pos; lra.
    - right. rewrite D. replace (1 / IZR T * prob (sget fr) T segs * IZR T)%R with (prob (sget fr) T segs) by (field; lra). lra.
  Qed.

  Lemma suggest_whole fr T force w :
    healthy fr T -> w <> [] ->
    Forall (fun c => word_char c = true /\ is_alnum c = false) w ->
    suggest_freq_value numR H fr T force (Whole w) =
      Ok (Z.max (Rtrunc (raw fr T (chosen fr T w) * IZR T) + 1) (freq_get fr w 1)).
  Proof.
    intros HE NE FW. pose proof HE as [PC [P _]].
    unfold suggest_freq_value, py_float. cbn [f_of_Z numR rbind].
    rewrite cut_nohmm_text by (apply healthy_sane; auto).
    assert (F1 : Forall (fun c => word_char c = true) w) by (eapply Forall_impl; [|exact FW]; intros ? [? ?]; auto).
    rewrite (@runs_whole word_char w true NE F1). simpl flat_map. rewrite app_nil_r. unfold gof, g_list. cbn [fst snd rbind].
    pose proof (chosen_candidate numR w (healthy_sane HE) PC) as C. apply candidate_partition in C.
    assert (NS : forall ws, Forall (fun c => is_alnum c = false) (concat ws) -> Forall (fun u => u <> []) ws -> merge_eng [] ws = ws).
    { induction ws as [|u ws IH]; auto. simpl. intros FA FE. apply Forall_app in FA. inversion FE; subst.
      rewrite eng1_single. assert (single_alnum u = false) as ->.
      { destruct u as [|c [|d u]]; auto. simpl. destruct FA as [FA _]. inversion FA; auto. }
      simpl. f_equal. apply IH; tauto. }
    destruct C as [C1 C2]. rewrite NS; auto.
    2:{ rewrite C1. eapply Forall_impl; [|exact FW]; intros ? [? ?]; auto. }
    rewrite freq_product_R by (apply not_0_IZR; lia). cbn [rbind].
    destruct (chosen fr T w) as [|x xs] eqn:E; [simpl in C1; congruence|].
    unfold int_freq_total. cbn [f_trunc numR f_mul rbind].
    fold (raw fr T (x :: xs)). rewrite Rmult_1_l. reflexivity.
  Qed.

  Lemma suggest_enough fr T force w f :
    healthy fr T -> w <> [] ->
    Forall (fun c => word_char c = true /\ is_alnum c = false) w ->
    suggest_freq_value numR H fr T force (Whole w) = Ok f ->
    (1 <= f)%Z /\ (prob (sget fr) T (chosen fr T w) * IZR T <= IZR f)%R.
  Proof.
    intros HE NE FW. rewrite suggest_whole by auto. intros E; inversion E. clear E.
    pose proof HE as [_ [P _]]. assert (PT : (0 < IZR T)%R) by (apply IZR_lt; auto).
    pose proof (raw_bounds (chosen fr T w) HE) as [B1 B2].
    assert (NN : (0 <= raw fr T (chosen fr T w) * IZR T)%R) by (apply Rmult_le_pos; lra).
    pose proof (Rtrunc_spec _ NN) as [T1 T2].
    set (n := Rtrunc (raw fr T (chosen fr T w) * IZR T)) in *.
    assert (N0 : (0 <= n)%Z).
    { assert (IZR (-1) < IZR n)%R by (simpl; lra). apply lt_IZR in H0. lia. }
    set (f1 := Z.max (n + 1) (freq_get fr w 1)) in *.
    assert (L1 : (n + 1 <= f1)%Z) by lia. split; [lia|].
    apply IZR_le in L1. rewrite plus_IZR in L1.
    destruct (prob_raw (chosen fr T w) HE) as [->|L]; [lra|].
    eapply Rle_trans; [exact L|]. apply IZR_le. lia.
  Qed.
End R.
