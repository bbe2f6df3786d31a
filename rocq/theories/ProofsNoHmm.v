(** * HMM=False: the result as a specification *)
From Coq Require Import Reals Lra.
From Verif Require Import PyBase PyRegex PyNum ModelFinalseg ModelSeg SpecBase SpecSeg SpecNum SpecScore
  InstR ProofsBase ProofsRegex ProofsSplit ProofsDag ProofsFinalseg ProofsSeg ProofsOpt.
Set Implicit Arguments.

Section NoHmm.
  Variable num : Num.
  Variable H : hmm num.

  (** the words chosen by the route of a block *)
  Definition chosen (fr : freqs) (total : Z) (blk : str) : list str :=
    match calc num fr total blk (get_DAG fr blk) with
    | Ok route => route_words (S (length blk)) blk route 0
    | Err _ => []
    end.

  Lemma chosen_candidate fr total blk :
    sane (sget fr) total -> prefix_closed (sget fr) ->
    candidate (sget fr) blk (chosen fr total blk).
  Proof.
    intros [T P] PC. unfold chosen. destruct (calc_total num fr total blk T P) as [route E]. rewrite E.
    rewrite <- (skipn_O blk) at 1. apply walk_candidate; auto; [lia|].
    apply (route_words_walk (fr := fr)); [eapply calc_ok; eauto|lia|lia].
  Qed.

  Lemma cut_nohmm_text fr total force s :
    sane (sget fr) total ->
    cut num H NoHMM fr total force s =
    gof (flat_map (fun br : bool * str => if fst br then merge_eng [] (chosen fr total (snd br))
                             else chars_crlf (snd br)) (runs word_char s)).
  Proof.
    intros [T P]. rewrite cut_runs_accurate by auto.
    apply gdone_gfor. intros [b r] _. simpl. destruct b; auto.
    unfold chosen. destruct (calc_total num fr total r T P) as [route E]. rewrite E.
    apply cut_nohmm_block_eq; auto.
  Qed.

  Variable O : NumOrder num.

  Lemma chosen_best fr total blk ws :
    sane (sget fr) total -> prefix_closed (sget fr) ->
    candidate (sget fr) blk ws ->
    (o_val O (score num (sget fr) total ws) <=
     o_val O (score num (sget fr) total (chosen fr total blk)))%R.
  Proof.
    intros [T P] PC CA. unfold chosen. destruct (calc_total num fr total blk T P) as [route E]. rewrite E.
    pose proof (calc_ok _ _ _ _ _ E) as [RL _].
    destruct (nth_error route 0) as [r|] eqn:EN.
    - rewrite <- (@route_value num O fr total T P blk route E (S (length blk)) 0 r) by (auto; lia).
      apply (@route_best num O fr total T P blk route E ws 0 r); auto; [lia|].
      apply walk_candidate; auto. lia.
    - apply nth_error_None in EN. lia.
  Qed.

  Lemma chosen_longest fr total blk a w b w' b' :
    sane (sget fr) total -> prefix_closed (sget fr) ->
    chosen fr total blk = a ++ w :: b ->
    candidate (sget fr) (concat (w :: b)) (w' :: b') ->
    (o_val O (score num (sget fr) total (w :: b)) <= o_val O (score num (sget fr) total (w' :: b')))%R ->
    length w' <= length w.
  Proof.
    intros [T P] PC EC CA LE. unfold chosen in EC.
    destruct (calc_total num fr total blk T P) as [route E]. rewrite E in EC.
    pose proof (calc_ok _ _ _ _ _ E) as RO.
    pose proof EC as EC0.
    destruct (@route_words_split num fr total blk route E (S (length blk)) 0 a w b ltac:(lia) ltac:(lia) EC)
      as [L [r [EN [EW ES]]]].
    cbn [Nat.add] in L, EN, EW, ES.
    assert (W : walk fr blk (length (concat a)) (w' :: b')).
    { apply walk_candidate; auto; [lia|].
      assert (PA : partition (skipn (length (concat a)) blk) (w :: b)).
      { rewrite EW. eapply walk_partition; [|lia]. eapply route_words_walk; eauto; lia. }
      destruct PA as [PA _]. rewrite <- PA. exact CA. }
    rewrite EW in LE.
    rewrite <- (@route_value num O fr total T P blk route E (S (length blk)) _ r) in LE by (auto; lia).
    pose proof (@route_longest num O fr total T P blk route E w' b' (length (concat a)) r ltac:(lia) EN W LE). lia.
  Qed.
End NoHmm.

(** every word of a candidate is a dictionary word or a single character *)
Lemma candidate_words D s ws :
  candidate D s ws -> Forall (fun w => is_word D w \/ length w = 1) ws.
Proof.
  revert s. induction ws as [|w ws IH]; intros s C; auto. simpl in C.
  destruct C as [s' [_ [_ [W C]]]]. constructor; eauto. tauto.
Qed.

Lemma merged_words (P Q : str -> Prop) ws out :
  merged ws out -> Forall P ws ->
  (forall w, P w -> Q w) ->
  (forall g, g <> [] -> Forall (fun w => single_alnum w = true) g -> Q (concat g)) ->
  Forall Q out.
Proof.
  intros M FA PQ QG. induction M as [|w ws out E M IH|g ws out NE FG HD M IH]; auto.
  - inversion FA; subst. constructor; auto.
  - apply Forall_app in FA. constructor; auto. apply IH. tauto.
Qed.

Lemma chars_crlf_words s : Forall (fun w => length w = 1 \/ w = [13; 10]%N) (chars_crlf s).
Proof.
  remember (length s) as n eqn:E. assert (L : length s <= n) by lia. clear E.
  revert s L. induction n as [|n IH]; intros [|c s] L; simpl in L; try lia; simpl; auto.
  destruct s as [|d s]; auto.
  destruct ((c =? 13) && (d =? 10))%N eqn:E.
  - apply andb_true_iff in E. destruct E as [E1 E2]. apply N.eqb_eq in E1, E2. subst.
    constructor; auto. apply IH. simpl in L. lia.
  - constructor; auto. apply IH. simpl in *. lia.
Qed.

Lemma concat_singles_alnum g :
  Forall (fun w => single_alnum w = true) g -> Forall (fun c => is_alnum c = true) (concat g).
Proof.
  induction 1 as [|w g HW _ IH]; simpl; auto. apply Forall_app. split; auto.
  destruct w as [|c [|d w]]; try discriminate. auto.
Qed.

(** ** Exact arithmetic *)

Lemma prob_pos D total ws :
  (0 < total)%Z -> (forall w n, D w = Some n -> (0 <= n)%Z) -> (0 < prob D total ws)%R.
Proof.
  intros T P. induction ws as [|w ws IH]; simpl; [lra|].
  apply Rmult_lt_0_compat; auto. apply Rdiv_lt_0_compat; apply IZR_lt; auto.
  unfold weight_of. destruct (D w) as [n|] eqn:E; [|lia]. apply P in E.
  destruct (n =? 0)%Z eqn:Z0; [lia|]. apply Z.eqb_neq in Z0. lia.
Qed.

Lemma weight_pos D w : (forall w n, D w = Some n -> (0 <= n)%Z) -> (0 < weight_of D w)%Z.
Proof.
  intros P. unfold weight_of. destruct (D w) as [n|] eqn:E; [|lia]. apply P in E.
  destruct (n =? 0)%Z eqn:Z0; [lia|]. apply Z.eqb_neq in Z0. lia.
Qed.

Lemma score_ln_prob D total ws :
  (0 < total)%Z -> (forall w n, D w = Some n -> (0 <= n)%Z) ->
  score numR D total ws = ln (prob D total ws).
Proof.
  intros T P. induction ws as [|w ws IH].
  - symmetry. apply ln_1.
  - change (score numR D total (w :: ws)) with
      (ln (IZR (weight_of D w)) - ln (IZR total) + score numR D total ws)%R.
    rewrite IH. cbn [prob fold_right]. fold (prob D total ws).
    pose proof (IZR_lt _ _ T). pose proof (IZR_lt _ _ (@weight_pos D w P)).
    pose proof (@prob_pos D total ws T P).
    rewrite ln_mult; auto.
    + f_equal. unfold Rdiv. rewrite ln_mult; auto.
      * rewrite ln_Rinv by auto. reflexivity.
      * apply Rinv_0_lt_compat. auto.
    + apply Rdiv_lt_0_compat; auto.
Qed.

Lemma ln_le_inv x y : (0 < x)%R -> (0 < y)%R -> (ln x <= ln y)%R -> (x <= y)%R.
Proof.
  intros X Y L. destruct (Rle_lt_dec x y) as [|G]; auto. apply ln_increasing in G; auto. lra.
Qed.
Lemma ln_le x y : (0 < x)%R -> (x <= y)%R -> (ln x <= ln y)%R.
Proof.
  intros X [L|E]; [left; apply ln_increasing; auto | right; congruence].
Qed.
