(** * The HMM stage computes a best label sequence *)
From Coq Require Import Reals Lra.
From Verif Require Import PyBase PyNum ModelFinalseg SpecBase SpecHmm SpecNum ProofsBase ProofsFinalseg ProofsOpt.
Set Implicit Arguments.

Section Vit.
  Variable num : Num.
  Variable O : NumOrder num.
  Variable H : hmm num.

  (** all table entries are finite numbers *)
  Definition hmm_finite : Prop :=
    (forall y, o_fin O (h_start H y)) /\
    (forall y0 y x, h_trans H y0 y = Some x -> o_fin O x) /\
    (forall y c x, h_emit H y c = Some x -> o_fin O x).
  Hypothesis FIN : hmm_finite.

  Lemma entry_trans y0 y : o_fin O (entry _ (h_trans H y0 y)).
  Proof. destruct FIN as [_ [F2 _]]. unfold entry. destruct (h_trans H y0 y) eqn:E; eauto. apply o_min_float. Qed.
  Lemma entry_emit y c : o_fin O (entry _ (h_emit H y c)).
  Proof. destruct FIN as [_ [_ F3]]. unfold entry. destruct (h_emit H y c) eqn:E; eauto. apply o_min_float. Qed.

  Lemma last_default (ls : list label) z d : last ls z = last (z :: ls) d.
  Proof.
    revert z. induction ls as [|x ls IH]; intros z; [reflexivity|].
    change (last (z :: x :: ls) d) with (last (x :: ls) d). rewrite <- (IH x).
    destruct ls as [|w ls]; [reflexivity|]. change (last (x :: w :: ls) z) with (last (w :: ls) z).
    clear IH. revert w. induction ls as [|u ls IH]; intros w; [reflexivity|]. apply (IH u).
  Qed.

  Lemma score_from_snoc acc y0 cs ls c a y :
    length ls = length cs -> last ls y0 = a ->
    score_from H acc y0 (cs ++ [c]) (ls ++ [y]) =
    f_add num (f_add num (score_from H acc y0 cs ls) (entry _ (h_trans H a y))) (entry _ (h_emit H y c)).
  Proof.
    revert acc y0 ls. induction cs as [|d cs IH]; intros acc y0 ls L E; destruct ls as [|z ls]; try discriminate.
    - simpl in *. subst. reflexivity.
    - cbn [app score_from]. apply IH; [simpl in L; lia|].
      rewrite <- E. apply last_default.
  Qed.

  Lemma label_score_snoc cs ls a y c :
    length (ls ++ [a]) = length cs ->
    label_score H (cs ++ [c]) ((ls ++ [a]) ++ [y]) =
    f_add num (f_add num (label_score H cs (ls ++ [a])) (entry _ (h_trans H a y))) (entry _ (h_emit H y c)).
  Proof.
    intros L. destruct cs as [|d cs]; [rewrite app_length in L; simpl in L; lia|].
    destruct ls as [|z ls].
    - simpl in *. destruct cs; [reflexivity|discriminate].
    - cbn [app label_score]. apply score_from_snoc; [simpl in L; lia|].
      apply last_last.
  Qed.

  Definition col_best (cs : str) (v : column num) : Prop :=
    forall y,
      o_dom O (fst (col_get v y)) /\
      fst (col_get v y) = label_score H cs (snd (col_get v y)) /\
      (exists ls, snd (col_get v y) = ls ++ [y] /\ length (ls ++ [y]) = length cs) /\
      forall ls, length (ls ++ [y]) = length cs -> chain (ls ++ [y]) ->
        (o_val O (label_score H cs (ls ++ [y])) <= o_val O (fst (col_get v y)))%R
        /\ o_dom O (label_score H cs (ls ++ [y])).

  Lemma vit_init_best c : col_best [c] (vit_init H c).
  Proof.
    intros y. unfold vit_init. rewrite col_get_make. cbn [fst snd].
    assert (D : o_dom O (f_add num (h_start H y) (get_or num (h_emit H y c)))).
    { apply o_add_l; [apply FIN|]. apply o_fin_dom. apply entry_emit. }
    split; auto. split; [reflexivity|]. split; [exists []; auto|].
    intros ls L _. rewrite app_length in L. destruct ls as [|a ls]; [|simpl in L; lia].
    split; [simpl; apply Rle_refl|exact D].
  Qed.

  Lemma chain_snoc_inv ls a b : chain ((ls ++ [a]) ++ [b]) -> chain (ls ++ [a]) /\ follows a b.
  Proof.
    induction ls as [|x ls IH]; simpl.
    - tauto.
    - intros [H1 H2]. apply IH in H2. destruct ls; simpl in *; tauto.
  Qed.

  Lemma follows_prev a b : follows a b -> a = fst (prev_status b) \/ a = snd (prev_status b).
  Proof. destruct a, b; simpl; tauto. Qed.

  Lemma cand_max (p q : F num * label) :
    o_dom O (fst p) -> o_dom O (fst q) ->
    let m := max_from (tup_gt num label_gt) p [q] in
    (m = p \/ m = q) /\ (o_val O (fst p) <= o_val O (fst m))%R /\ (o_val O (fst q) <= o_val O (fst m))%R.
  Proof.
    intros Dp Dq. unfold max_from. simpl. destruct (tup_gt num label_gt q p) eqn:E.
    - apply (tup_gt_spec O) in E; auto. split; auto. destruct E as [E|[E _]]; lra.
    - apply (tup_gt_false O) in E; auto. split; auto. destruct E as [E|[E _]]; lra.
  Qed.

  Definition cand_of (v : column num) (c : char) (y y0 : label) : F num * label :=
    (f_add num (f_add num (fst (col_get v y0)) (get_or num (h_trans H y0 y))) (get_or num (h_emit H y c)), y0).

  Lemma vit_cell_max v c y :
    let m := max_from (tup_gt num label_gt) (cand_of v c y (fst (prev_status y))) [cand_of v c y (snd (prev_status y))] in
    vit_cell H v c y = (fst m, snd (col_get v (snd m)) ++ [y]).
  Proof.
    unfold vit_cell, cand_of. destruct (prev_status y) as [a b]. cbn [fst snd].
    destruct (max_from _ _ _) as [p s]. reflexivity.
  Qed.

  Lemma vit_step_best cs v c : col_best cs v -> col_best (cs ++ [c]) (vit_step H v c).
  Proof.
    intros CB y. unfold vit_step. rewrite col_get_make. rewrite vit_cell_max. cbv zeta.
    set (cand := cand_of v c y).
    assert (FE : o_fin O (get_or num (h_emit H y c))) by apply entry_emit.
    assert (DC : forall y0, o_dom O (fst (cand y0))).
    { intros y0. unfold cand, cand_of; simpl. apply o_add_r; auto. apply o_add_r; [apply entry_trans|]. apply CB. }
    pose proof follows_prev as FP.
    destruct (prev_status y) as [a b] eqn:EP. cbn [fst snd].
    destruct (@cand_max (cand a) (cand b) (DC a) (DC b)) as [MC [MA MB]].
    set (m := max_from (tup_gt num label_gt) (cand a) [cand b]) in *.
    assert (EX : exists y0, m = cand y0) by (destruct MC; eauto).
    destruct EX as [y0 EM]. rewrite EM in *.
    change (snd (cand y0)) with y0. cbn [fst snd].
    destruct (CB y0) as [D0 [S0 [[l0 [P0 L0]] _]]].
    split; auto. split; [|split].
    - rewrite P0, label_score_snoc by auto. unfold cand, cand_of. cbn [fst]. rewrite S0, P0. reflexivity.
    - exists (l0 ++ [y0]). rewrite P0. split; auto. rewrite !app_length in *. simpl in *. lia.
    - intros ls L CH.
      destruct (exists_last (l:=ls)) as [l1 [z E1]].
      { intros ->. rewrite !app_length in *. simpl in *. lia. }
      subst ls. destruct (chain_snoc_inv _ _ _ CH) as [CH1 FO].
      assert (L1 : length (l1 ++ [z]) = length cs) by (rewrite !app_length in *; simpl in *; lia).
      rewrite label_score_snoc by auto.
      destruct (CB z) as [Dz [_ [_ BZ]]]. destruct (BZ l1 L1 CH1) as [LE D1].
      assert (Mz : (o_val O (fst (cand z)) <= o_val O (fst (cand y0)))%R).
      { apply FP in FO. rewrite EP in FO. simpl in FO. destruct FO as [-> | ->]; auto. }
      split.
      + eapply Rle_trans; [|exact Mz]. unfold cand, cand_of. cbn [fst].
        apply (o_mono_r _ O); auto.
        * apply o_add_r; [apply entry_trans|auto].
        * apply o_add_r; [apply entry_trans|auto].
        * apply (o_mono_r _ O); auto. apply entry_trans.
      + apply o_add_r; [apply entry_emit|]. apply o_add_r; [apply entry_trans|auto].
  Qed.

  Lemma vit_fold_best obs cs v : col_best cs v -> col_best (cs ++ obs) (fold_left (vit_step H) obs v).
  Proof.
    revert cs v. induction obs as [|c obs IH]; intros cs v CB; simpl.
    - rewrite app_nil_r. auto.
    - replace (cs ++ c :: obs) with ((cs ++ [c]) ++ obs) by (rewrite <- app_assoc; reflexivity).
      apply IH. apply vit_step_best; auto.
  Qed.

  Lemma viterbi_best c obs :
    fst (viterbi H c obs) = label_score H (c :: obs) (snd (viterbi H c obs)) /\
    forall ls, length ls = length (c :: obs) -> chain ls -> final ls ->
      (o_val O (label_score H (c :: obs) ls) <= o_val O (fst (viterbi H c obs)))%R.
  Proof.
    pose proof (@vit_fold_best obs [c] (vit_init H c) (vit_init_best c)) as CB. cbn [app] in CB.
    unfold viterbi. set (v := fold_left (vit_step H) obs (vit_init H c)) in *.
    destruct (CB LE) as [DE [SE [_ BE]]]. destruct (CB LS) as [DS [SS [_ BS]]].
    destruct (@cand_max (fst (col_get v LE), LE) (fst (col_get v LS), LS) DE DS) as [MC [MA MB]].
    set (m := max_from (tup_gt num label_gt) (fst (col_get v LE), LE) [(fst (col_get v LS), LS)]) in *.
    assert (BEST : forall ls, length ls = length (c :: obs) -> chain ls -> final ls ->
      (o_val O (label_score H (c :: obs) ls) <= o_val O (fst m))%R).
    { intros ls L CH [l' [y [-> HY]]]. destruct HY as [-> | ->].
      - eapply Rle_trans; [apply BE; auto|exact MA].
      - eapply Rle_trans; [apply BS; auto|exact MB]. }
    destruct m as [p y]. cbn [fst snd] in *. destruct MC as [MC|MC]; inversion MC; subst; auto.
  Qed.
End Vit.
