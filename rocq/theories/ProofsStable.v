(** * Words of a segmentation, segmented again (exact arithmetic) *)
From Coq Require Import Reals Lra.
From Verif Require Import PyBase PyRegex PyNum ModelFinalseg ModelSeg ModelDict SpecBase SpecSeg SpecNum SpecScore
  SpecDict SpecHealth InstR ProofsBase ProofsRegex ProofsSplit ProofsDag ProofsFinalseg ProofsSeg ProofsOpt ProofsNoHmm
  ProofsDict ProofsTotal ProofsWords ProofsSuggest.
Set Implicit Arguments.

Lemma candidate_split D s a b :
  candidate D s (a ++ b) ->
  exists s2, s = concat a ++ s2 /\ candidate D s2 b /\ forall b', candidate D s2 b' -> candidate D s (a ++ b').
Proof.
  revert s. induction a as [|x a IH]; intros s C; simpl in *; [exists s; auto|].
  destruct C as [s' [-> [NE [W C]]]]. destruct (IH _ C) as [s2 [-> [C2 K]]].
  exists s2. split; [rewrite app_assoc; reflexivity|]. split; auto.
  intros b' C'. exists (concat a ++ s2). auto.
Qed.

Lemma candidate_words_app D ws s b :
  Forall (is_word D) ws -> Forall (fun w => w <> []) ws -> candidate D s b -> candidate D (concat ws ++ s) (ws ++ b).
Proof.
  induction ws as [|w ws IH]; intros FW FE C; simpl; auto. inversion FW; inversion FE; subst.
  exists (concat ws ++ s). rewrite app_assoc. auto.
Qed.

(** all pieces are words, or one is a single character that is not *)
Lemma candidate_cases D s ws :
  candidate D s ws -> Forall (is_word D) ws \/ exists x, In x ws /\ ~ is_word D x.
Proof.
  revert s. induction ws as [|w ws IH]; intros s C; [left; constructor|].
  simpl in C. destruct C as [s' [-> [NE [W C]]]]. destruct W as [W|[L N]].
  - destruct (IH _ C) as [F|[x [X1 X2]]]; [left; auto|right; exists x; simpl; auto].
  - right. exists w. split; [left; auto|]. apply N; auto. exists s'. reflexivity.
Qed.


Lemma no_word_starts_prefix D s t : no_word_starts D (s ++ t) -> no_word_starts D s.
Proof. intros N u NE [v E]. apply N; auto. exists (v ++ t). subst s. rewrite app_assoc. reflexivity. Qed.

Lemma candidate_prefix D s g b : candidate D s (g ++ b) -> candidate D (concat g) g.
Proof.
  revert s. induction g as [|w g IH]; intros s C; simpl in *; auto.
  destruct C as [s' [-> [NE [W C]]]]. exists (concat g). split; auto. split; auto. split; [|eapply IH; eauto].
  destruct W as [W|[L N]]; auto. right. split; auto.
  destruct (@candidate_split _ _ _ _ C) as [s2 [-> _]]. rewrite app_assoc in N. eapply no_word_starts_prefix; eauto.
Qed.

Lemma not_word_weight D x : ~ is_word D x -> weight_of D x = 1%Z.
Proof.
  intros N. unfold weight_of. destruct (D x) as [n|] eqn:E; auto. destruct (Z.eqb_spec n 0); auto.
  exfalso. apply N. exists n. auto.
Qed.

Lemma prob_app D T a b : prob D T (a ++ b) = (prob D T a * prob D T b)%R.
Proof.
  induction a as [|x a IH]; simpl.
  - change (prob D T []) with 1%R. lra.
  - change (prob D T (x :: a ++ b)) with (IZR (weight_of D x) / IZR T * prob D T (a ++ b))%R.
    change (prob D T (x :: a)) with (IZR (weight_of D x) / IZR T * prob D T a)%R. rewrite IH. lra.
Qed.

(** candidates of a group of single characters are candidates in its place *)
Lemma singles_split (g : list str) : forall y t, Forall (fun x : str => length x = 1) g -> concat g = y ++ t ->
  exists g1 g2, g = g1 ++ g2 /\ concat g1 = y /\ concat g2 = t.
Proof.
  induction g as [|x g IH]; intros y t F E.
  - cbn in E. symmetry in E. apply app_eq_nil in E. destruct E as [-> ->]. exists [], []. auto.
  - destruct y as [|c y]; [exists [], (x :: g); auto|]. inversion F as [|? ? L F']; subst.
    destruct x as [|d [|e x]]; try discriminate L. cbn in E. injection E as -> E.
    destruct (IH _ _ F' E) as [g1 [g2 [-> [<- <-]]]]. exists ([c] :: g1), g2. auto.
Qed.
Lemma candidate_singles D ws : forall g b s,
  Forall (fun x : str => length x = 1) g -> candidate D s (g ++ b) -> candidate D (concat g) ws -> candidate D s (ws ++ b).
Proof.
  induction ws as [|y ws IH]; intros g b s F C CW.
  - cbn in CW. destruct g as [|x g]; auto. inversion F as [|? ? L _]; subst. destruct x; [discriminate L|discriminate CW].
  - cbn in CW. destruct CW as [t [E [NY [W CW]]]].
    destruct (singles_split _ _ F E) as [g1 [g2 [-> [EY ET]]]]. apply Forall_app in F. destruct F as [F1 F2].
    pose proof C as C0. rewrite <- app_assoc in C. destruct (@candidate_split _ _ _ _ C) as [s2 [-> [C2 _]]].
    cbn. exists s2. split; [rewrite EY; auto|]. split; auto. split.
    + destruct W as [W|[L W]]; auto. destruct g1 as [|x g1]; [cbn in EY; congruence|].
      inversion F1 as [|? ? LX _]; subst. assert (G1 : g1 = []).
      { destruct g1 as [|z g1]; auto. inversion F1 as [|? ? _ F3]; inversion F3; subst.
        cbn in L. rewrite !app_length in L. lia. }
      subst g1. cbn in C. destruct C as [s3 [E3 [_ [[W3|[_ W3]] _]]]].
      * left. cbn. rewrite app_nil_r. auto.
      * right. split; auto.
    + rewrite <- ET in CW. apply (IH g2); auto.
Qed.

Section R.
  Variables (fr : freqs) (T : Z).
  Hypothesis HE : healthy fr T.
  Notation D := (sget fr).
  Notation ch := (chosen numR fr T).

  Let SA : sane D T := healthy_sane HE.
  Let PC : prefix_closed D := proj1 HE.
  Lemma T_pos : (0 < IZR T)%R.
  Proof. apply IZR_lt. apply HE. Qed.

  Lemma prob_le1 ws : (0 < prob D T ws <= 1)%R.
  Proof.
    pose proof T_pos as PT. pose proof HE as [_ [P _]].
    split; [apply prob_pos; auto; intros w n E; exact (proj1 (healthy_get _ HE E))|].
    induction ws as [|s ws IH]; [unfold prob; simpl; lra|].
    change (prob D T (s :: ws)) with (IZR (weight_of D s) / IZR T * prob D T ws)%R.
    pose proof (healthy_weight s HE) as [W1 W2]. apply IZR_le in W1, W2.
    replace 1%R with (1 * 1)%R by lra. apply Rmult_le_compat; auto.
    - apply Rmult_le_pos; [lra|]. left. apply Rinv_0_lt_compat; auto.
    - left. apply prob_pos; auto; intros w n E; exact (proj1 (healthy_get _ HE E)).
    - apply (Rmult_le_reg_r (IZR T)); auto. unfold Rdiv. rewrite Rmult_assoc, Rinv_l by lra. lra.
  Qed.

  Lemma prob_fallback ws x : In x ws -> ~ is_word D x -> (prob D T ws <= 1 / IZR T)%R.
  Proof.
    intros HI N. pose proof T_pos. apply in_split in HI. destruct HI as [a [b ->]].
    rewrite prob_app. change (prob D T (x :: b)) with (IZR (weight_of D x) / IZR T * prob D T b)%R.
    rewrite (not_word_weight N). pose proof (prob_le1 a). pose proof (prob_le1 b).
    assert (0 < 1 / IZR T)%R by (apply Rdiv_lt_0_compat; lra).
    replace (1 / IZR T)%R with (1 * (1 / IZR T * 1))%R at 2 by lra.
    apply Rmult_le_compat; try lra. apply Rmult_le_pos; lra. apply Rmult_le_compat_l; lra.
  Qed.

  Lemma prob_one w : (1 / IZR T <= prob D T [w])%R.
  Proof.
    pose proof T_pos. unfold prob. simpl. rewrite Rmult_1_r.
    pose proof (healthy_weight w HE) as [W1 W2]. apply IZR_le in W1.
    unfold Rdiv. apply Rmult_le_compat_r; [left; apply Rinv_0_lt_compat; lra|lra].
  Qed.

  Lemma chosen_nonempty w : Forall (fun x => x <> []) (ch w).
  Proof. pose proof (chosen_candidate numR w SA PC) as C. apply candidate_partition in C. apply C. Qed.

  (** a chosen word is chosen again when it stands alone *)
  Lemma chosen_again r a w b : ch r = a ++ w :: b -> is_word D w -> ch w = [w].
  Proof.
    intros E W. pose proof (chosen_candidate numR r SA PC) as C. rewrite E in C.
    assert (NE : w <> []).
    { pose proof (chosen_nonempty r) as F. rewrite E in F. apply Forall_app in F. destruct F as [_ F]. inversion F; auto. }
    apply chosen_whole; auto.
    pose proof (chosen_candidate numR w SA PC) as CW.
    destruct (@candidate_cases _ _ _ CW) as [F|[x [X1 X2]]].
    - destruct (@candidate_split _ _ _ _ C) as [s2 [ES [C2 K]]].
      simpl in C2. destruct C2 as [s3 [-> [_ [_ C3]]]].
      assert (CN : candidate D r (a ++ ch w ++ b)).
      { apply K. pose proof (candidate_partition _ _ _ CW) as [EP _]. rewrite <- EP at 1.
        apply candidate_words_app; auto. apply chosen_nonempty. }
      pose proof (chosen_prob _ _ SA PC CN) as L. rewrite E in L.
      change (w :: b) with ([w] ++ b) in L. rewrite !prob_app in L.
      pose proof (prob_le1 a) as [PA _]. pose proof (prob_le1 b) as [PB _].
      apply Rmult_le_reg_l in L; auto. apply Rmult_le_reg_r in L; auto.
    - eapply Rle_trans; [exact (@prob_fallback _ _ X1 X2)|apply prob_one].
  Qed.

  Lemma single_alnum_length x : single_alnum x = true -> length x = 1.
  Proof. destruct x as [|c [|d x]]; simpl; auto; discriminate. Qed.

  (** a group of single characters: alone it is chosen character by character again *)
  Lemma chosen_singles r a g b :
    ch r = a ++ g ++ b -> Forall (fun x : str => length x = 1) g -> ch (concat g) = g.
  Proof.
    intros E FG.
    pose proof (chosen_candidate numR r SA PC) as C. rewrite E in C.
    destruct (@candidate_split _ _ _ _ C) as [s2 [ES [C2 K]]].
    pose proof (@candidate_prefix _ _ _ _ C2) as CG.
    pose proof (chosen_candidate numR (concat g) SA PC) as CW.
    assert (EQ : prob D T (ch (concat g)) = prob D T g).
    { pose proof (@candidate_singles _ _ _ _ _ FG C2 CW) as CN. apply K in CN.
      pose proof (chosen_prob _ _ SA PC CN) as L. rewrite E in L. rewrite !prob_app in L.
      pose proof (prob_le1 a) as [PA _]. pose proof (prob_le1 b) as [PB _].
      apply Rmult_le_reg_l in L; auto. apply Rmult_le_reg_r in L; auto.
      pose proof (chosen_prob _ _ SA PC CG) as L2. lra. }
    clear CG K ES C. revert CW EQ. generalize (ch (concat g)) as ws.
    revert a s2 E C2. induction g as [|x g IH]; intros a s2 E C2 ws CW EQ.
    - destruct ws as [|y ws]; auto. apply candidate_partition in CW. destruct CW as [EP NP]. inversion NP; subst.
      destruct y; [congruence|discriminate].
    - inversion FG as [|? ? LX FG']; subst.
      destruct ws as [|y ws]; [destruct x; [discriminate LX|discriminate CW]|].
      assert (LY : length y <= length x).
      { eapply (@chosen_longest numR orderR fr T r a x (g ++ b) y (ws ++ b)); auto.
        - pose proof (@candidate_singles _ _ _ _ _ FG C2 CW) as Q. apply candidate_partition in C2. destruct C2 as [C2 _].
          assert (EC : concat (x :: g ++ b) = s2) by exact C2. rewrite EC. exact Q.
        - apply (proj2 (score_le_prob (x :: g ++ b) (y :: ws ++ b) SA)).
          change (x :: g ++ b) with ((x :: g) ++ b). change (y :: ws ++ b) with ((y :: ws) ++ b).
          rewrite !prob_app, EQ. apply Rle_refl. }
      cbn in CW. destruct CW as [t [EP [NY [_ CW]]]].
      assert (EX : y = x /\ t = concat g).
      { destruct x as [|c [|d x]]; try discriminate LX. destruct y as [|e [|f y]]; [congruence| |cbn in LY; lia].
        cbn in EP. injection EP as E1 E2. subst. auto. }
      destruct EX as [-> ->]. f_equal. cbn in C2. destruct C2 as [s3 [-> [_ [_ C3]]]].
      apply (IH FG' (a ++ [x]) s3); auto.
      + rewrite <- app_assoc. exact E.
      + change (x :: ws) with ([x] ++ ws) in EQ. change (x :: g) with ([x] ++ g) in EQ. rewrite !prob_app in EQ.
        pose proof (prob_le1 [x]) as [PX _]. apply Rmult_eq_reg_l in EQ; auto. lra.
  Qed.

  (** every merged word is a chosen word or the concatenation of a group *)
  Lemma merged_origin ws out w :
    merged ws out -> In w out ->
    exists a b, (single_alnum w = false /\ ws = a ++ w :: b) \/
      (exists g, g <> [] /\ Forall (fun x => single_alnum x = true) g /\ w = concat g /\ ws = a ++ g ++ b).
  Proof.
    induction 1 as [|x ws out S M IH|g ws out NG FG HD M IH]; simpl; intros HI; [contradiction| |].
    - destruct HI as [->|HI]; [exists [], ws; auto|].
      destruct (IH HI) as [a [b [[S1 ->]|[g [G1 [G2 [G3 ->]]]]]]].
      + exists (x :: a), b. auto.
      + exists (x :: a), b. right. exists g. auto.
    - destruct HI as [<-|HI]; [exists [], ws; right; exists g; auto|].
      destruct (IH HI) as [a [b [[S1 ->]|[g' [G1 [G2 [G3 ->]]]]]]].
      + exists (g ++ a), b. left. rewrite <- app_assoc. auto.
      + exists (g ++ a), b. right. exists g'. rewrite <- app_assoc. auto.
  Qed.

  Variable H : hmm numR.

  Lemma cut_single force c : cut numR H NoHMM fr T force [c] = gof [[c]].
  Proof.
    rewrite cut_nohmm_text by auto. simpl. destruct (word_char c) eqn:EC; simpl; [|reflexivity].
    pose proof (chosen_candidate numR [c] SA PC) as C. apply candidate_partition in C. destruct C as [C1 C2].
    destruct (ch [c]) as [|x xs]; [discriminate|]. inversion C2; subst.
    destruct x as [|d [|e x]]; [congruence| |discriminate].
    simpl in C1. inversion C1. subst d. assert (XS : xs = []).
    { destruct xs as [|y xs]; auto. inversion H3; subst. destruct y; [congruence|discriminate]. }
    subst xs. simpl. rewrite eng1_single. destruct (single_alnum [c]); reflexivity.
  Qed.

  Lemma cut_again force s w :
    In w (fst (cut numR H NoHMM fr T force s)) -> cut numR H NoHMM fr T force w = gof [w].
  Proof.
    rewrite cut_nohmm_text by auto. simpl. rewrite in_flat_map. intros [[b r] [HR HI]]. simpl in HI.
    destruct (Nat.eq_dec (length w) 1) as [L1|L1].
    { destruct w as [|c [|d w]]; try discriminate. apply cut_single. }
    apply runs_class in HR. destruct HR as [NR FR].
    destruct b.
    - pose proof (chosen_candidate numR r SA PC) as C0. pose proof C0 as C.
      apply candidate_partition in C. destruct C as [C1 C2].
      destruct (@merged_origin _ _ _ (merge_eng_merged (ch r)) HI) as [a [b [[SW E]|[g [NG [FG [-> E]]]]]]].
      + assert (NE : w <> []). { rewrite E in C2. apply Forall_app in C2. destruct C2 as [_ C2]. inversion C2; auto. }
        assert (W : is_word D w).
        { rewrite E in C0. destruct (@candidate_split _ _ _ _ C0) as [s2 [_ [C3 _]]]. cbn in C3.
          destruct C3 as [s3 [_ [_ [[W|[L _]] _]]]]; auto. contradiction. }
        apply (@cut_chosen_whole H fr T force false w); auto; [|eapply chosen_again; eauto].
        rewrite <- C1, E, concat_app in FR. simpl in FR. apply Forall_app in FR. destruct FR as [_ FR].
        apply Forall_app in FR. apply FR.
      + pose proof (concat_singles_ne NG FG) as NE.
        assert (FW : Forall (fun c => word_char c = true) (concat g)).
        { rewrite <- C1, E, !concat_app in FR. apply Forall_app in FR. destruct FR as [_ FR].
          apply Forall_app in FR. apply FR. }
        assert (EG : ch (concat g) = g).
        { apply (@chosen_singles r a g b E). eapply Forall_impl; [|exact FG]. apply single_alnum_length. }
        rewrite cut_nohmm_text by auto. rewrite (@runs_whole word_char _ true NE FW). simpl.
        rewrite EG. rewrite app_nil_r.
        pose proof (@merge_eng_nil_app g [] [] FG) as ME. rewrite app_nil_r in ME. rewrite ME. simpl.
        rewrite flush_ne by auto. reflexivity.
    - pose proof (chars_crlf_words r) as CW. rewrite Forall_forall in CW. destruct (CW w HI) as [|E]; [contradiction|].
      subst w. rewrite cut_nohmm_text by auto. reflexivity.
  Qed.
End R.
