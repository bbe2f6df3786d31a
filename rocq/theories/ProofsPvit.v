(** * The tagger's Viterbi search *)
From Coq Require Import Permutation.
From Verif Require Import PyBase PyRegex PyNum ModelFinalseg ModelSeg ModelPosseg SpecBase
  SpecPosseg ProofsBase ProofsDag.
Set Implicit Arguments.

(** ** Order of states *)

Lemma pstate_eqb_ok a b : pstate_eqb a b = true <-> a = b.
Proof.
  destruct a as [c t], b as [d u]. unfold pstate_eqb. simpl.
  rewrite andb_true_iff, N.eqb_eq, str_eqb_eq. split; [intros [-> ->]|intros [= -> ->]]; auto.
Qed.

Lemma pstate_eqb_refl a : pstate_eqb a a = true.
Proof. apply pstate_eqb_ok. reflexivity. Qed.

Lemma pstate_eq_dec (a b : pstate) : {a = b} + {a <> b}.
Proof.
  destruct (pstate_eqb a b) eqn:E; [left|right].
  - apply pstate_eqb_ok; auto.
  - intros ->. rewrite pstate_eqb_refl in E. discriminate.
Qed.

Lemma str_ltb_irrefl a : str_ltb a a = false.
Proof. induction a as [|x a IH]; simpl; auto. rewrite N.ltb_irrefl, IH, andb_false_r. auto. Qed.

Lemma str_ltb_trans a b c : str_ltb a b = true -> str_ltb b c = true -> str_ltb a c = true.
Proof.
  revert b c. induction a as [|x a IH]; intros [|y b] [|z c]; simpl; auto; try discriminate.
  rewrite !orb_true_iff, !andb_true_iff, !N.ltb_lt, !N.eqb_eq.
  intros [L1|[-> L1]] [L2|[-> L2]].
  - left. lia.
  - left. lia.
  - left. lia.
  - right. split; eauto.
Qed.

Lemma str_ltb_total a b : str_ltb a b = true \/ str_ltb b a = true \/ a = b.
Proof.
  revert b. induction a as [|x a IH]; intros [|y b]; simpl; auto.
  rewrite !orb_true_iff, !andb_true_iff, !N.ltb_lt, !N.eqb_eq.
  destruct (N.lt_trichotomy x y) as [L|[->|L]]; auto.
  destruct (IH b) as [L|[L|L]]; subst; auto.
Qed.

Lemma pstate_gt_irrefl a : pstate_gt a a = false.
Proof. unfold pstate_gt. rewrite N.ltb_irrefl, str_ltb_irrefl, andb_false_r. auto. Qed.

Lemma pstate_gt_trans a b c : pstate_gt a b = true -> pstate_gt b c = true -> pstate_gt a c = true.
Proof.
  unfold pstate_gt. rewrite !orb_true_iff, !andb_true_iff, !N.ltb_lt, !N.eqb_eq.
  intros [L1|[E1 L1]] [L2|[E2 L2]]; try (left; lia).
  right. split; [congruence|]. eapply str_ltb_trans; eauto.
Qed.

Lemma pstate_gt_total a b : pstate_gt a b = true \/ pstate_gt b a = true \/ a = b.
Proof.
  destruct a as [x a], b as [y b]. unfold pstate_gt. simpl.
  rewrite !orb_true_iff, !andb_true_iff, !N.ltb_lt, !N.eqb_eq.
  destruct (N.lt_trichotomy x y) as [L|[->|L]]; auto.
  destruct (str_ltb_total a b) as [L|[L|L]]; subst; auto.
Qed.

Lemma p_in_In y l : p_in y l = true <-> In y l.
Proof.
  unfold p_in. rewrite existsb_exists. split.
  - intros [z [HI E]]. apply pstate_eqb_ok in E. subst. auto.
  - intros HI. exists y. rewrite pstate_eqb_refl. auto.
Qed.

Lemma p_nodup_In y l : In y (p_nodup l) <-> In y l.
Proof.
  induction l as [|x l IH]; simpl; [tauto|].
  destruct (p_in x l) eqn:E.
  - rewrite IH. apply p_in_In in E. split; auto. intros [->|]; auto.
  - simpl. rewrite IH. tauto.
Qed.

Lemma p_nodup_NoDup l : NoDup (p_nodup l).
Proof.
  induction l as [|x l IH]; simpl; [constructor|].
  destruct (p_in x l) eqn:E; auto. constructor; auto.
  rewrite p_nodup_In. rewrite <- p_in_In. rewrite E. discriminate.
Qed.

Section Order.
  Variable num : Num.
  Variable NI : NumInf num.
  Notation F := (F num).
  Notation lt := (f_lt num).
  Notation eqf := (f_eq num).

  Definition fin (x : F) : Prop := exists k, i_fin NI k x.

  Lemma lt_irrefl x : fin x -> lt x x = false.
  Proof. intros [k K]. eapply i_lt_irrefl; eauto. Qed.
  Lemma lt_trans x y z : fin x -> fin y -> fin z -> lt x y = true -> lt y z = true -> lt x z = true.
  Proof. intros [a A] [b B] [c C]. eapply i_lt_trans; eauto. Qed.
  Lemma lt_split x y z : fin x -> fin y -> fin z -> lt x z = true -> lt x y = true \/ lt y z = true.
  Proof. intros [a A] [b B] [c C]. eapply i_lt_split; eauto. Qed.
  Lemma eq_lt x y : fin x -> fin y -> eqf x y = negb (lt x y) && negb (lt y x).
  Proof. intros [a A] [b B]. eapply i_eq; eauto. Qed.

  (** [m] is at least [z] among pairs with a finite score *)
  Notation gt := (pv_gt num).

  Lemma gt_cases p q : fin (fst p) -> fin (fst q) ->
    gt p q = true <-> lt (fst q) (fst p) = true \/
                      (lt (fst p) (fst q) = false /\ lt (fst q) (fst p) = false
                       /\ pstate_gt (snd p) (snd q) = true).
  Proof.
    intros P Q. unfold pv_gt, tup_gt. rewrite eq_lt by auto.
    destruct (lt (fst p) (fst q)) eqn:A, (lt (fst q) (fst p)) eqn:B; simpl; intuition congruence.
  Qed.

  Lemma gt_irrefl p : fin (fst p) -> gt p p = false.
  Proof.
    intros P. apply not_true_iff_false. intros G. apply gt_cases in G; auto.
    rewrite lt_irrefl in G by auto. rewrite pstate_gt_irrefl in G. intuition discriminate.
  Qed.

  Lemma gt_trans p q r : fin (fst p) -> fin (fst q) -> fin (fst r) ->
    gt p q = true -> gt q r = true -> gt p r = true.
  Proof.
    intros P Q R. rewrite !gt_cases by auto. intros [A|[A1 [A2 A3]]] [B|[B1 [B2 B3]]].
    - left. eapply lt_trans with (y := fst q); eauto.
    - left. destruct (lt_split (x := fst q) (y := fst r) (z := fst p)) as [L|L]; auto. congruence.
    - left. destruct (lt_split (x := fst r) (y := fst p) (z := fst q)) as [L|L]; auto. congruence.
    - right. split; [|split].
      + apply not_true_iff_false. intros L.
        destruct (lt_split (x := fst p) (y := fst q) (z := fst r)) as [M|M]; auto; congruence.
      + apply not_true_iff_false. intros L.
        destruct (lt_split (x := fst r) (y := fst q) (z := fst p)) as [M|M]; auto; congruence.
      + eapply pstate_gt_trans; eauto.
  Qed.

  Lemma gt_antisym p q : fin (fst p) -> fin (fst q) -> gt p q = true -> gt q p = false.
  Proof.
    intros P Q G. apply not_true_iff_false. intros G'.
    assert (gt p p = true) by (eapply gt_trans with (q := q); eauto).
    rewrite gt_irrefl in H by auto. discriminate.
  Qed.

  (** pairs that are not separated have the same second component *)
  Lemma gt_total p q : fin (fst p) -> fin (fst q) ->
    gt p q = true \/ gt q p = true \/ snd p = snd q.
  Proof.
    intros P Q. rewrite !gt_cases by auto.
    destruct (lt (fst p) (fst q)) eqn:A, (lt (fst q) (fst p)) eqn:B; auto.
    destruct (pstate_gt_total (snd p) (snd q)) as [L|[L|L]]; auto 8.
  Qed.

  Lemma gt_split p q r : fin (fst p) -> fin (fst q) -> fin (fst r) ->
    gt p r = true -> gt p q = true \/ gt q r = true.
  Proof.
    intros P Q R G.
    apply gt_cases in G; auto. destruct G as [G|[G1 [G2 G3]]].
    - destruct (lt_split (x := fst r) (y := fst q) (z := fst p)) as [L|L]; auto.
      + right. apply gt_cases; auto.
      + left. apply gt_cases; auto.
    - destruct (@gt_total q p Q P) as [L|[L|L]]; auto.
      + right. eapply gt_trans with (q := p); eauto. apply gt_cases; auto.
      + destruct (lt (fst q) (fst p)) eqn:A.
        * left. apply gt_cases; auto.
        * destruct (lt (fst p) (fst q)) eqn:B.
          -- right. apply gt_cases; auto. left.
             destruct (lt_split (x := fst p) (y := fst r) (z := fst q)) as [M|M]; auto. congruence.
          -- right. apply gt_cases; auto. right. rewrite L. split; [|split]; auto.
             ++ apply not_true_iff_false. intros M.
                destruct (lt_split (x := fst q) (y := fst p) (z := fst r)) as [M'|M']; auto; congruence.
             ++ apply not_true_iff_false. intros M.
                destruct (lt_split (x := fst r) (y := fst p) (z := fst q)) as [M'|M']; auto; congruence.
  Qed.

  Definition fin_or_inf (p : F * pstate) : Prop := fin (fst p) \/ i_inf NI (fst p).

  Lemma gt_fin_inf p q : fin (fst p) -> i_inf NI (fst q) -> gt p q = true /\ gt q p = false.
  Proof.
    intros [k P] Q. destruct (@i_inf_lt _ NI k (fst q) (fst p) Q P) as [A [B [C D]]].
    unfold pv_gt, tup_gt. rewrite C, D. auto.
  Qed.

  (** the maximum of a list with a finite score *)
  Lemma max_from_fin l m :
    Forall fin_or_inf l -> fin (fst m) ->
    let r := max_from gt m l in
    fin (fst r) /\ gt m r = false /\ forall z, In z l -> fin (fst z) -> gt z r = false.
  Proof.
    unfold max_from. revert m. induction l as [|y l IH]; intros m FL FM; cbn [fold_left].
    - split; auto. split; [apply gt_irrefl; auto|]. intros z [].
    - inversion FL as [|? ? FY FL']; subst.
      destruct (gt y m) eqn:E.
      + assert (fin (fst y)) as Y.
        { destruct FY as [|Y]; auto. destruct (@gt_fin_inf m y FM Y); congruence. }
        destruct (IH y FL' Y) as [A [B C]]. split; auto. split.
        * apply not_true_iff_false. intros G.
          destruct (@gt_split m y _ FM Y A G) as [G'|G']; [|congruence].
          rewrite gt_antisym in G'; auto; discriminate.
        * intros z [<-|HI] Z; auto.
      + destruct (IH m FL' FM) as [A [B C]]. split; auto. split; auto.
        intros z [<-|HI] Z; auto.
        apply not_true_iff_false. intros G.
        destruct (@gt_split y m _ Z FM A G) as [G'|G']; congruence.
  Qed.

  Lemma max_from_inf l m :
    Forall fin_or_inf l -> i_inf NI (fst m) -> (exists z, In z l /\ fin (fst z)) ->
    let r := max_from gt m l in
    fin (fst r) /\ forall z, In z l -> fin (fst z) -> gt z r = false.
  Proof.
    unfold max_from. revert m. induction l as [|y l IH]; intros m FL FM [z [HI Z]]; [destruct HI|].
    cbn [fold_left]. inversion FL as [|? ? FY FL']; subst.
    destruct FY as [Y|Y].
    - destruct (@gt_fin_inf y m Y FM) as [-> _].
      destruct (@max_from_fin l y FL' Y) as [A [B C]]. unfold max_from in *. split; auto.
      intros z0 [<-|HI0] Z0; auto.
    - destruct HI as [<-|HI].
      { exfalso. destruct (@gt_fin_inf _ _ Z Y) as [G1 G2]. pose proof (@gt_irrefl _ Z). congruence. }
      assert (EX : exists z, In z l /\ fin (fst z)) by eauto.
      assert (NY : ~ fin (fst y)).
      { intros Y'. destruct (@gt_fin_inf _ _ Y' Y) as [G1 G2]. pose proof (@gt_irrefl _ Y'). congruence. }
      destruct (gt y m).
      + destruct (IH y FL' Y EX) as [A B]. split; auto. intros z0 [<-|HI0] Z0; [contradiction|auto].
      + destruct (IH m FL' FM EX) as [A B]. split; auto. intros z0 [<-|HI0] Z0; [contradiction|auto].
  Qed.

  Lemma py_max_fin l :
    Forall fin_or_inf l -> (exists z, In z l /\ fin (fst z)) ->
    exists r, py_max gt l = Ok r /\ In r l /\ fin (fst r)
      /\ forall z, In z l -> fin (fst z) -> gt z r = false.
  Proof.
    intros FL EX. destruct l as [|m l]; [destruct EX as [? [[] _]]|].
    simpl. exists (max_from gt m l). split; auto. split; [apply max_from_In|].
    inversion FL as [|? ? FM FL']; subst. destruct FM as [M|M].
    - destruct (@max_from_fin l m FL' M) as [A [B C]]. split; auto.
      intros z [<-|HI] Z; auto.
    - destruct EX as [z [[<-|HI] Z]].
      { exfalso. destruct (@gt_fin_inf _ _ Z M) as [G1 G2]. pose proof (@gt_irrefl _ Z). congruence. }
      destruct (@max_from_inf l m FL' M) as [A C]; eauto. split; auto.
      intros z0 [<-|HI0] Z0; auto.
      exfalso. destruct (@gt_fin_inf _ _ Z0 M) as [G1 G2]. pose proof (@gt_irrefl _ Z0). congruence.
  Qed.
End Order.
