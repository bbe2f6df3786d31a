(** * Optimality of the route *)
From Coq Require Import Reals Lra.
From Verif Require Import PyBase PyRegex PyNum ModelFinalseg ModelSeg SpecBase SpecSeg SpecNum SpecScore
  ProofsBase ProofsRegex ProofsSplit ProofsDag ProofsFinalseg ProofsSeg.
Set Implicit Arguments.

(** ** Walks are candidates *)

Lemma slice_prefix {A} (s : list A) x y : prefix_of (slice s x y) (skipn x s).
Proof. exists (skipn (y - x) (skipn x s)). unfold slice. symmetry. apply firstn_skipn. Qed.

Lemma prefix_slice {A} (s u : list A) x :
  prefix_of u (skipn x s) -> x <= length s -> u = slice s x (x + length u) /\ x + length u <= length s.
Proof.
  intros [t E] L. split.
  - unfold slice. rewrite E. replace (x + length u - x) with (length u) by lia.
    rewrite firstn_app, firstn_all, Nat.sub_diag. simpl. rewrite app_nil_r. auto.
  - apply (f_equal (@length A)) in E. rewrite skipn_length, app_length in E. lia.
Qed.

Lemma length_0 {A} (l : list A) : l <> [] -> 0 < length l.
Proof. destruct l; simpl; [congruence|lia]. Qed.

Lemma dag_words_In fr s k j :
  prefix_closed (sget fr) -> k < length s ->
  (In j (dag_words fr s k) <-> k <= j < length s /\ is_word (sget fr) (slice s k (j + 1))).
Proof.
  intros PC L. rewrite dag_words_exact, filter_In, in_seq, freq_true_word by auto.
  split; intros [A B]; split; auto; lia.
Qed.

Lemma no_words_dag fr s k :
  prefix_closed (sget fr) -> k < length s ->
  (dag_words fr s k = [] <-> no_word_starts (sget fr) (skipn k s)).
Proof.
  intros PC L. split.
  - intros E u NE PR W. destruct (prefix_slice s PR) as [EU LU]; [lia|].
    apply length_0 in NE.
    assert (HI : In (k + length u - 1) (dag_words fr s k)).
    { apply dag_words_In; auto. split; [lia|].
      replace (k + length u - 1 + 1) with (k + length u) by lia. rewrite <- EU. auto. }
    rewrite E in HI. contradiction.
  - intros NW. destruct (dag_words fr s k) as [|j l] eqn:E; auto. exfalso.
    assert (HI : In j (dag_words fr s k)) by (rewrite E; left; auto).
    apply dag_words_In in HI; auto. destruct HI as [R W].
    apply (NW (slice s k (j + 1))); auto.
    + apply slice_nonempty; lia.
    + apply slice_prefix.
Qed.

Lemma step_ok_iff fr s x w :
  prefix_closed (sget fr) -> x < length s ->
  (step_ok fr s x w <->
   w <> [] /\ prefix_of w (skipn x s) /\
   (is_word (sget fr) w \/ (length w = 1 /\ no_word_starts (sget fr) (skipn x s)))).
Proof.
  intros PC L. unfold step_ok. split.
  - intros [j [HI ->]]. pose proof HI as HI0. apply dag_at_range in HI0; auto.
    split; [apply slice_nonempty; lia|]. split; [apply slice_prefix|].
    rewrite dag_at_words in HI. destruct (dag_words fr s x) as [|y l] eqn:E.
    + destruct HI as [<-|[]]. right. split.
      * rewrite slice_length; lia.
      * apply no_words_dag; auto.
    + left. rewrite <- E in HI. apply dag_words_In in HI; tauto.
  - intros [NE [PR W]]. apply length_0 in NE. destruct (prefix_slice s PR) as [EU LU]; [lia|].
    exists (x + length w - 1). replace (x + length w - 1 + 1) with (x + length w) by lia.
    split; auto. rewrite dag_at_words. destruct W as [W|[L1 NW]].
    + assert (HI : In (x + length w - 1) (dag_words fr s x)).
      { apply dag_words_In; auto. split; [lia|].
        replace (x + length w - 1 + 1) with (x + length w) by lia. rewrite <- EU. auto. }
      destruct (dag_words fr s x); [contradiction|auto].
    + apply no_words_dag in NW; auto. rewrite NW. left. lia.
Qed.

Lemma walk_candidate fr s x ws :
  prefix_closed (sget fr) -> x <= length s ->
  (walk fr s x ws <-> candidate (sget fr) (skipn x s) ws).
Proof.
  intros PC. revert x. induction ws as [|w ws IH]; intros x L.
  - simpl. split.
    + intros ->. apply skipn_all.
    + intros E. apply (f_equal (@length _)) in E. rewrite skipn_length in E. simpl in E. lia.
  - cbn [walk candidate]. split.
    + intros [L1 [ST W]]. pose proof ST as ST0. apply step_ok_iff in ST0; auto.
      destruct ST0 as [NE [[t ET] WW]]. exists t. split; auto. split; auto. split; auto.
      destruct (@prefix_slice _ s w x) as [_ LU]; [exists t; auto|lia|].
      apply IH in W; [|lia].
      rewrite Nat.add_comm, <- skipn_skipn, ET, skipn_app, skipn_all, Nat.sub_diag in W. exact W.
    + intros [t [ET [NE [WW W]]]].
      destruct (@prefix_slice _ s w x) as [EU LU]; [exists t; auto|lia|].
      apply length_0 in NE as LE. split; [lia|]. split.
      * apply step_ok_iff; auto; try lia. split; auto. split; auto. exists t; auto.
      * apply IH; [lia|].
        rewrite Nat.add_comm, <- skipn_skipn, ET, skipn_app, skipn_all, Nat.sub_diag. exact W.
Qed.

(** ** Merging *)

Lemma eng1_single w : eng1 w = single_alnum w.
Proof. apply eng1_eq. Qed.

Lemma merge_eng_nil_app g ws buf :
  Forall (fun w => single_alnum w = true) g ->
  merge_eng buf (g ++ ws) = merge_eng (buf ++ concat g) ws.
Proof.
  revert buf. induction g as [|w g IH]; intros buf FA; simpl.
  - rewrite app_nil_r. auto.
  - inversion FA; subst. rewrite eng1_single, H1, IH by auto. rewrite app_assoc. auto.
Qed.

Lemma single_alnum_nonempty w : single_alnum w = true -> w <> [].
Proof. destruct w; [discriminate|congruence]. Qed.

Lemma split_singles ws :
  exists g rest, ws = g ++ rest /\ Forall (fun w => single_alnum w = true) g
    /\ match rest with w :: _ => single_alnum w = false | [] => True end.
Proof.
  induction ws as [|w ws [g [rest [E [FA R]]]]].
  - exists [], []. auto.
  - destruct (single_alnum w) eqn:EW.
    + exists (w :: g), rest. subst. auto.
    + exists [], (w :: ws). auto.
Qed.

Lemma flush_ne buf : buf <> [] -> flush buf = [buf].
Proof. destruct buf; simpl; intros NE; [contradiction NE; reflexivity|reflexivity]. Qed.

Lemma concat_singles_ne g : g <> [] -> Forall (fun w => single_alnum w = true) g -> concat g <> [].
Proof.
  intros NE FA. destruct g as [|w g]; [congruence|]. inversion FA; subst. simpl.
  destruct w; [discriminate|]. discriminate.
Qed.

Lemma merge_eng_flush buf ws :
  match ws with w :: _ => single_alnum w = false | [] => True end ->
  merge_eng buf ws = flush buf ++ merge_eng [] ws.
Proof.
  destruct ws as [|w ws]; simpl.
  - rewrite app_nil_r. auto.
  - intros E. rewrite eng1_single, E. reflexivity.
Qed.

Lemma merge_eng_merged ws : merged ws (merge_eng [] ws).
Proof.
  remember (length ws) as n eqn:EN. assert (LE : length ws <= n) by lia. clear EN.
  revert ws LE. induction n as [|n IH]; intros ws LE.
  - destruct ws; [|simpl in LE; lia]. constructor.
  - destruct (split_singles ws) as [g [rest [E [FA R]]]]. destruct g as [|w g].
    + simpl in E. subst rest. destruct ws as [|w ws]; [constructor|].
      simpl. rewrite eng1_single, R. apply merged_word; auto. apply IH. simpl in LE. lia.
    + subst ws. rewrite merge_eng_nil_app by auto. simpl app at 1.
      rewrite merge_eng_flush by auto. rewrite flush_ne.
      * apply (@merged_group (w :: g)); auto; [congruence|].
        apply IH. rewrite app_length in LE. simpl in LE. lia.
      * apply concat_singles_ne; auto. congruence.
Qed.

(** ** Maximum of a list *)

Section Max.
  Context {A : Type} (gt : A -> A -> bool) (P : A -> Prop).
  Hypothesis gt_irrefl : forall a, P a -> gt a a = false.
  Hypothesis gt_asym : forall a b, P a -> P b -> gt a b = true -> gt b a = false.
  Hypothesis ngt_trans : forall a b c, P a -> P b -> P c ->
    gt a b = false -> gt b c = false -> gt a c = false.

  Lemma max_from_spec x l :
    P x -> Forall P l ->
    P (max_from gt x l) /\ forall y, In y (x :: l) -> gt y (max_from gt x l) = false.
  Proof.
    unfold max_from. revert x. induction l as [|z l IH]; intros x Px FA; simpl.
    - split; auto. intros y [<-|[]]. auto.
    - inversion FA as [|? ? Pz FA']; subst. destruct (gt z x) eqn:E.
      + destruct (IH z Pz FA') as [I1 I2]. split; auto. intros y [<-|HI].
        * apply ngt_trans with z; auto. apply I2. left; auto.
        * apply I2. auto.
      + destruct (IH x Px FA') as [I1 I2]. split; auto. intros y [<-|[<-|HI]].
        * apply I2. left; auto.
        * apply ngt_trans with x; auto. apply I2. left; auto.
        * apply I2. right; auto.
  Qed.
End Max.

(** ** Optimality *)

Section Opt.
  Variable num : Num.
  Variable O : NumOrder num.
  Notation F := (F num).

  Definition rdom (r : F * nat) : Prop := o_dom O (fst r).

  Lemma tup_gt_spec {X} (ord : X -> X -> bool) p q :
    o_dom O (fst p) -> o_dom O (fst q) ->
    (tup_gt num ord p q = true <->
     (o_val O (fst q) < o_val O (fst p))%R \/
     (o_val O (fst p) = o_val O (fst q) /\ ord (snd p) (snd q) = true)).
  Proof.
    intros Dp Dq. unfold tup_gt. destruct (f_eq num (fst p) (fst q)) eqn:E.
    - apply (o_eq _ O) in E; auto. split.
      + intros HO. right. auto.
      + intros [L|[_ HO]]; auto. lra.
    - assert (NE : o_val O (fst p) <> o_val O (fst q)).
      { intros EV. apply (o_eq _ O) in EV; auto. congruence. }
      rewrite (o_lt _ O) by auto. tauto.
  Qed.

  Lemma tup_gt_false {X} (ord : X -> X -> bool) p q :
    o_dom O (fst p) -> o_dom O (fst q) ->
    (tup_gt num ord p q = false <->
     (o_val O (fst p) < o_val O (fst q))%R \/
     (o_val O (fst p) = o_val O (fst q) /\ ord (snd p) (snd q) = false)).
  Proof.
    intros Dp Dq. pose proof (tup_gt_spec ord p q Dp Dq) as TS.
    destruct (tup_gt num ord p q).
    - split; [discriminate|]. destruct TS as [TS _]. specialize (TS eq_refl).
      intros [L|[E HO]]; destruct TS as [L'|[E' HO']]; try lra; congruence.
    - split; auto. intros _.
      destruct (Rtotal_order (o_val O (fst p)) (o_val O (fst q))) as [L|[E|L]]; auto.
      + right. split; auto. destruct (ord (snd p) (snd q)) eqn:EO; auto.
        destruct TS as [_ TS]. discriminate TS. auto.
      + destruct TS as [_ TS]. discriminate TS. auto.
  Qed.

  Lemma route_gt_false p q :
    rdom p -> rdom q ->
    (route_gt num p q = false <->
     (o_val O (fst p) < o_val O (fst q))%R \/
     (o_val O (fst p) = o_val O (fst q) /\ snd p <= snd q)).
  Proof.
    intros Dp Dq. unfold route_gt. rewrite tup_gt_false by auto.
    rewrite Nat.ltb_ge. tauto.
  Qed.

  Lemma route_max_spec x l :
    rdom x -> Forall rdom l ->
    rdom (max_from (route_gt num) x l) /\
    forall y, In y (x :: l) -> route_gt num y (max_from (route_gt num) x l) = false.
  Proof.
    apply max_from_spec.
    - intros a Da. apply route_gt_false; auto.
    - intros a b Da Db HG. apply route_gt_false; auto.
      unfold route_gt in HG. apply tup_gt_spec in HG; auto.
      destruct HG as [L|[E HO]]; auto. right. apply Nat.ltb_lt in HO. split; [congruence|lia].
    - intros a b c Da Db Dc H1 H2. apply route_gt_false in H1; auto. apply route_gt_false in H2; auto.
      apply route_gt_false; auto.
      destruct H1 as [L1|[E1 X1]], H2 as [L2|[E2 X2]].
      + left; lra.
      + left; lra.
      + left; lra.
      + right; split; [lra|lia].
  Qed.

  Variable fr : freqs.
  Variable total : Z.
  Hypothesis Ht : (0 < total)%Z.
  Hypothesis Hp : pos_freqs fr.
  Variable s : str.

  Notation lt := (f_log num total).
  Notation sc := (score num (sget fr) total).

  Lemma weight_freq_or1 w : weight_of (sget fr) w = freq_or1 fr w.
  Proof. reflexivity. Qed.

  Lemma word_score_fin w : o_fin O (word_score num (sget fr) total w).
  Proof. apply (o_log _ O); auto. rewrite weight_freq_or1. apply freq_or1_pos; auto. Qed.

  Lemma score_dom ws : o_dom O (sc ws).
  Proof.
    induction ws as [|w ws IH]; simpl.
    - apply (o_fin_dom _ O), (o_zero _ O).
    - apply (o_add_l _ O); auto. apply word_score_fin.
  Qed.

  Lemma calc_cands_In idx route xs cs :
    calc_cands num fr lt s idx route xs = Ok cs ->
    (forall c, In c cs -> exists r, In (snd c) xs /\ nth_error route (snd c - idx) = Some r /\
       fst c = f_add num (word_score num (sget fr) total (slice s idx (snd c + 1))) (fst r))
    /\ (forall x, In x xs -> exists r, nth_error route (x - idx) = Some r /\
       In (f_add num (word_score num (sget fr) total (slice s idx (x + 1))) (fst r), x) cs).
  Proof.
    revert cs. induction xs as [|x xs IH]; cbn [calc_cands]; intros cs.
    - intros [= <-]. split; intros ? [].
    - unfold py_log at 1. pose proof (freq_or1_pos fr (slice s idx (x + 1)) Hp) as PF.
      replace (freq_or1 fr (slice s idx (x + 1)) <=? 0)%Z with false by (symmetry; apply Z.leb_gt; lia).
      cbn [rbind]. destruct (nth_error route (x - idx)) as [r|] eqn:ER; [|discriminate].
      destruct (calc_cands num fr lt s idx route xs) as [cs'|]; cbn [rbind]; [|discriminate].
      intros [= <-]. destruct (IH cs' eq_refl) as [I1 I2]. split.
      + intros c [<-|HI].
        * exists r. simpl. split; auto.
        * destruct (I1 c HI) as [r' [A B]]. exists r'. split; auto. right; auto.
      + intros y [<-|HI].
        * exists r. split; auto. left. reflexivity.
        * destruct (I2 y HI) as [r' [A B]]. exists r'. split; auto. right; auto.
  Qed.

  (** the entries of the route table satisfy the recurrence of the code *)
  Definition recur (n : nat) (route : list (F * nat)) : Prop :=
    nth_error route (length s - n) = Some (f_zero num, 0) /\
    forall i r, n <= i < length s -> nth_error route (i - n) = Some r ->
      (exists r', nth_error route (S (snd r) - n) = Some r' /\ In (snd r) (dag_at fr s i) /\
         fst r = f_add num (word_score num (sget fr) total (slice s i (snd r + 1))) (fst r'))
      /\ (forall x, In x (dag_at fr s i) ->
          exists r', nth_error route (S x - n) = Some r' /\
          route_gt num
            (f_add num (word_score num (sget fr) total (slice s i (x + 1))) (fst r'), x) r = false)
      .

  Definition all_dom (route : list (F * nat)) : Prop := Forall rdom route.

  Lemma calc_loop_recur n route route' :
    n <= length s -> all_dom route -> recur n route ->
    calc_loop num fr lt s (get_DAG fr s) n route = Ok route' -> all_dom route' /\ recur 0 route'.
  Proof.
    revert route. induction n as [|idx IH]; intros route L AD RC; cbn [calc_loop].
    - intros [= <-]. auto.
    - rewrite get_DAG_nth by lia.
      destruct (calc_cands num fr lt s idx route (dag_at fr s idx)) as [cs|] eqn:EC; cbn [rbind]; [|discriminate].
      destruct (py_max (route_gt num) cs) as [r|] eqn:EM; cbn [rbind]; [|discriminate].
      destruct (calc_cands_In _ _ _ EC) as [C1 C2].
      destruct RC as [RZ RI].
      assert (CD : Forall rdom cs).
      { apply Forall_forall. intros c HC. destruct (C1 c HC) as [r' [_ [EN EF]]].
        unfold rdom. rewrite EF. apply (o_add_l _ O); [apply word_score_fin|].
        unfold all_dom in AD. rewrite Forall_forall in AD. apply AD. eapply nth_error_In; eauto. }
      destruct cs as [|c0 cs]; [discriminate|]. cbn [py_max] in EM. injection EM as EM.
      inversion CD as [|? ? D0 D1]; subst x l.
      pose proof (@route_max_spec _ _ D0 D1) as [DM GM]. rewrite EM in DM, GM.
      apply IH; [lia| |].
      + constructor; auto.
      + split.
        * replace (length s - idx) with (S (length s - S idx)) by lia. cbn [nth_error]. auto.
        * intros i r0 LI. destruct (Nat.eq_dec i idx) as [->|NE].
          -- rewrite Nat.sub_diag. cbn [nth_error]. intros [= <-].
             assert (HIn : In r (c0 :: cs)) by (rewrite <- EM; apply max_from_In).
             destruct (C1 r HIn) as [r' [E1 [E2 E3]]].
             assert (RG := dag_at_range fr s idx (snd r) ltac:(lia) E1).
             split.
             ++ exists r'. split; auto.
                replace (S (snd r) - idx) with (S (snd r - idx)) by lia. cbn [nth_error]. auto.
             ++ intros x HX. destruct (C2 x HX) as [r2 [A B]]. exists r2. split.
                ** assert (RX := dag_at_range fr s idx x ltac:(lia) HX).
                   replace (S x - idx) with (S (x - idx)) by lia. cbn [nth_error]. auto.
                ** apply GM. auto.
          -- replace (i - idx) with (S (i - S idx)) by lia. cbn [nth_error]. intros EN.
             destruct (RI i r0 ltac:(lia) EN) as [[r' [A [B C]]] D]. split.
             ++ assert (RG := dag_at_range fr s i (snd r0) ltac:(lia) B).
                exists r'. split; auto.
                replace (S (snd r0) - idx) with (S (S (snd r0) - S idx)) by lia. cbn [nth_error]. auto.
             ++ intros x HX. destruct (D x HX) as [r2 [A2 B2]]. exists r2. split; auto.
                assert (RX := dag_at_range fr s i x ltac:(lia) HX).
                replace (S x - idx) with (S (S x - S idx)) by lia. cbn [nth_error]. auto.
  Qed.

  Lemma calc_recur route :
    calc num fr total s (get_DAG fr s) = Ok route -> all_dom route /\ recur 0 route.
  Proof.
    unfold calc, py_log. replace (total <=? 0)%Z with false by (symmetry; apply Z.leb_gt; lia).
    cbn [rbind]. apply calc_loop_recur; auto.
    - repeat constructor. apply (o_fin_dom _ O), (o_zero _ O).
    - split.
      + rewrite Nat.sub_diag. reflexivity.
      + intros i r LI. lia.
  Qed.

  Variable route : list (F * nat).
  Hypothesis Hcalc : calc num fr total s (get_DAG fr s) = Ok route.

  (** value of the table at [x]: the score of the words along the route *)
  Lemma route_value fuel x r :
    length s - x < fuel -> x <= length s -> nth_error route x = Some r ->
    fst r = sc (route_words fuel s route x).
  Proof.
    destruct (calc_recur Hcalc) as [AD [RZ RI]].
    revert x r. induction fuel as [|fuel IH]; intros x r L LX EN; [lia|].
    cbn [route_words]. destruct (x <? length s) eqn:E.
    - apply Nat.ltb_lt in E. rewrite EN.
      destruct (RI x r ltac:(lia)) as [[r' [A [B C]]] _].
      { rewrite Nat.sub_0_r. auto. }
      rewrite C. cbn [score fold_right]. fold (sc (route_words fuel s route (snd r + 1))).
      rewrite Nat.sub_0_r in A. assert (RG := dag_at_range fr s x (snd r) E B).
      f_equal. apply IH; try lia. replace (snd r + 1) with (S (snd r)) by lia. auto.
    - apply Nat.ltb_ge in E. assert (x = length s) by lia. subst x.
      rewrite Nat.sub_0_r in RZ. rewrite RZ in EN. injection EN as <-. reflexivity.
  Qed.

  Lemma route_best ws x r :
    x <= length s -> nth_error route x = Some r -> walk fr s x ws ->
    (o_val O (sc ws) <= o_val O (fst r))%R.
  Proof.
    destruct (calc_recur Hcalc) as [AD [RZ RI]].
    revert x r. induction ws as [|w ws IH]; intros x r LX EN W; cbn [walk] in W.
    - subst x. rewrite Nat.sub_0_r in RZ. rewrite RZ in EN. injection EN as <-. simpl. lra.
    - destruct W as [L [[j [HJ ->]] W]].
      destruct (RI x r ltac:(lia)) as [_ D]. { rewrite Nat.sub_0_r. auto. }
      destruct (D j HJ) as [r' [A B]]. rewrite Nat.sub_0_r in A.
      assert (RG := dag_at_range fr s x j L HJ).
      rewrite slice_length in W by lia. replace (x + (j + 1 - x)) with (S j) in W by lia.
      assert (DR' : rdom r').
      { unfold all_dom in AD. rewrite Forall_forall in AD. apply AD. eapply nth_error_In; eauto. }
      assert (DR : rdom r).
      { unfold all_dom in AD. rewrite Forall_forall in AD. apply AD. eapply nth_error_In; eauto. }
      assert (IHW := IH (S j) r' ltac:(lia) A W).
      cbn [score fold_right]. fold (sc ws).
      apply Rle_trans with (o_val O (f_add num (word_score num (sget fr) total (slice s x (j + 1))) (fst r'))).
      + apply (o_mono_l _ O); auto.
        * apply word_score_fin.
        * apply score_dom.
      + apply route_gt_false in B; auto.
        * simpl in B. destruct B as [B|[B _]]; lra.
        * unfold rdom. simpl. apply (o_add_l _ O); auto. apply word_score_fin.
  Qed.

  (** ties: an alternative of the same score has a first word that is not longer *)
  Lemma route_longest w ws x r :
    x <= length s -> nth_error route x = Some r -> walk fr s x (w :: ws) ->
    (o_val O (fst r) <= o_val O (sc (w :: ws)))%R ->
    x + length w <= snd r + 1.
  Proof.
    destruct (calc_recur Hcalc) as [AD [RZ RI]].
    intros LX EN W LE. cbn [walk] in W.
    destruct W as [L [[j [HJ ->]] W]].
    destruct (RI x r ltac:(lia)) as [_ D]. { rewrite Nat.sub_0_r. auto. }
    destruct (D j HJ) as [r' [A B]]. rewrite Nat.sub_0_r in A.
    assert (RG := dag_at_range fr s x j L HJ).
    rewrite slice_length in W |- * by lia. replace (x + (j + 1 - x)) with (S j) in W by lia.
    assert (DR' : rdom r').
    { unfold all_dom in AD. rewrite Forall_forall in AD. apply AD. eapply nth_error_In; eauto. }
    assert (DR : rdom r).
    { unfold all_dom in AD. rewrite Forall_forall in AD. apply AD. eapply nth_error_In; eauto. }
    assert (IHW := @route_best ws (S j) r' ltac:(lia) A W).
    cbn [score fold_right] in LE. fold (sc ws) in LE.
    assert (LE2 : (o_val O (f_add num (word_score num (sget fr) total (slice s x (j + 1))) (sc ws)) <=
      o_val O (f_add num (word_score num (sget fr) total (slice s x (j + 1))) (fst r')))%R).
    { apply (o_mono_l _ O); auto.
      * apply word_score_fin.
      * apply score_dom. }
    apply route_gt_false in B; auto.
    - simpl in B. destruct B as [B|[_ B]]; [lra|]. lia.
    - unfold rdom. simpl. apply (o_add_l _ O); auto. apply word_score_fin.
  Qed.

  Lemma route_words_skip fuel1 fuel2 x :
    length s - x < fuel1 -> length s - x < fuel2 -> x <= length s ->
    route_words fuel1 s route x = route_words fuel2 s route x.
  Proof.
    pose proof (calc_ok _ _ _ _ _ Hcalc) as RO.
    revert fuel2 x. induction fuel1 as [|f1 IH]; intros f2 x L1 L2 LX; [lia|].
    destruct f2 as [|f2]; [lia|]. cbn [route_words].
    destruct (x <? length s) eqn:E; auto. apply Nat.ltb_lt in E.
    destruct (route_some RO E) as [r ER]. rewrite ER.
    destruct (step_slice RO E ER) as [HI HR]. f_equal. apply IH; lia.
  Qed.

  (** splitting the chosen words at a boundary *)
  Lemma route_words_split fuel x a w b :
    length s - x < fuel -> x <= length s ->
    route_words fuel s route x = a ++ w :: b ->
    let y := x + length (concat a) in
    y < length s /\ exists r, nth_error route y = Some r /\
      w :: b = route_words (S (length s)) s route y /\ y + length w = snd r + 1.
  Proof.
    pose proof (calc_ok _ _ _ _ _ Hcalc) as RO.
    revert x a. induction fuel as [|fuel IH]; intros x a L LX E; [lia|].
    pose proof E as E0. cbn [route_words] in E. destruct (x <? length s) eqn:EL.
    - apply Nat.ltb_lt in EL. destruct (route_some RO EL) as [r ER]. rewrite ER in E.
      destruct (step_slice RO EL ER) as [HI HR]. destruct a as [|w0 a].
      + cbn [concat length]. rewrite Nat.add_0_r. split; auto. exists r. split; auto. split.
        * rewrite (@route_words_skip (S (length s)) (S fuel)) by lia. symmetry. exact E0.
        * simpl in E. injection E as <- _. rewrite slice_length; lia.
      + simpl in E. injection E as <- E. simpl. rewrite app_length, slice_length by lia.
        apply IH in E; try lia.
        replace (x + (snd r + 1 - x + length (concat a))) with (snd r + 1 + length (concat a)) by lia.
        exact E.
    - destruct a; discriminate.
  Qed.
End Opt.
