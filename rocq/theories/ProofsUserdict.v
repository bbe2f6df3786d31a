(** * Lines of a user dictionary *)
From Verif Require Import PyBase PyRegex PyNum ModelFinalseg ModelSeg ModelDict
  SpecBase SpecSeg SpecDict ProofsBase ProofsRegex.
Set Implicit Arguments.

Lemma plus_rests_In p s t :
  In t (plus_rests p s) <-> exists u, u <> [] /\ Forall (fun c => p c = true) u /\ s = u ++ t.
Proof.
  revert t. induction s as [|c s IH]; intros t; simpl.
  - split; [contradiction|]. intros [u [NU [_ E]]]. symmetry in E. apply app_eq_nil in E. tauto.
  - destruct (p c) eqn:E.
    + rewrite in_app_iff, IH. simpl. split.
      * intros [[u [NU [FU ->]]]|[->|[]]].
        -- exists (c :: u). split; [discriminate|]. split; auto.
        -- exists [c]. split; [discriminate|]. split; auto.
      * intros [u [NU [FU EU]]]. destruct u as [|x u]; [congruence|]. inversion EU; subst. inversion FU; subst.
        destruct u as [|y u]; [right; left; auto|]. left. exists (y :: u). split; [discriminate|]. auto.
    + split; [contradiction|]. intros [u [NU [FU EU]]].
      destruct u as [|x u]; [congruence|]. inversion EU; subst. inversion FU; subst. congruence.
Qed.

Lemma lazy_split p s l1 t l2 :
  plus_rests_lazy p s = l1 ++ t :: l2 ->
  exists u, s = u ++ t /\ u <> [] /\ Forall (fun c => p c = true) u /\
    forall u' t', s = u' ++ t' -> u' <> [] -> length u' < length u -> In t' l1.
Proof.
  revert s. induction l1 as [|x l1 IH]; intros s; destruct s as [|c s]; simpl; try discriminate.
  - destruct (p c) eqn:E; [|discriminate]. intros EQ; inversion EQ; subst.
    exists [c]. split; auto. split; [discriminate|]. split; auto.
    intros u' t' _ NU L. destruct u' as [|? [|]]; simpl in L; try lia. congruence.
  - destruct (p c) eqn:E; [|discriminate]. intros EQ; inversion EQ; subst.
    destruct (IH _ H1) as [u [E1 [NU [FU M]]]]. exists (c :: u). split; [simpl; congruence|].
    split; [discriminate|]. split; auto.
    intros u' t' E2 NU' L. destruct u' as [|y u']; [congruence|]. simpl in E2. inversion E2. subst y.
    destruct u' as [|z u'].
    + left. auto.
    + right. apply (M (z :: u') t'); auto; [discriminate|]. simpl in *. lia.
Qed.

Lemma lazy_In p s t :
  In t (plus_rests_lazy p s) <-> exists u, u <> [] /\ Forall (fun c => p c = true) u /\ s = u ++ t.
Proof.
  rewrite <- plus_rests_In. induction s as [|c s IH]; simpl; [tauto|].
  destruct (p c); simpl; [|tauto]. rewrite in_app_iff, IH. simpl. tauto.
Qed.

(** the pattern after the word *)
Definition re_tail : re :=
  RSeq (ROpt (RGrp 2 (RSeq (RStr [32%N]) (RPlus is_digit09))))
 (RSeq (ROpt (RGrp 3 (RSeq (RStr [32%N]) (RPlus is_lower))))
       REol).

Definition part (p : char -> bool) (o : option str) : Prop :=
  match o with Some x => x <> [] /\ Forall (fun c => p c = true) x | None => True end.
Definition blank_part (o : option str) : str := match o with Some x => 32%N :: x | None => [] end.

Lemma opt_grp_In n0 n p s g m :
  In m (rmatch n0 (ROpt (RGrp n (RSeq (RStr [32%N]) (RPlus p)))) s g) <->
  exists o, part p o /\ s = blank_part o ++ fst m /\
            snd m = match o with Some x => (n, 32%N :: x) :: g | None => g end.
Proof.
  destruct m as [t g']. cbn [rmatch fst snd]. rewrite in_app_iff. split.
  - intros [HI|[E|[]]].
    + apply in_map_iff in HI. destruct HI as [[t1 g1] [E HI]]. cbn [fst snd] in E. inversion E; subst.
      destruct s as [|c s]; [contradiction|]. cbn [rmatch strip_prefix] in HI.
      destruct (32 =? c)%N eqn:EC; [|contradiction].
      apply N.eqb_eq in EC. subst c. cbn [flat_map fst snd rmatch] in HI. rewrite app_nil_r in HI.
      apply in_map_iff in HI. destruct HI as [t2 [E2 HI]]. inversion E2; subst.
      apply plus_rests_In in HI. destruct HI as [u [NU [FU ->]]].
      exists (Some u). cbn [part blank_part]. split; auto. split; auto. f_equal. f_equal.
      apply (@firstn_minus_app _ _ (32%N :: u) t). reflexivity.
    + inversion E; subst. exists None. simpl. auto.
  - intros [[x|] [PX [-> ->]]]; cbn [part blank_part] in *.
    + left. apply in_map_iff. exists (t, g). cbn [fst snd]. split.
      * f_equal. f_equal. f_equal. apply (@firstn_minus_app _ _ (32%N :: x) t). reflexivity.
      * cbn. rewrite app_nil_r. apply (in_map (fun t0 : str => (t0, g))). apply plus_rests_In. exists x. tauto.
    + right. left. auto.
Qed.

Definition tail_groups (f t : option str) (g : groups) : groups :=
  match t with Some x => [(3, 32%N :: x)] | None => [] end
  ++ match f with Some x => [(2, 32%N :: x)] | None => [] end ++ g.

Lemma tail_In n0 s g m :
  In m (rmatch n0 re_tail s g) <->
  exists f t, part is_digit09 f /\ part is_lower t /\ s = blank_part f ++ blank_part t ++ fst m /\
              snd m = tail_groups f t g /\ (fst m = [] \/ fst m = [10%N]).
Proof.
  unfold re_tail.
  change (In m (flat_map (fun m => rmatch n0 (RSeq (ROpt (RGrp 3 (RSeq (RStr [32%N]) (RPlus is_lower)))) REol) (fst m) (snd m))
     (rmatch n0 (ROpt (RGrp 2 (RSeq (RStr [32%N]) (RPlus is_digit09)))) s g)) <->
    exists f t, part is_digit09 f /\ part is_lower t /\ s = blank_part f ++ blank_part t ++ fst m /\
              snd m = tail_groups f t g /\ (fst m = [] \/ fst m = [10%N])).
  rewrite in_flat_map. split.
  - intros [m1 [H1 H2]]. apply opt_grp_In in H1. destruct H1 as [f [PF [E1 G1]]].
    change (In m (flat_map (fun m => rmatch n0 REol (fst m) (snd m))
      (rmatch n0 (ROpt (RGrp 3 (RSeq (RStr [32%N]) (RPlus is_lower)))) (fst m1) (snd m1)))) in H2.
    apply in_flat_map in H2. destruct H2 as [m2 [H2 H3]]. apply opt_grp_In in H2.
    destruct H2 as [t [PT [E2 G2]]]. exists f, t. split; auto. split; auto.
    assert (E3 : m = m2 /\ (fst m = [] \/ fst m = [10%N])).
    { destruct m2 as [[|c [|d r]] g2]; simpl in H3.
      - destruct H3 as [<-|[]]. auto.
      - destruct (c =? 10)%N eqn:EC; [|contradiction]. apply N.eqb_eq in EC. subst. destruct H3 as [<-|[]]. auto.
      - contradiction. }
    destruct E3 as [-> E3]. rewrite E1, E2. split; auto. split; auto.
    rewrite G2, G1. destruct t, f; reflexivity.
  - intros [f [t [PF [PT [E [G EO]]]]]].
    exists (blank_part t ++ fst m, match f with Some x => (2, 32%N :: x) :: g | None => g end). split.
    + apply opt_grp_In. exists f. simpl. auto.
    + change (In m (flat_map (fun m => rmatch n0 REol (fst m) (snd m))
        (rmatch n0 (ROpt (RGrp 3 (RSeq (RStr [32%N]) (RPlus is_lower))))
           (blank_part t ++ fst m) (match f with Some x => (2, 32%N :: x) :: g | None => g end)))).
      apply in_flat_map. exists m. split.
      * apply opt_grp_In. exists t. split; auto. split; auto. rewrite G. destruct t, f; reflexivity.
      * destruct m as [r g']. simpl in *. destruct EO as [->| ->]; simpl; auto.
Qed.

Lemma hd_flat_map {A B} (f : A -> list B) l x :
  hd_error (flat_map f l) = Some x ->
  exists l1 y l2, l = l1 ++ y :: l2 /\ Forall (fun a => f a = []) l1 /\ hd_error (f y) = Some x.
Proof.
  induction l as [|a l IH]; simpl; [discriminate|].
  destruct (f a) as [|b bs] eqn:E; simpl.
  - intros HH. destruct (IH HH) as [l1 [y [l2 [-> [F1 HY]]]]]. exists (a :: l1), y, l2. auto.
  - intros HH. exists [], a, l. split; auto. split; auto. rewrite E. auto.
Qed.

Lemma userdict_matches line :
  rmatch (length line) re_userdict line [] =
  flat_map (fun t => rmatch (length line) re_tail t [(1, firstn (length line - length t) line)])
           (plus_rests_lazy is_not_newline line).
Proof.
  unfold re_userdict. cbn [rmatch]. rewrite Nat.eqb_refl. cbn [flat_map fst snd app].
  rewrite app_nil_r. unfold re_tail. cbn [rmatch].
  rewrite flat_map_concat_map, !map_map. cbn [fst snd]. rewrite <- flat_map_concat_map. reflexivity.
Qed.

Lemma strip_by_none (p : N -> bool) s : Forall (fun c => p c = false) s -> strip_by p s = s.
Proof.
  intros F. unfold strip_by, rstrip_by.
  assert (L : forall x, Forall (fun c => p c = false) x -> lstrip_by p x = x).
  { intros [|c x] FX; auto. inversion FX; subst. simpl. rewrite H1. auto. }
  rewrite (L s F), L by (apply Forall_rev; auto). apply rev_involutive.
Qed.

Lemma strip_group x : Forall (fun c => is_space c = false) x -> str_strip (32%N :: x) = x.
Proof.
  intros F. change (strip_by is_space x = x). apply strip_by_none; auto.
Qed.

Lemma digit_not_space c : is_digit09 c = true -> is_space c = false.
Proof.
  unfold is_digit09, in_range. intros E. apply andb_true_iff in E. destruct E as [E1 E2].
  apply N.leb_le in E1, E2. unfold is_space, in_range.
  repeat match goal with |- context [(?a <=? ?b)%N] => destruct (N.leb_spec a b); try lia
                       | |- context [(?a =? ?b)%N] => destruct (N.eqb_spec a b); try lia end; auto.
Qed.

Lemma lower_not_space c : is_lower c = true -> is_space c = false.
Proof.
  unfold is_lower, in_range. intros E. apply andb_true_iff in E. destruct E as [E1 E2].
  apply N.leb_le in E1, E2. unfold is_space, in_range.
  repeat match goal with |- context [(?a <=? ?b)%N] => destruct (N.leb_spec a b); try lia
                       | |- context [(?a =? ?b)%N] => destruct (N.eqb_spec a b); try lia end; auto.
Qed.

Lemma digit_not_lower c : is_digit09 c = true -> is_lower c = true -> False.
Proof.
  unfold is_digit09, is_lower, in_range. rewrite !andb_true_iff, !N.leb_le. lia.
Qed.

Definition no_newline (s : str) : Prop := Forall (fun c => c <> 10%N) s.

Lemma parts_no_newline f t : part is_digit09 f -> part is_lower t -> no_newline (blank_part f ++ blank_part t).
Proof.
  intros PF PT. apply Forall_app. split.
  - destruct f as [x|]; simpl; [|constructor]. destruct PF as [_ PF]. constructor; [discriminate|].
    eapply Forall_impl; [|exact PF]. intros c D ->. discriminate.
  - destruct t as [x|]; simpl; [|constructor]. destruct PT as [_ PT]. constructor; [discriminate|].
    eapply Forall_impl; [|exact PT]. intros c D ->. discriminate.
Qed.

(** the line does not end with a newline *)
Definition no_final_newline (s : str) : Prop := forall u, s <> u ++ [10%N].

Lemma parse_sound line w f t :
  no_final_newline line ->
  parse_userdict_line line = Some (w, f, t) ->
  no_newline line /\ line_parts line w f t /\
  forall w' f' t', line_parts line w' f' t' -> length w <= length w'.
Proof.
  intros NF. unfold parse_userdict_line, re_match.
  destruct (hd_error (rmatch (length line) re_userdict line [])) as [[rest g]|] eqn:E; [|discriminate].
  rewrite userdict_matches in E. apply hd_flat_map in E. destruct E as [l1 [y [l2 [EL [F1 HY]]]]].
  destruct (@lazy_split _ _ _ _ _ EL) as [u [E1 [NU [FU M]]]].
  assert (HI : In (rest, g) (rmatch (length line) re_tail y [(1, firstn (length line - length y) line)])).
  { destruct (rmatch (length line) re_tail y _); simpl in HY; [discriminate|]. inversion HY. left; auto. }
  rewrite (@firstn_minus_app _ _ _ _ E1) in HI.
  apply tail_In in HI. destruct HI as [f0 [t0 [PF [PT [EY [EG EO]]]]]]. simpl in EY, EG, EO.
  assert (ER : rest = []).
  { destruct EO as [|ER]; auto. exfalso. apply (NF (u ++ blank_part f0 ++ blank_part t0)).
    rewrite E1, EY, ER. rewrite <- !app_assoc. reflexivity. }
  subst rest. rewrite app_nil_r in EY.
  assert (G1 : group_get g 1 = Some u).
  { rewrite EG. destruct f0, t0; reflexivity. }
  rewrite G1. intros E. inversion E; subst w f t. clear E.
  assert (F2 : option_map str_strip (group_get g 2) = f0).
  { rewrite EG. destruct f0 as [x|], t0 as [y0|]; simpl; auto.
    - rewrite strip_group; auto. destruct PF as [_ PF]. eapply Forall_impl; [|exact PF]. apply digit_not_space.
    - rewrite strip_group; auto. destruct PF as [_ PF]. eapply Forall_impl; [|exact PF]. apply digit_not_space. }
  assert (F3 : option_map str_strip (group_get g 3) = t0).
  { rewrite EG. destruct f0 as [x|], t0 as [y0|]; simpl; auto.
    - rewrite strip_group; auto. destruct PT as [_ PT]. eapply Forall_impl; [|exact PT]. apply lower_not_space.
    - rewrite strip_group; auto. destruct PT as [_ PT]. eapply Forall_impl; [|exact PT]. apply lower_not_space. }
  rewrite F2, F3. split; [|split].
  - rewrite E1, EY. apply Forall_app. split; [|apply parts_no_newline; auto].
    eapply Forall_impl; [|exact FU]. intros c NC ->. discriminate.
  - split; auto. split; [rewrite E1, EY; reflexivity|]. split; auto.
  - intros w' f' t' [NW [EL' [PF' PT']]].
    destruct (Nat.le_gt_cases (length u) (length w')) as [LE|GT]; auto. exfalso.
    assert (HI : In (blank_part f' ++ blank_part t') l1) by (apply (M w'); auto).
    rewrite Forall_forall in F1. apply F1 in HI.
    assert (HI2 : In ([], tail_groups f' t' [(1, w')])
       (rmatch (length line) re_tail (blank_part f' ++ blank_part t') [(1, w')])).
    { apply tail_In. exists f', t'. simpl. rewrite app_nil_r. auto 6. }
    change (line = w' ++ blank_part f' ++ blank_part t') in EL'.
    rewrite (@firstn_minus_app _ _ _ _ EL') in HI. unfold str, char in *. rewrite HI in HI2. contradiction.
Qed.

(** given the word, the rest is determined *)
Lemma parts_inj f t f' t' :
  part is_digit09 f -> part is_lower t -> part is_digit09 f' -> part is_lower t' ->
  blank_part f ++ blank_part t = blank_part f' ++ blank_part t' -> f = f' /\ t = t'.
Proof.
  assert (DIS : forall x y z, x <> [] -> Forall (fun c => is_digit09 c = true) x ->
            y <> [] -> Forall (fun c => is_lower c = true) y -> x ++ z = y -> False).
  { intros [|c x] y z NX FX NY FY E; [congruence|]. subst y. inversion FX; inversion FY; subst.
    eapply digit_not_lower; eauto. }
  assert (DIG : forall x y z z', Forall (fun c => is_digit09 c = true) x -> Forall (fun c => is_digit09 c = true) y ->
            (z = [] \/ exists r, z = 32%N :: r) -> (z' = [] \/ exists r, z' = 32%N :: r) -> x ++ z = y ++ z' -> x = y /\ z = z').
  { induction x as [|c x IH]; intros [|d y] z z' FX FY HZ HZ' E; simpl in E.
    - auto.
    - exfalso. destruct HZ as [->|[r ->]]; [discriminate|]. inversion E; subst. inversion FY; discriminate.
    - exfalso. destruct HZ' as [->|[r ->]]; [discriminate|]. inversion E; subst. inversion FX; discriminate.
    - inversion E; subst. inversion FX; inversion FY; subst. destruct (IH y z z') as [-> ->]; auto. }
  assert (BP : forall t, blank_part t = [] \/ exists r, blank_part t = 32%N :: r).
  { intros [x|]; simpl; eauto. }
  assert (BI : forall t t', blank_part t = blank_part t' -> t = t').
  { intros [x|] [y|]; simpl; intros E; inversion E; auto. }
  destruct f as [x|], f' as [y|]; simpl; intros PF PT PF' PT' E.
  - inversion E as [E']. destruct (DIG x y (blank_part t) (blank_part t')) as [-> ET]; try tauto; auto.
  - exfalso. destruct t' as [y|]; [|discriminate]. simpl in *. inversion E as [E'].
    apply (DIS x y (blank_part t)); tauto.
  - exfalso. destruct t as [x|]; [|discriminate]. simpl in *. inversion E as [E'].
    apply (DIS y x (blank_part t')); try tauto. auto.
  - split; auto.
Qed.

(** any division of the line into parts makes the match succeed *)
Lemma parse_total line w f t :
  no_newline line -> line_parts line w f t -> parse_userdict_line line <> None.
Proof.
  intros NN [NW [EL [PF PT]]]. unfold parse_userdict_line, re_match.
  change (line = w ++ blank_part f ++ blank_part t) in EL.
  assert (HI : In ([], tail_groups f t [(1, w)]) (rmatch (length line) re_userdict line [])).
  { rewrite userdict_matches. apply in_flat_map. exists (blank_part f ++ blank_part t). split.
    - apply lazy_In. exists w. split; auto. split; auto.
      rewrite EL in NN. apply Forall_app in NN. destruct NN as [NN _]. eapply Forall_impl; [|exact NN].
      intros c NC. unfold is_not_newline. apply negb_true_iff. apply N.eqb_neq. auto.
    - rewrite (@firstn_minus_app _ _ _ _ EL). apply tail_In. exists f, t. simpl. rewrite app_nil_r. auto 6. }
  destruct (rmatch (length line) re_userdict line []) as [|[rest g] ms] eqn:EM; [contradiction|]. simpl.
  assert (HG : exists u, group_get g 1 = Some u).
  { assert (HI2 : In (rest, g) (rmatch (length line) re_userdict line [])) by (rewrite EM; left; auto).
    rewrite userdict_matches in HI2. apply in_flat_map in HI2. destruct HI2 as [y [_ HI2]].
    apply tail_In in HI2. destruct HI2 as [f1 [t1 [_ [_ [_ [EG _]]]]]]. simpl in EG. rewrite EG.
    destruct f1, t1; simpl; eauto. }
  destruct HG as [u ->]. discriminate.
Qed.

(** the parse of a line is its division with the shortest word *)
Lemma parse_exact line w f t :
  no_newline line -> line_parts line w f t ->
  (forall w' f' t', line_parts line w' f' t' -> length w <= length w') ->
  parse_userdict_line line = Some (w, f, t).
Proof.
  intros NN LP MIN.
  destruct (parse_userdict_line line) as [[[w1 f1] t1]|] eqn:E; [|exfalso; eapply parse_total; eauto].
  assert (NF : no_final_newline line).
  { intros u ->. unfold no_newline in NN. rewrite Forall_app in NN. destruct NN as [_ NN]. inversion NN; congruence. }
  destruct (parse_sound NF E) as [_ [LP1 MIN1]].
  assert (L : length w1 = length w) by (pose proof (MIN _ _ _ LP1); pose proof (MIN1 _ _ _ LP); lia).
  destruct LP as [NW [EL [PF PT]]]. destruct LP1 as [NW1 [EL1 [PF1 PT1]]].
  change (line = w ++ blank_part f ++ blank_part t) in EL.
  change (line = w1 ++ blank_part f1 ++ blank_part t1) in EL1.
  rewrite EL in EL1.
  assert (EW : w = w1 /\ blank_part f ++ blank_part t = blank_part f1 ++ blank_part t1).
  { clear - L EL1. revert w1 L EL1. induction w as [|c w IH]; intros [|d w1] L E; simpl in L; try discriminate; auto.
    simpl in E. inversion E; subst. destruct (IH w1) as [-> ?]; auto. }
  destruct EW as [-> EW]. destruct (parts_inj f t f1 t1) as [-> ->]; auto.
Qed.

(** no blank in the word: the four formats *)
Lemma parse_simple w f t :
  w <> [] -> Forall (fun c => c <> 32%N /\ c <> 10%N) w -> part is_digit09 f -> part is_lower t ->
  parse_userdict_line (w ++ blank_part f ++ blank_part t) = Some (w, f, t).
Proof.
  intros NW FW PF PT. apply parse_exact.
  - apply Forall_app. split; [|apply parts_no_newline; auto].
    eapply Forall_impl; [|exact FW]. simpl. tauto.
  - split; auto.
  - intros w' f' t' [NW' [EL [PF' PT']]]. change (w ++ blank_part f ++ blank_part t = w' ++ blank_part f' ++ blank_part t') in EL.
    destruct (Nat.le_gt_cases (length w) (length w')) as [LE|GT]; auto. exfalso.
    assert (SP : exists x, w = w' ++ x /\ x <> []).
    { exists (skipn (length w') w). split.
      - rewrite <- (firstn_skipn (length w') w) at 1. f_equal.
        apply (f_equal (firstn (length w'))) in EL. rewrite !firstn_app in EL.
        rewrite firstn_all, Nat.sub_diag in EL. replace (length w' - length w) with 0 in EL by lia.
        simpl in EL. rewrite !app_nil_r in EL. auto.
      - intros E. apply (f_equal (@length _)) in E. rewrite skipn_length in E. simpl in E. lia. }
    destruct SP as [x [-> NX]]. rewrite <- app_assoc in EL. apply app_inv_head in EL.
    rewrite Forall_app in FW. destruct FW as [_ FX].
    destruct x as [|c x]; [congruence|]. inversion FX; subst.
    destruct f' as [y|]; [simpl in EL; inversion EL; subst; tauto|].
    destruct t' as [y|]; [simpl in EL; inversion EL; subst; tauto|]. discriminate.
Qed.

(** ** [int()] of ASCII digits *)

Lemma digit_val_ascii c : is_digit09 c = true -> digit_val c = Some (c - 48)%N.
Proof. intros D. unfold digit_val, nd_starts. cbn [find]. unfold is_digit09 in D.
  change (0x30 + 9)%N with 0x39%N. rewrite D. reflexivity.
Qed.

Lemma parse_digits_ascii ds acc b :
  Forall (fun c => is_digit09 c = true) ds -> (ds <> [] \/ b = true) ->
  parse_digits b acc ds = Some (fold_left (fun acc c => (acc * 10 + (Z.of_N c - 48))%Z) ds acc).
Proof.
  revert acc b. induction ds as [|c ds IH]; intros acc b F NE; simpl.
  - destruct NE as [NE| ->]; [congruence|reflexivity].
  - inversion F; subst. rewrite (digit_val_ascii _ H1). rewrite IH by auto. f_equal. f_equal.
    unfold is_digit09, in_range in H1. apply andb_true_iff in H1. destruct H1 as [E1 E2].
    apply N.leb_le in E1, E2. lia.
Qed.

Lemma digit_ascii_facts c : is_digit09 c = true -> is_int_space c = false /\ (c =? 0x2D)%N = false /\ (c =? 0x2B)%N = false.
Proof.
  intros D. pose proof (digit_not_space _ D) as NS.
  unfold is_digit09, in_range in D. apply andb_true_iff in D. destruct D as [E1 E2]. apply N.leb_le in E1, E2.
  split; [|split; apply N.eqb_neq; lia].
  unfold is_int_space. rewrite NS. rewrite andb_false_r, orb_false_r.
  unfold is_bspace, in_range.
  repeat match goal with |- context [(?a <=? ?b)%N] => destruct (N.leb_spec a b); try lia
                       | |- context [(?a =? ?b)%N] => destruct (N.eqb_spec a b); try lia end; auto.
Qed.

Lemma parse_int_ascii ds :
  ds <> [] -> Forall (fun c => is_digit09 c = true) ds -> parse_int ds = Some (digits_val ds).
Proof.
  intros NE F. unfold parse_int. rewrite strip_by_none.
  - destruct ds as [|c ds]; [congruence|]. inversion F; subst.
    destruct (digit_ascii_facts _ H1) as [_ [-> ->]]. rewrite parse_digits_ascii; auto.
  - eapply Forall_impl; [|exact F]. intros c D. apply digit_ascii_facts; auto.
Qed.

Lemma digits_val_nonneg ds : Forall (fun c => is_digit09 c = true) ds -> (0 <= digits_val ds)%Z.
Proof.
  unfold digits_val. assert (G : forall acc, (0 <= acc)%Z -> Forall (fun c => is_digit09 c = true) ds ->
    (0 <= fold_left (fun acc c => (acc * 10 + (Z.of_N c - 48))%Z) ds acc)%Z).
  { induction ds as [|c ds IH]; intros acc A F; simpl; auto. inversion F; subst. apply IH; auto.
    unfold is_digit09, in_range in H1. apply andb_true_iff in H1. destruct H1 as [E1 E2].
    apply N.leb_le in E1, E2. lia. }
  apply G. lia.
Qed.

(** stripped text does not end with a newline *)
Lemma strip_by_last (p : N -> bool) s u c : strip_by p s = u ++ [c] -> p c = false.
Proof.
  unfold strip_by, rstrip_by. intros E. apply (f_equal (@rev _)) in E.
  rewrite rev_involutive, rev_app_distr in E. simpl in E.
  assert (L : forall x y ys, lstrip_by p x = y :: ys -> p y = false).
  { induction x as [|z x IH]; simpl; [discriminate|]. intros y ys. destruct (p z) eqn:EZ; [apply IH|].
    intros EQ; inversion EQ; subst; auto. }
  eapply L; eauto.
Qed.

Lemma lstrip_by_suffix (p : N -> bool) s : exists u, s = u ++ lstrip_by p s.
Proof.
  induction s as [|c s [u IH]]; simpl; [exists []; auto|]. destruct (p c); [|exists []; auto].
  exists (c :: u). simpl. congruence.
Qed.
