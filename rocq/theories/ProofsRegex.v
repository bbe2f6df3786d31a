(** * Lemmas about the regular-expression model *)
From Verif Require Import PyBase PyRegex SpecBase ProofsBase.

(** ** Runs *)

Lemma runs_concat p s : concat (map snd (runs p s)) = s.
Proof.
  induction s as [|c s IH]; simpl; auto.
  destruct (runs p s) as [|[b r] rest]; simpl in *.
  - subst s. reflexivity.
  - destruct (Bool.eqb b (p c)); simpl; rewrite <- IH; reflexivity.
Qed.

Lemma runs_class p s : Forall (fun br => snd br <> [] /\ Forall (fun c => p c = fst br) (snd br)) (runs p s).
Proof.
  induction s as [|c s IH]; simpl; auto.
  destruct (runs p s) as [|[b r] rest]; simpl in *.
  - repeat constructor. discriminate.
  - inversion IH as [|? ? [N1 N2] IH']; subst. simpl in *.
    destruct (Bool.eqb b (p c)) eqn:E.
    + apply Bool.eqb_prop in E. subst b. constructor; auto. simpl. split; [discriminate|].
      constructor; auto.
    + constructor; [|constructor; auto]. simpl. split; [discriminate|]. repeat constructor.
Qed.

(** the text starts with a character of class [b], or is empty *)
Definition starts_with (p : char -> bool) (b : bool) (s : str) : Prop :=
  match s with [] => True | c :: _ => p c = b end.

Lemma runs_head p s : match runs p s with
                      | [] => s = []
                      | (b, r) :: _ => exists c r' s', r = c :: r' /\ s = c :: s' /\ p c = b
                      end.
Proof.
  destruct s as [|c s]; simpl; auto.
  destruct (runs p s) as [|[b r] rest].
  - exists c, [], s. auto.
  - destruct (Bool.eqb b (p c)) eqn:E.
    + apply Bool.eqb_prop in E. exists c, r, s. auto.
    + exists c, [], s. auto.
Qed.

Lemma runs_app_run p b u s :
  u <> [] -> Forall (fun c => p c = b) u -> starts_with p (negb b) s ->
  runs p (u ++ s) = (b, u) :: runs p s.
Proof.
  intros NE FA SW. induction u as [|c u IH]; [congruence|].
  inversion FA as [|? ? Hc FA']; subst. simpl.
  destruct u as [|d u].
  - simpl. pose proof (runs_head p s) as RH.
    destruct (runs p s) as [|[b r] rest]; auto.
    destruct RH as (c' & r' & s' & -> & -> & E). simpl in SW.
    rewrite E in SW. subst b. destruct (p c); reflexivity.
  - rewrite IH; auto; try discriminate. rewrite Bool.eqb_reflx. reflexivity.
Qed.

Lemma runs_app_same p b u c s r rest :
  Forall (fun c => p c = b) u -> p c = b ->
  runs p (c :: s) = (b, r) :: rest ->
  runs p (u ++ c :: s) = (b, u ++ r) :: rest.
Proof.
  intros FA Hc HR. induction u as [|d u IH]; auto.
  inversion FA as [|? ? Hd FA']; subst. simpl. rewrite IH; auto.
  rewrite Hd. destruct (p c); reflexivity.
Qed.

(** concatenation at a class boundary *)
Lemma runs_app_boundary p b u c s :
  p c = negb b -> (u = [] \/ exists u' d, u = u' ++ [d] /\ p d = b) ->
  runs p (u ++ c :: s) = runs p u ++ runs p (c :: s).
Proof.
  intros Hc HU. destruct HU as [->|(u' & d & -> & Hd)]; auto.
  rewrite <- app_assoc. simpl app.
  assert (HD : runs p (d :: c :: s) = (b, [d]) :: runs p (c :: s)).
  { apply (@runs_app_run p b [d]); auto; try discriminate. }
  assert (HD0 : runs p [d] = [(b, [d])]) by (simpl; rewrite Hd; auto).
  induction u' as [|e u' IH].
  - cbn [app]. rewrite HD, HD0. reflexivity.
  - remember (runs p (c :: s)) as R. clear HeqR.
    change ((e :: u') ++ d :: c :: s) with (e :: (u' ++ d :: c :: s)).
    change ((e :: u') ++ [d]) with (e :: (u' ++ [d])).
    cbn [runs]. rewrite IH.
    pose proof (runs_head p (u' ++ [d])) as RH.
    destruct (runs p (u' ++ [d])) as [|[b1 r1] rest1].
    + destruct u'; discriminate.
    + simpl. destruct (Bool.eqb b1 (p e)); reflexivity.
Qed.

(** ** Splitting by a class *)

Fixpoint drop_while (p : char -> bool) (s : str) : str :=
  match s with
  | [] => []
  | c :: s' => if p c then drop_while p s' else s
  end.
Fixpoint take_while (p : char -> bool) (s : str) : str :=
  match s with
  | [] => []
  | c :: s' => if p c then c :: take_while p s' else []
  end.

Lemma take_drop p s : take_while p s ++ drop_while p s = s.
Proof. induction s as [|c s IH]; simpl; auto. destruct (p c); simpl; congruence. Qed.
Lemma take_while_class p s : Forall (fun c => p c = true) (take_while p s).
Proof. induction s as [|c s IH]; simpl; auto. destruct (p c) eqn:E; auto. Qed.
Lemma drop_while_head p s : starts_with p false (drop_while p s).
Proof. induction s as [|c s IH]; simpl; auto. destruct (p c) eqn:E; simpl; auto. Qed.

Lemma plus_rests_hd p s :
  hd_error (plus_rests p s) =
    match s with
    | c :: s' => if p c then Some (drop_while p s) else None
    | [] => None
    end.
Proof.
  induction s as [|c s IH]; simpl; auto.
  destruct (p c) eqn:E; auto.
  destruct s as [|d s].
  - reflexivity.
  - destruct (p d) eqn:E2.
    + destruct (plus_rests p (d :: s)) as [|x l] eqn:EP; simpl in IH; [discriminate|].
      simpl. exact IH.
    + simpl. rewrite E2. reflexivity.
Qed.

Lemma firstn_minus_app {A} (s u t : list A) : s = u ++ t -> firstn (length s - length t) s = u.
Proof.
  intros ->. rewrite app_length, Nat.add_sub, firstn_app, firstn_all, Nat.sub_diag.
  simpl. apply app_nil_r.
Qed.

Lemma plus_grp_hd n0 p n s g :
  hd_error (rmatch n0 (RGrp n (RPlus p)) s g) =
    match s with
    | c :: s' => if p c then Some (drop_while p s, (n, take_while p s) :: g) else None
    | [] => None
    end.
Proof.
  simpl. rewrite map_map. simpl. pose proof (plus_rests_hd p s) as HP.
  destruct (plus_rests p s) as [|t l]; simpl in *.
  - destruct s as [|c s]; auto. destruct (p c); congruence.
  - destruct s as [|c s]; try discriminate. destruct (p c) eqn:E; try discriminate.
    injection HP as ->. cbn [hd_error fst]. do 4 f_equal.
    apply firstn_minus_app. symmetry. apply (take_drop p (c :: s)).
Qed.

Lemma re_matches_plus p n s :
  re_matches (RGrp n (RPlus p)) s = match s with c :: _ => p c | [] => false end.
Proof.
  unfold re_matches, re_match. rewrite plus_grp_hd.
  destruct s as [|c s]; auto. destruct (p c); auto.
Qed.

Lemma re_split_go_class {B} p n0 (f : str -> gen B) fuel acc s :
  f [] = gnil -> length s < fuel -> Forall (fun c => p c = false) acc ->
  gfor (re_split_go fuel n0 (RGrp 1 (RPlus p)) acc s) f =
  gfor (map snd (runs p (rev acc ++ s))) f.
Proof.
  intros F0. revert acc s. induction fuel as [|fuel IH]; intros acc s L FA; [lia|].
  cbn [re_split_go]. destruct s as [|c s].
  - rewrite app_nil_r. destruct acc as [|a acc]; simpl re_split_go.
    + simpl. rewrite F0. reflexivity.
    + replace (runs p (rev (a :: acc))) with [(false, rev (a :: acc))].
      * reflexivity.
      * symmetry. rewrite <- (app_nil_r (rev (a :: acc))).
        rewrite (@runs_app_run p false); simpl; auto.
        -- rewrite app_nil_r; auto.
        -- intros E. apply app_eq_nil in E. destruct E; discriminate.
        -- rewrite Forall_forall in *. intros x Hx. apply FA. apply in_rev. exact Hx.
  - rewrite plus_grp_hd. destruct (p c) eqn:E.
    + assert (LD : length (drop_while p (c :: s)) <= length s).
      { simpl. rewrite E. pose proof (f_equal (@length _) (take_drop p s)) as HL.
        rewrite app_length in HL. lia. }
      replace (length (drop_while p (c :: s)) <? length (c :: s)) with true
        by (symmetry; apply Nat.ltb_lt; simpl length in *; lia).
      assert (HF : firstn (length (c :: s) - length (drop_while p (c :: s))) (c :: s)
                   = take_while p (c :: s)).
      { pose proof (take_drop p (c :: s)) as TD.
        pose proof (f_equal (@length _) TD) as HL. rewrite app_length in HL.
        replace (length (c :: s) - length (drop_while p (c :: s)))
          with (length (take_while p (c :: s))) by lia.
        rewrite <- TD at 2. rewrite firstn_app, firstn_all, Nat.sub_diag. simpl firstn at 1.
        apply app_nil_r. }
      rewrite HF. cbn [gfor map]. simpl in L.
      rewrite (IH [] (drop_while p (c :: s))); auto; [|lia].
      simpl rev. simpl app at 1.
      assert (HR : runs p (rev acc ++ c :: s) =
                   match acc with [] => [] | _ => [(false, rev acc)] end
                   ++ (true, take_while p (c :: s)) :: runs p (drop_while p (c :: s))).
      { assert (HT : runs p (c :: s) =
                     (true, take_while p (c :: s)) :: runs p (drop_while p (c :: s))).
        { rewrite <- (take_drop p (c :: s)) at 1. apply runs_app_run.
          - simpl. rewrite E. discriminate.
          - apply take_while_class.
          - apply drop_while_head. }
        destruct acc as [|a acc]; [exact HT|].
        rewrite (@runs_app_run p false); auto.
        - rewrite HT. reflexivity.
        - simpl. intros EE. apply app_eq_nil in EE. destruct EE; discriminate.
        - rewrite Forall_forall in *. intros x Hx. apply FA. apply in_rev. exact Hx. }
      rewrite HR. destruct acc as [|a acc].
      * simpl rev. rewrite F0, gapp_nil_l. reflexivity.
      * reflexivity.
    + rewrite IH.
      * simpl rev. rewrite <- app_assoc. reflexivity.
      * simpl in L. lia.
      * constructor; auto.
Qed.

(** Iterating over the pieces of [re.split] with a class pattern is iterating over
    the maximal runs (for a loop body that does nothing on the empty piece). *)
Lemma gfor_split_class {B} p (f : str -> gen B) s :
  f [] = gnil ->
  gfor (re_split (RGrp 1 (RPlus p)) s) f = gfor (map snd (runs p s)) f.
Proof.
  intros F0. unfold re_split. rewrite re_split_go_class; auto.
Qed.

(** ** A split never loses text, for any pattern *)

Lemma re_split_go_concat fuel n0 r acc s :
  (forall s rest g, hd_error (rmatch n0 r s []) = Some (rest, g) ->
                    exists u, s = u ++ rest) ->
  concat (re_split_go fuel n0 r acc s) = rev acc ++ s.
Proof.
  intros HS. revert acc s. induction fuel as [|fuel IH]; intros acc s; cbn [re_split_go].
  - simpl. rewrite app_nil_r. reflexivity.
  - destruct s as [|c s].
    + simpl. rewrite !app_nil_r. reflexivity.
    + destruct (hd_error (rmatch n0 r (c :: s) [])) as [[rest g]|] eqn:E.
      * destruct (length rest <? length (c :: s)) eqn:L.
        -- cbn [concat]. rewrite IH. simpl rev. rewrite app_nil_l. f_equal.
           apply HS in E. destruct E as [u E]. rewrite E, app_length.
           rewrite Nat.add_sub.
           rewrite firstn_app, firstn_all, Nat.sub_diag. simpl. rewrite app_nil_r. reflexivity.
        -- rewrite IH. simpl. rewrite <- app_assoc. reflexivity.
      * rewrite IH. simpl. rewrite <- app_assoc. reflexivity.
Qed.

Lemma strip_prefix_some w s s' : strip_prefix w s = Some s' -> s = w ++ s'.
Proof.
  revert s; induction w as [|x w IH]; intros [|y s]; simpl; try discriminate.
  - intros [= ->]; auto.
  - intros [= ->]; auto.
  - destruct (x =? y)%N eqn:E; try discriminate. intros HH. apply N.eqb_eq in E. subst.
    f_equal. auto.
Qed.

Lemma plus_rests_suffix p s t : In t (plus_rests p s) -> exists u, s = u ++ t.
Proof.
  induction s as [|c s IH]; simpl; [contradiction|].
  destruct (p c); [|contradiction]. intros HI. apply in_app_or in HI. destruct HI as [HI|[<-|[]]].
  - destruct (IH HI) as [u ->]. exists (c :: u). auto.
  - exists [c]. auto.
Qed.
Lemma plus_rests_lazy_suffix p s t : In t (plus_rests_lazy p s) -> exists u, s = u ++ t.
Proof.
  induction s as [|c s IH]; simpl; [contradiction|].
  destruct (p c); [|contradiction]. intros [<-|HI].
  - exists [c]. auto.
  - destruct (IH HI) as [u ->]. exists (c :: u). auto.
Qed.

Lemma rmatch_suffix n0 r s g m : In m (rmatch n0 r s g) -> exists u, s = u ++ fst m.
Proof.
  revert s g m; induction r as [p|w|a IHa b IHb|a IHa b IHb|a IHa|p|p|n a IHa| |];
    intros s g m; simpl; intros HI.
  - destruct s as [|c s]; [contradiction|]. destruct (p c); [|contradiction].
    destruct HI as [<-|[]]. exists [c]; auto.
  - destruct (strip_prefix w s) eqn:E; [|contradiction]. destruct HI as [<-|[]].
    apply strip_prefix_some in E. exists w. auto.
  - apply in_flat_map in HI. destruct HI as [m1 [H1 H2]].
    destruct (IHa _ _ _ H1) as [u ->]. destruct (IHb _ _ _ H2) as [v E].
    rewrite E. exists (u ++ v). rewrite app_assoc. auto.
  - apply in_app_or in HI. destruct HI as [HI|HI]; eauto.
  - apply in_app_or in HI. destruct HI as [HI|[<-|[]]]; eauto. exists []; auto.
  - apply in_map_iff in HI. destruct HI as [t [<- HI]]. simpl. eapply plus_rests_suffix; eauto.
  - apply in_map_iff in HI. destruct HI as [t [<- HI]]. simpl. eapply plus_rests_lazy_suffix; eauto.
  - apply in_map_iff in HI. destruct HI as [t [<- HI]]. simpl. eauto.
  - destruct (length s =? n0); [|contradiction]. destruct HI as [<-|[]]. exists []; auto.
  - destruct s as [|c [|d s]]; simpl in HI; try contradiction.
    + destruct HI as [<-|[]]. exists []; auto.
    + destruct (c =? 10)%N; [|contradiction]. destruct HI as [<-|[]]. exists []; auto.
Qed.

Lemma re_split_concat r s : concat (re_split r s) = s.
Proof.
  unfold re_split. rewrite re_split_go_concat; auto.
  intros t rest g E. destruct (rmatch (length s) r t []) as [|m l] eqn:EM; try discriminate.
  simpl in E. injection E as ->.
  destruct (@rmatch_suffix (length s) r t [] (rest, g)) as [u HU].
  - rewrite EM. left. auto.
  - exists u. exact HU.
Qed.
