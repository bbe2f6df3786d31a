(** * Locality: where a text can be cut in two before segmenting it *)
From Verif Require Import PyBase PyRegex PyNum ModelFinalseg ModelSeg SpecBase SpecSeg SpecFull
  ProofsBase ProofsRegex ProofsSplit ProofsFull.
Set Implicit Arguments.

Lemma runs_join p u v : u <> [] -> v <> [] ->
  exists l1 b1 r1 b2 r2 l2,
    runs p u = l1 ++ [(b1, r1)] /\ runs p v = (b2, r2) :: l2
    /\ (exists u0, u = u0 ++ r1) /\ r1 <> [] /\ r2 <> [] /\ (exists v0, v = r2 ++ v0)
    /\ runs p (u ++ v) = if Bool.eqb b1 b2 then l1 ++ (b1, r1 ++ r2) :: l2 else runs p u ++ runs p v.
Proof.
  intros NU NV. induction u as [|c u IH]; [congruence|]. destruct u as [|d u].
  - pose proof (runs_head p v) as RH. pose proof (runs_concat p v) as RC. pose proof (runs_class p v) as RK.
    destruct (runs p v) as [|[b2 r2] l2] eqn:E; [congruence|].
    exists [], (p c), [c], b2, r2, l2. simpl. rewrite E.
    split; auto. split; auto. split; [exists []; auto|]. split; [discriminate|].
    inversion RK; subst. simpl in *. split; [tauto|]. split; [exists (concat (map snd l2)); auto|].
    destruct b2, (p c); reflexivity.
  - destruct IH as (l1 & b1 & r1 & b2 & r2 & l2 & E1 & E2 & [u0 E3] & N1 & N2 & E4 & E5); [discriminate|].
    cbn [app] in *. cbn [runs] in *.
    destruct l1 as [|[b0 r0] l1].
    + rewrite E1. cbn [app]. 
      destruct (Bool.eqb b1 (p c)) eqn:EC.
      * exists [], b1, (c :: r1), b2, r2, l2. split; auto. split; auto.
        split; [exists u0|]. { pose proof (runs_concat p (d :: u)) as RC. cbn [runs] in RC. rewrite E1 in RC.
          simpl in RC. rewrite app_nil_r in RC. subst r1. apply (f_equal (@length _)) in E3.
          rewrite app_length in E3. destruct u0; [reflexivity|simpl in E3; lia]. }
        split; [discriminate|]. split; auto. split; auto.
        rewrite E5. destruct (Bool.eqb b1 b2); cbn [app]; [rewrite EC; reflexivity|].
        rewrite E1. cbn [app]. rewrite EC. reflexivity.
      * exists [(p c, [c])], b1, r1, b2, r2, l2. split; auto. split; auto.
        split; [exists (c :: u0); rewrite E3; auto|]. split; auto. split; auto. split; auto.
        rewrite E5. destruct (Bool.eqb b1 b2); cbn [app]; [rewrite EC; reflexivity|].
        rewrite E1. cbn [app]. rewrite EC. reflexivity.
    + rewrite E1. cbn [app].
      destruct (Bool.eqb b0 (p c)) eqn:EC.
      * exists ((b0, c :: r0) :: l1), b1, r1, b2, r2, l2. split; auto. split; auto.
        split; [exists (c :: u0); rewrite E3; auto|]. split; auto. split; auto. split; auto.
        rewrite E5. destruct (Bool.eqb b1 b2); cbn [app]; [rewrite EC; reflexivity|].
        rewrite E1. cbn [app]. rewrite EC. reflexivity.
      * exists ((p c, [c]) :: (b0, r0) :: l1), b1, r1, b2, r2, l2. split; auto. split; auto.
        split; [exists (c :: u0); rewrite E3; auto|]. split; auto. split; auto. split; auto.
        rewrite E5. destruct (Bool.eqb b1 b2); cbn [app]; [rewrite EC; reflexivity|].
        rewrite E1. cbn [app]. rewrite EC. reflexivity.
Qed.

(** the boundary between [u] and [v] does not separate CR from LF *)
Definition not_in_crlf (u v : str) : Prop :=
  ~ (exists u0 v0, u = u0 ++ [13%N] /\ v = 10%N :: v0).

Lemma chars_crlf_app u v : not_in_crlf u v -> chars_crlf (u ++ v) = chars_crlf u ++ chars_crlf v.
Proof.
  remember (length u) as n eqn:E. assert (L : length u <= n) by lia. clear E. revert u L.
  induction n as [|n IH]; intros [|c u] L NC; simpl in L; try lia; auto.
  destruct u as [|d u].
  - simpl. destruct v as [|d v]; auto. destruct ((c =? 13) && (d =? 10))%N eqn:E; auto.
    exfalso. apply NC. apply andb_true_iff in E. destruct E as [E1 E2]. apply N.eqb_eq in E1, E2. subst.
    exists [], v. auto.
  - cbn [app chars_crlf]. destruct ((c =? 13) && (d =? 10))%N.
    + rewrite IH; [reflexivity|simpl in L; lia|].
      intros [u0 [v0 [-> ->]]]. apply NC. exists (c :: d :: u0), v0. auto.
    + transitivity ([c] :: chars_crlf ((d :: u) ++ v)); [reflexivity|]. rewrite (IH (d :: u)); [reflexivity|simpl in *; lia|].
      intros [u0 [v0 [E ->]]]. apply NC. exists (c :: u0), v0. rewrite E. auto.
Qed.

(** ** Exact form of full mode outside word characters, up to empty strings *)

Definition nonempty (w : str) : bool := match w with [] => false | _ => true end.

Definition blank_pieces (s : str) : list str :=
  flat_map (fun br : bool * str => if fst br then chars_crlf (snd br) else [snd br]) (runs is_space s).

Lemma blank_pieces_crlf s : blank_pieces (13%N :: 10%N :: s) = [13; 10]%N :: blank_pieces s.
Proof.
  unfold blank_pieces. cbn [runs].
  replace (is_space 13%N) with true by reflexivity. replace (is_space 10%N) with true by reflexivity.
  destruct (runs is_space s) as [|[b r] rest]; [reflexivity|].
  destruct b; reflexivity.
Qed.

Lemma blank_pieces_space c s : is_space c = true -> not_in_crlf [c] s ->
  blank_pieces (c :: s) = [c] :: blank_pieces s.
Proof.
  intros SP NC. unfold blank_pieces. cbn [runs]. rewrite SP.
  pose proof (runs_concat is_space s) as RC.
  destruct (runs is_space s) as [|[b r] rest] eqn:ER; [reflexivity|].
  destruct b; cbn [Bool.eqb]; [|reflexivity].
  cbn [flat_map fst snd]. simpl in RC. change (c :: r) with ([c] ++ r). rewrite (@chars_crlf_app [c] r); [reflexivity|].
  intros [u0 [v0 [E1 E2]]]. apply NC. exists u0. rewrite <- RC, E2. simpl. eauto.
Qed.

Lemma blank_pieces_text a s : a <> [] -> Forall (fun c => is_space c = false) a ->
  match s with [] => True | c :: _ => is_space c = true end ->
  blank_pieces (a ++ s) = a :: blank_pieces s.
Proof.
  intros NE FA SW. unfold blank_pieces. rewrite (@runs_app_run is_space false a s); auto.
Qed.

Lemma cut_other_blank_go n0 fuel acc s :
  length s < fuel -> Forall (fun c => is_space c = false) acc ->
  exists ps,
  gfor (re_split_go fuel n0 re_skip_default acc s) gone = gof ps
  /\ filter nonempty ps = blank_pieces (rev acc ++ s).
Proof.
  revert acc s. induction fuel as [|fuel IH]; intros acc s L FA; [lia|].
  assert (PUSH : forall c s', s = c :: s' -> is_space c = false -> exists ps,
    gfor (re_split_go fuel n0 re_skip_default (c :: acc) s') gone = gof ps
    /\ filter nonempty ps = blank_pieces (rev acc ++ s)).
  { intros c s' -> SP. simpl in L. destruct (IH (c :: acc) s') as [ps [P1 P2]]; [lia|constructor; auto|].
    exists ps. split; auto. rewrite P2. simpl. rewrite <- app_assoc. reflexivity. }
  assert (TXT : forall s, match s with [] => True | c :: _ => is_space c = true end ->
     blank_pieces (rev acc ++ s) = filter nonempty [rev acc] ++ blank_pieces s).
  { intros s' SW. destruct acc as [|a acc]; [reflexivity|].
    rewrite blank_pieces_text; auto.
    - simpl. destruct (rev acc ++ [a]) eqn:E; [apply app_eq_nil in E; destruct E; discriminate|reflexivity].
    - simpl. intros E. apply app_eq_nil in E. destruct E; discriminate.
    - apply Forall_rev; auto. }
  cbn [re_split_go]. destruct s as [|c s].
  - cbn [gfor]. exists [rev acc]. split; auto. rewrite TXT; auto. unfold blank_pieces. simpl.
    rewrite app_nil_r. reflexivity.
  - rewrite skip_hd.
    assert (CASE : forall m rest, blank_pieces (c :: s) = m :: blank_pieces rest ->
       is_space c = true -> length rest <= length s -> m <> [] ->
       exists ps,
       gfor (rev acc :: m :: re_split_go fuel n0 re_skip_default [] rest) gone = gof ps
       /\ filter nonempty ps = blank_pieces (rev acc ++ c :: s)).
    { intros m rest E1 SP LR NM. destruct (IH [] rest) as [ps [P1 P2]]; [simpl in L; lia|constructor|].
      exists (rev acc :: m :: ps). unfold str in *. cbn [gfor]. rewrite P1. split; auto.
      rewrite TXT by auto. rewrite E1. simpl in P2. rewrite <- P2.
      cbn [filter]. destruct m; [congruence|]. cbn [nonempty].
      destruct (nonempty (rev acc)); reflexivity. }
    destruct s as [|d s].
    + destruct (is_space c) eqn:SP.
      * cbn [length Nat.ltb Nat.leb]. cbn [Nat.sub firstn].
        apply CASE; [|auto|simpl; lia|discriminate].
        apply blank_pieces_space; auto. intros [u0 [v0 [_ E]]]; discriminate.
      * apply PUSH; auto.
    + destruct ((c =? 13) && (d =? 10))%N eqn:E.
      * replace (length s <? length (c :: d :: s)) with true
          by (symmetry; apply Nat.ltb_lt; simpl; lia).
        rewrite (@firstn_minus_app _ (c :: d :: s) [c; d] s) by reflexivity.
        apply andb_true_iff in E. destruct E as [E1 E2]. apply N.eqb_eq in E1, E2. subst c d.
        apply CASE; [|auto|simpl; lia|discriminate]. apply blank_pieces_crlf.
      * destruct (is_space c) eqn:SP.
        -- replace (length (d :: s) <? length (c :: d :: s)) with true
             by (symmetry; apply Nat.ltb_lt; simpl; lia).
           rewrite (@firstn_minus_app _ (c :: d :: s) [c] (d :: s)) by reflexivity.
           apply CASE; [|auto|simpl; lia|discriminate].
           apply blank_pieces_space; auto. intros [u0 [v0 [E1 E2]]]. inversion E2; subst.
           destruct u0 as [|? [|]]; try discriminate. inversion E1; subst. discriminate.
        -- apply PUSH; auto.
Qed.

Lemma cut_other_blank blk :
  exists ps, cut_other true blk = gof ps /\ filter nonempty ps = blank_pieces blk.
Proof.
  unfold cut_other, re_split. simpl negb.
  rewrite (@gfor_ext _ _ _ _ gone) by (intros x _; destruct (re_matches re_skip_default x); reflexivity).
  apply (cut_other_blank_go (length blk) (acc:=[]) blk); auto.
Qed.

(** blank pieces are local at a boundary next to a blank *)
Lemma blank_pieces_app u v : not_in_crlf u v ->
  (exists u0 c, u = u0 ++ [c] /\ is_space c = true) \/ (exists c v0, v = c :: v0 /\ is_space c = true) ->
  blank_pieces (u ++ v) = blank_pieces u ++ blank_pieces v.
Proof.
  intros NC SP. destruct u as [|c u]; [reflexivity|]. destruct v as [|d v]; [rewrite !app_nil_r; reflexivity|].
  destruct (@runs_join is_space (c :: u) (d :: v)) as (l1 & b1 & r1 & b2 & r2 & l2 & E1 & E2 & [u0 E3] & N1 & N2 & [v0 E4] & E5);
    [discriminate|discriminate|].
  unfold blank_pieces. rewrite E5. destruct (Bool.eqb b1 b2) eqn:EB; [|apply flat_map_app].
  apply Bool.eqb_prop in EB. subst b2.
  rewrite E1, E2, !flat_map_app. simpl. rewrite app_nil_r, <- app_assoc. f_equal.
  destruct b1.
  - rewrite chars_crlf_app; [rewrite <- app_assoc; reflexivity|].
    intros [x [y [-> ->]]]. apply NC. exists (u0 ++ x), (y ++ v0). rewrite E3, E4, app_assoc. auto.
  - exfalso.
    pose proof (runs_class is_space (c :: u)) as K1. rewrite E1 in K1. apply Forall_app in K1. destruct K1 as [_ K1].
    pose proof (runs_class is_space (d :: v)) as K2. rewrite E2 in K2.
    inversion K1 as [|? ? [_ K1'] _]; subst. inversion K2 as [|? ? [_ K2'] _]; subst. simpl in *.
    destruct SP as [[u1 [x [EU SX]]]|[x [v1 [EV SX]]]].
    + destruct (exists_last N1) as [r1' [y ->]]. rewrite EU, app_assoc in E3. apply app_inj_tail in E3.
      destruct E3 as [_ ->]. apply Forall_app in K1'. destruct K1' as [_ K1']. inversion K1'; subst. congruence.
    + destruct r2 as [|y r2]; [congruence|]. rewrite EV in E4. inversion E4; subst. inversion K2'; subst. congruence.
Qed.

Section Loc.
  Variable num : Num.
  Variable H : hmm num.

  (** a place in a text that no word crosses *)
  Definition boundary (u v : str) : Prop :=
    not_in_crlf u v /\
    ((exists u0 c, u = u0 ++ [c] /\ word_char c = false) \/ (exists c v0, v = c :: v0 /\ word_char c = false)).

  Lemma join_false p u v l1 b1 r1 b2 r2 l2 :
    runs p u = l1 ++ [(b1, r1)] -> runs p v = (b2, r2) :: l2 ->
    r1 <> [] -> r2 <> [] ->
    (exists u0, u = u0 ++ r1) -> (exists v0, v = r2 ++ v0) -> b1 = b2 ->
    (exists u0 c, u = u0 ++ [c] /\ p c = false) \/ (exists c v0, v = c :: v0 /\ p c = false) ->
    b1 = false.
  Proof.
    intros E1 E2 N1 N2 [u0 E3] [v0 E4] <- SP. destruct b1; auto. exfalso.
    pose proof (runs_class p u) as K1. rewrite E1 in K1. apply Forall_app in K1. destruct K1 as [_ K1].
    pose proof (runs_class p v) as K2. rewrite E2 in K2.
    inversion K1 as [|? ? [_ K1'] _]; subst. inversion K2 as [|? ? [_ K2'] _]; subst. simpl in *.
    destruct SP as [[u1 [x [EU SX]]]|[x [v1 [EV SX]]]].
    + destruct (exists_last N1) as [r1' [y ->]]. rewrite app_assoc in EU. apply app_inj_tail in EU.
      destruct EU as [_ ->]. apply Forall_app in K1'. destruct K1' as [_ K1']. inversion K1'; subst. congruence.
    + destruct r2 as [|y r2]; [congruence|]. inversion EV; subst. inversion K2'; subst. congruence.
  Qed.

  Lemma cut_local m fr total force u v :
    is_full m = false -> boundary u v ->
    cut num H m fr total force (u ++ v) =
    gapp (cut num H m fr total force u) (cut num H m fr total force v).
  Proof.
    intros Hm [NC SP]. rewrite !cut_runs_accurate by auto.
    destruct u as [|c u]; [simpl; rewrite gapp_nil_l; reflexivity|].
    destruct v as [|d v]; [simpl; rewrite app_nil_r, gapp_nil_r; reflexivity|].
    destruct (@runs_join word_char (c :: u) (d :: v)) as (l1 & b1 & r1 & b2 & r2 & l2 & E1 & E2 & E3 & N1 & N2 & E4 & E5);
      [discriminate|discriminate|].
    rewrite E5. destruct (Bool.eqb b1 b2) eqn:EB; [|apply gfor_app].
    apply Bool.eqb_prop in EB.
    assert (b1 = false) by (eapply join_false; eauto). subst b1. subst b2.
    rewrite E1, E2, !gfor_app. cbn [gfor fst snd]. rewrite gapp_nil_r, <- !gapp_assoc. f_equal.
    rewrite gapp_assoc, gapp_gof. f_equal. f_equal.
    destruct E3 as [u0 E3], E4 as [v0 E4].
    apply chars_crlf_app. intros [x [y [-> ->]]]. apply NC. exists (u0 ++ x), (y ++ v0). rewrite E3, E4, app_assoc. auto.
  Qed.

  (** full mode up to empty strings *)
  Definition full_nonempty (fr : freqs) (s : str) : list str :=
    flat_map (fun br : bool * str => if fst br then filter nonempty (map (text_of (snd br)) (block_spans fr (snd br)))
                        else blank_pieces (snd br)) (runs word_char s).

  Lemma cut_full_nonempty fr total force s :
    exists ps, cut num H Full fr total force s = gof ps /\ filter nonempty ps = full_nonempty fr s.
  Proof.
    rewrite cut_runs. unfold full_nonempty. generalize (runs word_char s) as l.
    induction l as [|[b r] l [ps [P1 P2]]]; [exists []; split; auto|].
    cbn [gfor fst snd]. rewrite P1. destruct b.
    - exists (map (text_of r) (block_spans fr r) ++ ps). split.
      + cbn [cut_block]. rewrite cut_all_block_eq. reflexivity.
      + rewrite filter_app, P2. reflexivity.
    - destruct (cut_other_blank r) as [qs [Q1 Q2]]. exists (qs ++ ps). split.
      + cbn [is_full]. rewrite Q1. reflexivity.
      + rewrite filter_app, P2, Q2. reflexivity.
  Qed.

  Lemma full_nonempty_local fr u v :
    not_in_crlf u v ->
    (exists u0 c, u = u0 ++ [c] /\ is_space c = true /\ word_char c = false) ->
    full_nonempty fr (u ++ v) = full_nonempty fr u ++ full_nonempty fr v.
  Proof.
    intros NC SP. unfold full_nonempty.
    destruct u as [|c u]; [destruct SP as [u0 [c [E _]]]; destruct u0; discriminate|].
    destruct v as [|d v]; [simpl; rewrite !app_nil_r; reflexivity|].
    destruct (@runs_join word_char (c :: u) (d :: v)) as (l1 & b1 & r1 & b2 & r2 & l2 & E1 & E2 & E3 & N1 & N2 & E4 & E5);
      [discriminate|discriminate|].
    rewrite E5. destruct (Bool.eqb b1 b2) eqn:EB; [|apply flat_map_app].
    apply Bool.eqb_prop in EB.
    assert (b1 = false).
    { eapply (@join_false word_char (c :: u) (d :: v)); eauto. left. destruct SP as [u0 [x [A [B C]]]]. eauto. }
    subst b1. subst b2.
    rewrite E1, E2, !flat_map_app. cbn [flat_map fst snd]. rewrite app_nil_r, <- !app_assoc. f_equal.
    rewrite app_assoc. f_equal.
    destruct E3 as [u0 E3], E4 as [v0 E4].
    apply blank_pieces_app.
    - intros [x [y [-> ->]]]. apply NC. exists (u0 ++ x), (y ++ v0). rewrite E3, E4, app_assoc. auto.
    - left. destruct SP as [u1 [x [A [B C]]]]. destruct (exists_last N1) as [r1' [y ->]].
      rewrite A, app_assoc in E3. apply app_inj_tail in E3. destruct E3 as [_ ->]. eauto.
  Qed.
End Loc.
