(** * Facts about the shipped tables of the tagger *)
From Coq Require Import Reals Lra.
From Flocq Require Import Core BinarySingleNaN.
From Verif Require Import PyBase PyRegex PyNum ModelFinalseg ModelSeg ModelPosseg SpecBase SpecSeg SpecTagging SpecPosseg SpecUnknown
  SpecPosMissing SpecPosTables InstB64 InstB64Ext B64Lit DataPosseg DataPossegOk DataPossegNum ModelPosTables
  ProofsBase ProofsDag ProofsSeg ProofsFinalseg ProofsNoHmm ProofsSuggest ProofsPosseg ProofsPvit ProofsPvit2 ProofsPosHmm2 ProofsMode ProofsAbsorb ProofsUnknown ProofsMissing ProofsB64Lit ProofsPosMissing.
Local Open Scope nat_scope.

Lemma start_nums_checked : forallb entry_small pos_start_nums = true.
Proof. vm_compute. reflexivity. Qed.
Lemma trans_nums_checked : forallb (forallb (fun me => entry_small (Some me))) pos_trans_nums = true.
Proof. vm_compute. reflexivity. Qed.

Lemma in_combine_snd {A B} (l : list A) (l' : list B) a b : In (a, b) (combine l l') -> In b l'.
Proof. intros I. apply in_combine_r in I. exact I. Qed.

Lemma pos_start_small y : match pos_start_num y with Some me => small (b64_of me) | None => True end.
Proof.
  unfold pos_start_num. destruct (dget pstate_eqb (combine pos_states pos_start_nums) y) as [[me|]|] eqn:E; auto.
  apply entry_small_ok. apply dget_In in E; [|apply pstate_eqb_ok]. apply in_combine_snd in E.
  pose proof start_nums_checked as X. rewrite forallb_forall in X. exact (X _ E).
Qed.

Lemma zero_small : small (b64_of (0, 0)%Z).
Proof. apply b64_of_small; lia. Qed.

Lemma pos_trans_small x y : small (b64_of (pos_trans_num x y)).
Proof.
  unfold pos_trans_num. destruct (dget pstate_eqb _ x) as [[js ns]|] eqn:E; [|apply zero_small].
  destruct (find _ (combine js ns)) as [[j me]|] eqn:FI; [|apply zero_small]. cbn [snd].
  apply find_some in FI. destruct FI as [FI _]. apply in_combine_snd in FI.
  apply dget_In in E; [|apply pstate_eqb_ok]. apply in_combine_snd, in_combine_snd in E.
  pose proof trans_nums_checked as X. rewrite forallb_forall in X. specialize (X _ E).
  rewrite forallb_forall in X. apply entry_small_ok. exact (X _ FI).
Qed.

Lemma small_not_min x : small x -> Beqb x b64_min_float = false.
Proof.
  intros [F S]. destruct (Beqb x b64_min_float) eqn:B; auto. exfalso.
  rewrite Beqb_correct in B by (auto; vm_compute; reflexivity).
  revert B. case Raux.Req_bool_spec; [intros B _|discriminate].
  pose proof min_float_low as ML. rewrite <- B in ML.
  assert (bpow radix2 200 < bpow radix2 333)%R by (apply bpow_lt; lia).
  apply Rabs_le_inv in S. lra.
Qed.

(** *** Comparing taggings from the end *)

Lemma p_not_above_last l' l x y : p_not_above (l' ++ [x]) (l ++ [y]) -> length l' = length l ->
  pstate_gt y x = true \/ (x = y /\ p_not_above l' l).
Proof.
  intros [E|(p' & a' & p & a & q & E' & E & LP & G)] LL.
  - apply app_inj_tail in E. destruct E as [-> ->]. right. split; auto. left. reflexivity.
  - destruct (exists_last (l := a' :: q)) as (r & z & Er); [discriminate|].
    destruct q as [|b q] using rev_ind.
    + change [a'] with ([] ++ [a']) in E'. apply app_inj_tail in E', E. left. destruct E' as [_ ->], E as [_ ->]. exact G.
    + clear r z Er IHq. rewrite app_comm_cons, app_assoc in E, E'. apply app_inj_tail in E', E.
      destruct E' as [-> ->], E as [-> ->]. right. split; auto. right. exists p', a', p, a, q. auto.
Qed.

Lemma p_not_above_antisym : forall l' l, p_not_above l' l -> p_not_above l l' -> l' = l.
Proof.
  assert (LEN : forall l' l, p_not_above l' l -> length l' = length l).
  { intros l' l [->|(p' & a' & p & a & q & -> & -> & LP & _)]; auto. rewrite !app_length. cbn [length]. lia. }
  induction l' as [|x l' IH] using rev_ind; intros l A B; pose proof (LEN _ _ A) as L.
  - destruct l; [reflexivity|discriminate].
  - destruct l as [|y l _] using rev_ind; [rewrite app_length in L; cbn in L; lia|].
    rewrite !app_length in L. cbn [length] in L. assert (L' : length l' = length l) by lia.
    destruct (p_not_above_last _ _ _ _ A L') as [X|[X X']].
    + destruct (p_not_above_last _ _ _ _ B (eq_sym L')) as [Y|[Y _]].
      * pose proof (pstate_gt_trans _ _ _ X Y) as Z. rewrite pstate_gt_irrefl in Z. discriminate.
      * subst. rewrite pstate_gt_irrefl in X. discriminate.
    + subst y. destruct (p_not_above_last _ _ _ _ B (eq_sym L')) as [Y|[_ Y]].
      * rewrite pstate_gt_irrefl in Y. discriminate.
      * rewrite (IH l X' Y). reflexivity.
Qed.

Lemma p_not_above_here l' l x y : length l' = length l -> pstate_gt x y = false -> x <> y -> p_not_above (l' ++ [x]) (l ++ [y]).
Proof.
  intros L G N. right. exists l', x, l, y, []. split; auto. split; auto. split; auto.
  destruct (pstate_gt_total x y) as [X|[X|X]]; congruence.
Qed.

Section Tagger.
  Variable lg : Z -> b64.
  Variable e : pstate -> char -> option b64.
  Hypothesis ES : forall y c x, e y c = Some x -> small x.
  Notation T := (tagger_tables lg e).

  Lemma tagger_start y : In y pos_states -> start_of T y = match pos_start_num y with Some me => b64_of me | None => b64_min_float end.
  Proof. intros I. unfold start_of, tagger_tables, shipped. cbn [t_start v_start]. apply p_in_In in I. rewrite I. reflexivity. Qed.

  Lemma tagger_sound : sound_ptables T.
  Proof.
    assert (TOK : tables_ok (infB lg) T).
    { apply shipped_ok; cbn [v_start v_trans v_emit].
      - intros y. pose proof (pos_start_small y) as S. destruct (pos_start_num y); [apply small_bfin; exact S|apply bfin_min].
      - intros x y. apply small_bfin, pos_trans_small.
      - intros y c x E. apply small_bfin. exact (ES _ _ _ E). }
    constructor; auto.
    - intros y P. apply shipped_pstate in P. rewrite tagger_start by auto. pose proof (pos_start_small y) as S.
      destruct (pos_start_num y); auto.
    - intros x y p (l & I & J). apply shipped_row in I. destruct I as (i & _ & -> & ->).
      apply in_map_iff in J. destruct J as (j & E & _).
      apply (f_equal snd) in E. cbn [snd v_trans] in E. rewrite <- E. apply pos_trans_small.
    - intros y e' c x E E'. unfold tagger_tables, shipped in E. cbn [t_emit v_emit] in E. destruct (p_in y pos_states); [|discriminate]. injection E as <-. exact (ES _ _ _ E').
  Qed.

  (** *** The states S x, S zg and S y *)

  Notation sx := (l_S, t_x). Notation szg := (l_S, t_zg). Notation sy := (l_S, t_y).

  Lemma tagger_step a b : step T a b <-> exists i, (i < 256)%N /\ a = pos_state i /\ In b (map pos_state (pos_row i)).
  Proof.
    split.
    - intros (p & l & I & J). apply shipped_row in I. destruct I as (i & L & -> & ->). exists i. split; auto. split; auto.
      apply in_map_iff in J. destruct J as (j & E & J). apply (f_equal fst) in E. cbn [fst] in E. rewrite <- E.
      apply in_map. exact J.
    - intros (i & L & -> & J). apply in_map_iff in J. destruct J as (j & <- & J).
      exists (b64_of (pos_trans_num (pos_state i) (pos_state j))).
      exists (map (fun j => (pos_state j, b64_of (pos_trans_num (pos_state i) (pos_state j)) : F (numB lg))) (pos_row i)). split.
      + unfold tagger_tables, shipped. cbn [t_trans v_trans].
        apply in_map_iff. exists (pos_state i, pos_row i). split; [reflexivity|].
        unfold pos_state, pos_row. apply combine_nth_In; rewrite ?pos_states_length, ?pos_rows_length; lia.
      + apply in_map_iff. exists j. auto.
  Qed.

  Lemma pos_index y : In y pos_states -> exists i, (i < 256)%N /\ y = pos_state i.
  Proof.
    intros I. apply (In_nth _ _ (l_S, [])) in I. destruct I as (n & L & E).
    assert (L' : n < 256) by (rewrite <- pos_states_length; exact L).
    exists (N.of_nat n). split; [lia|]. unfold pos_state. rewrite Nat2N.id. auto.
  Qed.

  Definition codes : list N := map N.of_nat (seq 0 256).
  Lemma codes_in i : (i < 256)%N -> In i codes.
  Proof. intros L. unfold codes. rewrite <- (N2Nat.id i). apply in_map. apply in_seq. lia. Qed.

  Definition facts_b (i : N) : bool :=
    let y := pos_state i in let into z := p_in z (map pos_state (pos_row i)) in
    negb (pstate_gt y szg) && (negb (into szg) || negb (pstate_gt y sx)) &&
    (negb (into sx) || match pos_start_num y with Some _ => negb (pstate_gt y sy) | None => true end) &&
    (negb (pstate_eqb y sx) || into szg) && (negb (pstate_eqb y szg) || into sx) && (negb (pstate_eqb y sy) || into sx).
  Lemma facts_checked : forallb facts_b codes = true.
  Proof. vm_compute. reflexivity. Qed.

  Lemma facts i : (i < 256)%N -> facts_b i = true.
  Proof. intros L. pose proof facts_checked as X. rewrite forallb_forall in X. apply X, codes_in, L. Qed.

  Ltac fact i L H := pose proof (facts i L) as H; unfold facts_b in H; cbv beta zeta in H;
    repeat (rewrite ?andb_true_iff, ?orb_true_iff, ?negb_true_iff in H).

  Lemma max_zg y : In y pos_states -> pstate_gt y szg = false.
  Proof. intros I. destruct (pos_index y I) as (i & L & ->). fact i L H. tauto. Qed.
  Lemma into_zg y : step T y szg -> pstate_gt y sx = false.
  Proof.
    intros S. apply tagger_step in S. destruct S as (i & L & -> & I). apply p_in_In in I. fact i L H.
    destruct H as (((((_ & [H|H]) & _) & _) & _) & _); auto. congruence.
  Qed.
  Lemma into_x y : step T y sx -> pos_start_num y <> None -> pstate_gt y sy = false.
  Proof.
    intros S N. apply tagger_step in S. destruct S as (i & L & -> & I). apply p_in_In in I. fact i L H.
    destruct H as ((((_ & [H|H]) & _) & _) & _); [congruence|]. destruct (pos_start_num (pos_state i)); [|congruence].
    apply negb_true_iff in H. exact H.
  Qed.

  Lemma states_in : In sx pos_states /\ In szg pos_states /\ In sy pos_states.
  Proof. rewrite <- !p_in_In. vm_compute. auto. Qed.
  Lemma starts_in : pos_start_num sx <> None /\ pos_start_num sy <> None.
  Proof. split; vm_compute; discriminate. Qed.

  Lemma step_x_zg : step T sx szg.
  Proof.
    destruct (pos_index _ (proj1 states_in)) as (i & L & E). apply tagger_step. exists i. split; auto. split; auto.
    fact i L H. rewrite <- E, pstate_eqb_refl in H. apply p_in_In.
    destruct H as (((_ & [H|H]) & _) & _); [discriminate|exact H].
  Qed.
  Lemma step_zg_x : step T szg sx.
  Proof.
    destruct (pos_index _ (proj1 (proj2 states_in))) as (i & L & E). apply tagger_step. exists i. split; auto. split; auto.
    fact i L H. rewrite <- E, pstate_eqb_refl in H. apply p_in_In.
    destruct H as ((_ & [H|H]) & _); [discriminate|exact H].
  Qed.
  Lemma step_y_x : step T sy sx.
  Proof.
    destruct (pos_index _ (proj2 (proj2 states_in))) as (i & L & E). apply tagger_step. exists i. split; auto. split; auto.
    fact i L H. rewrite <- E, pstate_eqb_refl in H. apply p_in_In.
    destruct H as (_ & [H|H]); [discriminate|exact H].
  Qed.

  (** y before x zg x zg ..., backwards *)
  Fixpoint unknown_rev (n : nat) : list pstate :=
    match n with
    | 0 => []
    | 1 => [sy]
    | S (S k) => szg :: sx :: unknown_rev k
    end.

  Lemma pair_ind (P : nat -> Prop) : P 0 -> P 1 -> (forall n, P n -> P (S (S n))) -> forall n, P n.
  Proof. intros P0 P1 PS n. enough (P n /\ P (S n)) by tauto. induction n as [|n [A B]]; auto. Qed.

  Lemma unknown_rev_ok n : rev (unknown_rev n) = map (fun t => (l_S, t)) (unknown_tags n).
  Proof.
    unfold unknown_tags. rewrite map_app. induction n as [| |n IH] using pair_ind; [reflexivity|reflexivity|].
    cbn [unknown_rev rev]. rewrite IH. replace (Nat.even (S (S n))) with (Nat.even n) by reflexivity.
    assert (D : S (S n) / 2 = S (n / 2)) by (change (S (S n)) with (1 * 2 + n); rewrite Nat.div_add_l by lia; reflexivity).
    rewrite D, <- !app_assoc. f_equal. clear IH D. induction (n / 2) as [|k IH]; [reflexivity|].
    cbn [repeat concat app map] in IH |- *. rewrite <- IH. reflexivity.
  Qed.

  Lemma unknown_rev_length n : length (unknown_rev n) = n.
  Proof. induction n as [| |n IH] using pair_ind; cbn [unknown_rev length]; auto. Qed.

  Lemma states_of l : steps T l -> 2 <= length l -> Forall (fun y => In y pos_states) l.
  Proof.
    assert (X : forall a b, step T a b -> In a pos_states /\ In b pos_states).
    { intros a b S. apply tagger_step in S. destruct S as (i & L & -> & I). split.
      - apply pos_state_In, L.
      - apply in_map_iff in I. destruct I as (j & <- & I). apply pos_state_In. apply (row_facts i j L I). }
    induction l as [|a l IH]; intros S L; [constructor|]. destruct S as [S S']. destruct l as [|b l]; [cbn in L; lia|].
    destruct (X _ _ S) as [A B]. constructor; auto. destruct l; auto. apply IH; auto. cbn. lia.
  Qed.

  Lemma greatest n : forall l, length l = n -> steps T l -> Forall (fun y => In y pos_states) l ->
    (forall y l', l = y :: l' -> pos_start_num y <> None) ->
    (forall y, l = [y] -> step T y sx) -> p_not_above l (rev (unknown_rev n)).
  Proof.
    induction n as [| |n IH] using pair_ind; intros l L SS SI ST SX.
    - destruct l; [left; reflexivity|discriminate].
    - destruct l as [|y [|]]; try discriminate. cbn [unknown_rev rev app].
      pose proof (into_x y (SX y eq_refl) (ST y [] eq_refl)) as G.
      destruct (pstate_eqb y sy) eqn:E; [left; apply pstate_eqb_ok in E; congruence|].
      apply (p_not_above_here [] []); auto. intros ->. rewrite pstate_eqb_refl in E. discriminate.
    - destruct (exists_last (l := l)) as (l1 & a & ->); [intros ->; discriminate|].
      rewrite app_length in L. cbn [length] in L. assert (L1 : length l1 = S n) by lia. clear L.
      destruct (exists_last (l := l1)) as (l2 & b & ->); [intros ->; discriminate|].
      rewrite app_length in L1. cbn [length] in L1. assert (L2 : length l2 = n) by lia. clear L1.
      apply steps_snoc_inv in SS. destruct SS as [SS BA]. cbn [unknown_rev rev].
      assert (LR : length (rev (unknown_rev n)) = n) by (rewrite rev_length; apply unknown_rev_length).
      apply Forall_app in SI. destruct SI as [SI IA]. inversion IA as [|? ? IA' _]; subst.
      pose proof (max_zg a IA') as GA.
      destruct (pstate_eqb a szg) eqn:EA.
      2: { apply p_not_above_here; auto; [rewrite !app_length, LR; reflexivity|]. intros ->. rewrite pstate_eqb_refl in EA. discriminate. }
      apply pstate_eqb_ok in EA. subst a. apply p_not_above_snoc.
      pose proof (into_zg b BA) as GB.
      destruct (pstate_eqb b sx) eqn:EB.
      2: { apply p_not_above_here; auto. intros ->. rewrite pstate_eqb_refl in EB. discriminate. }
      apply pstate_eqb_ok in EB. subst b. apply p_not_above_snoc.
      apply Forall_app in SI. destruct SI as [SI _]. apply IH; auto.
      + destruct l2 as [|z l3 _] using rev_ind; [exact I|]. apply steps_snoc_inv in SS. apply SS.
      + intros y l' ->. apply (ST y ((l' ++ [sx]) ++ [szg])). reflexivity.
      + intros y ->. apply (@steps_snoc_inv _ T [] y sx) in SS. apply SS.
  Qed.

  Lemma unknown_steps n : steps T (rev (unknown_rev n)).
  Proof.
    induction n as [| |n IH] using pair_ind; [exact I|split; exact I|]. cbn [unknown_rev rev].
    apply (@steps_snoc _ T _ sx szg); [|apply step_x_zg].
    destruct n as [|[|n]]; [split; exact I|apply (@steps_snoc _ T [] sy sx); [split; exact I|apply step_y_x]|].
    cbn [unknown_rev rev] in IH |- *. apply (@steps_snoc _ T _ szg sx); [exact IH|apply step_zg_x].
  Qed.

  Lemma unknown_start n y l : rev (unknown_rev n) = y :: l -> pos_start_num y <> None.
  Proof.
    revert l. induction n as [| |n IH] using pair_ind; intros l E; [discriminate| |].
    - injection E as <- _. apply starts_in.
    - cbn [unknown_rev rev] in E. destruct (rev (unknown_rev n)) as [|z r] eqn:ER.
      + injection E as <- _. apply starts_in.
      + injection E as <- _. apply (IH r). reflexivity.
  Qed.

  (** any states that steps join are considered for a text of unknown characters *)
  Lemma considered_any s : Forall (fun c => t_states T c = None) s ->
    forall ys, length ys = length s -> steps T ys -> Forall (fun y => In y pos_states) ys -> considered T s ys.
  Proof.
    induction s as [|c s IH] using rev_ind; intros F ys L SY SI.
    - destruct ys; [|discriminate]. split; auto. split; auto. intros [|i] y E; discriminate.
    - apply Forall_app in F. destruct F as [F FC]. inversion FC as [|? ? N _]; subst.
      destruct ys as [|y ys _] using rev_ind; [rewrite app_length in L; cbn in L; lia|].
      rewrite !app_length in L. cbn [length] in L. apply Forall_app in SI. destruct SI as [SI SY']. inversion SY' as [|? ? IY _]; subst.
      destruct ys as [|x ys _] using rev_ind.
      + destruct s; [|cbn in L; lia]. cbn [app]. split; auto. split; auto. intros [|[|i]] z E; try discriminate.
        injection E as <-. cbn [firstn rev app kept]. unfold char_state. rewrite N. apply shipped_pstate. exact IY.
      + apply steps_snoc_inv in SY. destruct SY as [SY ST].
        assert (C : considered T s (ys ++ [x])) by (apply IH; auto; lia).
        apply considered_snoc; auto. rewrite rev_app_distr. cbn [rev app]. destruct (rev s) as [|d r] eqn:ER.
        * exfalso. apply (f_equal (@length _)) in ER. rewrite rev_length in ER. rewrite app_length in L. cbn in L, ER. lia.
        * change (kept T (c :: d :: r) y) with ((exists x, kept T (d :: r) x /\ step T x y) /\
             (char_state T c y \/ forall z, (exists x, kept T (d :: r) x /\ step T x z) -> ~ char_state T c z)).
          rewrite <- ER. split; [|left; unfold char_state; rewrite N; apply shipped_pstate; exact IY].
          exists x. split; auto. destruct C as (LC & _ & K). rewrite app_length in LC. cbn [length] in LC.
          specialize (K (length ys) x). rewrite nth_error_app2, Nat.sub_diag in K by lia. specialize (K eq_refl).
          replace (S (length ys)) with (length s) in K by lia. rewrite firstn_all in K. exact K.
  Qed.

  Lemma unknown_lacking s : Forall (p_unknown T) s -> forall ys, length ys = length s -> p_lacking T s ys = length s.
  Proof.
    induction 1 as [|c s U _ IH]; intros ys L; destruct ys as [|y ys]; try discriminate; [reflexivity|].
    injection L as L. cbn [p_lacking length]. rewrite IH by auto. unfold p_lacks.
    destruct (t_emit T y) as [e'|] eqn:E; [rewrite (U y e' E)|]; reflexivity.
  Qed.

  Lemma tagger_unknown_chars s : Forall (tagger_unknown e) s ->
    Forall (fun c => t_states T c = None) s /\ Forall (p_unknown T) s.
  Proof.
    intros F. split; (eapply Forall_impl; [|exact F]); intros c [NI NE].
    - unfold tagger_tables, shipped. cbn [t_states]. destruct (dget N.eqb pos_chars c) as [l|] eqn:E; [|reflexivity].
      exfalso. apply NI. apply dget_In in E; [|intros; apply N.eqb_eq]. apply in_map_iff. exists (c, l). auto.
    - intros y e' E. unfold tagger_tables, shipped in E. cbn [t_emit v_emit] in E.
      destruct (p_in y pos_states); [|discriminate]. injection E as <-. apply NE.
  Qed.

  Lemma no_start_iff y : In y pos_states -> p_no_start T y = match pos_start_num y with Some _ => false | None => true end.
  Proof.
    intros I. unfold p_no_start. rewrite tagger_start by exact I. pose proof (pos_start_small y) as S.
    destruct (pos_start_num y) as [me|]; [apply small_not_min; exact S|]. vm_compute. reflexivity.
  Qed.

  (** the tags found for unknown characters *)
  Theorem tagger_unknown_route ord s : fair_order ord -> 2 <= length s -> blim (2 * length s) ->
    Forall (tagger_unknown e) s ->
    exists p, pviterbi T ord s = Ok (p, map (fun t => (l_S, t)) (unknown_tags (length s))).
  Proof.
    intros FO L2 LIM F. destruct (tagger_unknown_chars s F) as [FS FU].
    destruct (pviterbi_missing lg T tagger_sound ord s FO) as (p & route & E & CO & FEW & TIE); auto.
    { intros ->. cbn in L2. lia. }
    exists p. rewrite E. do 2 f_equal. rewrite <- unknown_rev_ok.
    set (best := rev (unknown_rev (length s))) in *.
    assert (LB : length best = length s) by (unfold best; rewrite rev_length; apply unknown_rev_length).
    assert (SB : steps T best) by apply unknown_steps.
    assert (CB : considered T s best).
    { apply considered_any; auto. apply states_of; auto. lia. }
    assert (LR : length route = length s) by apply CO. assert (SR : steps T route) by apply CO.
    assert (IR : Forall (fun y => In y pos_states) route) by (apply states_of; auto; lia).
    assert (IB : Forall (fun y => In y pos_states) best) by (apply states_of; auto; lia).
    assert (MB : p_missing T s best = length s).
    { unfold p_missing. rewrite unknown_lacking by auto. destruct best as [|y l] eqn:EB; [reflexivity|].
      inversion IB; subst. rewrite no_start_iff by auto. pose proof (unknown_start _ _ _ EB) as X.
      destruct (pos_start_num y); [reflexivity|congruence]. }
    assert (MR : p_missing T s route = length s).
    { pose proof (FEW best CB) as X. rewrite MB in X. revert X. unfold p_missing. rewrite unknown_lacking by auto. lia. }
    apply p_not_above_antisym.
    - apply greatest; auto.
      + intros y l' ->. inversion IR; subst. unfold p_missing in MR. rewrite unknown_lacking in MR by auto.
        rewrite no_start_iff in MR by auto. destruct (pos_start_num y); [discriminate|]. lia.
      + intros y ->. cbn in LR. lia.
    - destruct s as [|c w] eqn:EQs; [cbn in L2; lia|].
      inversion FU as [|? ? UC _]; subst. apply (TIE [] c w eq_refl UC best CB). congruence.
  Qed.

End Tagger.

(** ** The whole of a Han text goes to the tagger's HMM *)
Section Whole.
  Variable num : Num.
  Variable T : ptables num.
  Variable ord : orders.

  Lemma loop_singles s : forall (ts : list str) sen pl i begin,
    length ts = length s -> length sen <= i + length s ->
    ps_cut_loop sen pl i s (map (fun t => (l_S, t)) ts) begin i = gof (combine (map (fun c => [c]) s) ts).
  Proof.
    induction s as [|c s IH]; intros ts sen pl i begin L LS; destruct ts as [|t ts]; try discriminate.
    - cbn [ps_cut_loop map combine]. destruct (Nat.ltb_spec i (length sen)) as [X|X]; [cbn in LS; lia|reflexivity].
    - cbn [ps_cut_loop map combine]. cbn [fst snd]. replace (l_S =? l_B)%N with false by reflexivity.
      replace (l_S =? l_E)%N with false by reflexivity. replace (l_S =? l_S)%N with true by reflexivity.
      replace (i + 1) with (S i) by lia. rewrite (IH ts sen pl (S i) begin); [reflexivity| |]; cbn in *; lia.
  Qed.

  Lemma ps_cut_whole tab fr total s :
    Forall (fun c => han_char c = true) s -> 2 <= length s ->
    sane (sget fr) total -> prefix_closed (sget fr) ->
    (forall a w b, s = a ++ w ++ b -> is_word (sget fr) w -> length w = 1) ->
    ps_cut T ord true tab fr total s = ps_cut_han T ord s.
  Proof.
    intros HF L2 SA PC NW.
    assert (NE : s <> []) by (intros ->; cbn in L2; lia).
    assert (PF : Forall (fun c => pos_word_char c = true) s).
    { eapply Forall_impl; [|exact HF]. intros c H. unfold pos_word_char. rewrite H. reflexivity. }
    rewrite ps_cut_runs, (@runs_whole _ _ true NE PF). cbn [gfor fst snd]. rewrite gapp_nil_r.
    destruct SA as [TT PP]. unfold ps_hmm_block. destruct (calc_total num fr total s TT PP) as [route ER]. rewrite ER.
    rewrite (@ps_hmm_loop_eq num T ord) by (try lia; eapply calc_ok; eauto).
    pose proof (chosen_singles num fr total s (conj TT PP) PC NW) as CS. unfold chosen in CS. rewrite ER in CS. rewrite CS.
    rewrite <- (app_nil_r (map _ s)), group_p_app by (apply Forall_forall; intros w I; apply in_map_iff in I; destruct I as (c & <- & _); reflexivity).
    cbn [app group_p]. rewrite map_singleton_concat.
    unfold flush_p. destruct s as [|c s'] eqn:ES; [congruence|]. rewrite <- ES in *. unfold ps_buf.
    destruct (Nat.eqb_spec (length s) 1) as [X|_]; [lia|].
    replace (freq_true fr s) with false.
    - cbn [negb]. rewrite ps_cut_detail_runs, (@runs_whole _ _ true NE HF). cbn [gfor fst snd]. apply gapp_nil_r.
    - symmetry. unfold freq_true. destruct (sget fr s) as [n|] eqn:E; auto. apply negb_false_iff, Z.eqb_eq.
      destruct (Z.eq_dec n 0) as [|NZ]; auto. exfalso. assert (length s = 1); [|lia].
      apply (NW [] s []); [cbn [app]; now rewrite app_nil_r|]. exists n. auto.
  Qed.

  Lemma ps_cut_one tab fr total c : sane (sget fr) total -> han_char c = true ->
    ps_cut T ord true tab fr total [c] = gone ([c], tag_get tab [c]).
  Proof.
    intros SA HC. assert (PW : pos_word_char c = true) by (unfold pos_word_char; rewrite HC; reflexivity).
    assert (R : runs pos_word_char [c] = [(true, [c])]) by (apply runs_whole; [discriminate|constructor; auto]).
    rewrite ps_cut_runs, R. cbn [gfor fst snd]. rewrite gapp_nil_r.
    destruct (@chosen_partition num fr total [c] SA) as [C1 C2].
    destruct SA as [TT PP]. unfold ps_hmm_block. unfold chosen in C1, C2.
    destruct (calc_total num fr total [c] TT PP) as [route ER]. rewrite ER in *.
    rewrite (@ps_hmm_loop_eq num T ord) by (try (cbn; lia); eapply calc_ok; eauto).
    destruct (route_words (S (length [c])) [c] route 0) as [|w l]; [discriminate|].
    inversion C2 as [|? ? NW C2']; subst. destruct w as [|x w]; [congruence|].
    cbn [concat app] in C1. injection C1 as -> C1. apply app_eq_nil in C1. destruct C1 as [-> C1].
    destruct l as [|w l]; [reflexivity|]. inversion C2' as [|? ? NW' _]; subst. destruct w; [congruence|discriminate].
  Qed.
End Whole.

(** ** The tags of unknown characters *)
Lemma unknown_tags_more n : unknown_tags (S (S n)) = unknown_tags n ++ [t_x; t_zg].
Proof.
  assert (E : forall n, map (fun t => (l_S, t)) (unknown_tags n) = rev (unknown_rev n)) by (intros k; symmetry; apply unknown_rev_ok).
  assert (INJ : forall a b : list str, map (fun t => (l_S, t)) a = map (fun t => (l_S, t)) b -> a = b).
  { induction a as [|x a IH]; intros [|y b] X; try discriminate; auto. cbn [map] in X. injection X as -> X. f_equal. auto. }
  apply INJ. rewrite map_app, !E. cbn [unknown_rev rev map]. rewrite <- app_assoc. reflexivity.
Qed.

Lemma unknown_tags_length n : length (unknown_tags n) = n.
Proof.
  pose proof (unknown_rev_ok n) as E. apply (f_equal (@length _)) in E.
  rewrite rev_length, unknown_rev_length, map_length in E. symmetry. exact E.
Qed.

Lemma unknown_tags_change n : forall i, i < n -> nth_error (unknown_tags n) i <> nth_error (unknown_tags (S n)) i.
Proof.
  induction n as [| |n IH] using pair_ind; intros i L; [lia| |].
  - assert (i = 0) as -> by lia. vm_compute. discriminate.
  - rewrite (unknown_tags_more n), (unknown_tags_more (S n)). pose proof (unknown_tags_length n) as L1. pose proof (unknown_tags_length (S n)) as L2.
    destruct (lt_eq_lt_dec i n) as [[LT| ->]|GT].
    + rewrite !nth_error_app1 by lia. apply IH. exact LT.
    + rewrite nth_error_app2, nth_error_app1 by lia. replace (n - length (unknown_tags n)) with 0 by lia. cbn [nth_error].
      destruct n as [|n]; [vm_compute; discriminate|]. rewrite unknown_tags_more. pose proof (unknown_tags_length n) as L3.
      rewrite nth_error_app2 by lia. replace (S n - length (unknown_tags n)) with 1 by lia. vm_compute. discriminate.
    + assert (i = S n) as -> by lia. rewrite !nth_error_app2 by lia. replace (S n - length (unknown_tags n)) with 1 by lia.
      replace (S n - length (unknown_tags (S n))) with 0 by lia. vm_compute. discriminate.
Qed.
