(** * C107: [posseg.cut] in binary64 and in exact arithmetic *)
From Coq Require Import Reals Lra Lia.
From Flocq Require Import Core BinarySingleNaN.
From Verif Require Import PyBase PyRegex PyNum ModelFinalseg ModelSeg ModelDict ModelPosseg SpecBase SpecSeg SpecNum SpecScore
  SpecDict SpecHealth SpecLog SpecRoundErr SpecUnknown SpecTagging SpecPosseg SpecPosMissing SpecHmmErr SpecPosErr
  InstR InstExt InstB64 InstB64Ext InstCount InstRound InstSign
  DataPosseg DataPossegOk ModelPosTables
  ProofsBase ProofsRegex ProofsSplit ProofsDag ProofsFinalseg ProofsSeg ProofsOpt ProofsNoHmm ProofsDict ProofsTotal ProofsSuggest ProofsWhole
  ProofsPosseg ProofsPvit ProofsPvit2 ProofsPosHmm2 ProofsPosErr PropsPosseg PropsRoundErr PropsPosErr PropsDefault
  ProofsPick ProofsSearch Demo ProofsDemo ProofsHealth.
Local Open Scope R_scope.

Lemma tag_grouped_mono (S1 S2 : str -> list tagged -> Prop) D tag ws out :
  (forall x ps, (length x <= length (concat ws))%nat -> S1 x ps -> S2 x ps) -> tag_grouped S1 D tag ws out -> tag_grouped S2 D tag ws out.
Proof.
  intros M G. induction G as [|w ws out L G IH|g ws ps out NG FG HD P1 P2 G IH]; [constructor|constructor; auto|].
  - apply IH. intros x ps LX. apply M. cbn [concat]. rewrite app_length. lia.
  - apply gt_group; auto.
    + intros A B. apply M; auto. rewrite concat_app, app_length. lia.
    + apply IH. intros x ps' LX. apply M. rewrite concat_app, app_length. lia.
Qed.

Lemma stage_tags_mono (F1 F2 : str -> list tagged -> Prop) rs out :
  (forall r ws, In (true, r) rs -> F1 r ws -> F2 r ws) -> stage_tags F1 rs out -> stage_tags F2 rs out.
Proof.
  intros M G. induction G; constructor; auto.
  - apply M; auto. left. reflexivity.
  - apply IHG. intros; apply M; auto. right. auto.
  - apply IHG. intros; apply M; auto. right. auto.
Qed.

(** [posseg.cut(s)] over binary64 numbers: in every run of word characters a
    segmentation that none beats in probability by more than a factor 1 + n^2 / 2^43; in
    it words of several characters and groups that are dictionary words have the tags of
    the table, and the Han runs of the other groups of single characters are divided and
    tagged by states that are the best up to n^2 / 2^45. *)
Theorem C107_default_mode :
  forall (lg : Z -> b64), log_ok lg -> log_close lg ->
  forall (T : ptables (numB lg)) (ord : orders) (tab : sdict str) (fr : freqs) (total : Z) (s : str),
    moderate_ptables T -> bmes T -> one_tag T -> fair_order ord ->
    healthy fr total -> (total <= 2 ^ 44)%Z -> (Z.of_nat (length s) <= 2 ^ 49)%Z ->
    exists (choice : str -> list str) (out : str -> list tagged),
      ps_cut T ord true tab fr total s =
        gof (flat_map (fun br : bool * str => if fst br then out (snd br)
                                 else map (fun w => (w, [120%N])) (chars_crlf (snd br)))
                      (runs pos_word_char s)) /\
      forall r, In (true, r) (runs pos_word_char s) ->
        candidate (sget fr) r (choice r) /\
        ((length r <= 2 ^ 21)%nat ->
         forall ws', candidate (sget fr) r ws' ->
           prob (sget fr) total ws' <= prob (sget fr) total (choice r) * slack (length r)) /\
        tag_grouped (fun x ps => stage_tags (near_tags T) (runs han_char x) ps)
                    (sget fr) (fun w => tag_or_x (sget tab w)) (choice r) (out r).
Proof.
  intros lg LO LC T ord tab fr total s MT BM ST FO HE LT LS. pose proof HE as [PC _].
  assert (LIM : i_lim (infB lg) (2 * length s)) by (cbn [i_lim infB]; unfold blim; lia).
  destruct (ps_cut_text (numB lg) (infB lg) T (mp_ok T MT) BM ST ord FO true tab fr total s (healthy_sane HE) (fun _ => LIM)) as [out [E G]].
  exists (chosen (numB lg) fr total), out. split; [exact E|]. intros r HI.
  split; [apply chosen_candidate; auto; apply healthy_sane; auto|].
  split; [intros LR ws' C; apply chosen_near; auto|].
  destruct (G r HI) as [GR _]. cbn [block_spec] in GR.
  eapply tag_grouped_mono; [|exact GR]. intros x ps _ SX. unfold stage in SX.
  eapply stage_tags_mono; [|exact SX]. intros h ws I (ys & CO & BEST & SP & CAT).
  exists ys. split; auto. split; auto. split; auto. intros LH EX.
  apply best_near; auto. apply (run_nonempty _ _ _ _ I).
Qed.

(** ** Where everything is clear, the result is the one of exact arithmetic *)

Lemma group_p_same num1 num2 (T1 : ptables num1) (T2 : ptables num2) ord1 ord2 tab fr all :
  (forall g, single_group all g -> ps_buf T1 ord1 tab fr (concat g) = ps_buf T2 ord2 tab fr (concat g)) ->
  forall ws a g, all = a ++ g ++ ws -> Forall (fun w => length w = 1%nat) g ->
    (a = [] \/ exists a' w, a = a' ++ [w] /\ length w <> 1%nat) ->
    group_p num1 T1 ord1 tab fr (concat g) ws = group_p num2 T2 ord2 tab fr (concat g) ws.
Proof.
  intros SAME. 
  assert (FL : forall a g b, all = a ++ g ++ b -> Forall (fun w => length w = 1%nat) g ->
    (a = [] \/ exists a' w, a = a' ++ [w] /\ length w <> 1%nat) ->
    match b with w :: _ => length w <> 1%nat | [] => True end ->
    flush_p num1 T1 ord1 tab fr (concat g) = flush_p num2 T2 ord2 tab fr (concat g)).
  { intros a g b E F LA HB. unfold flush_p. destruct g as [|w g]; [reflexivity|].
    assert (SG : single_group all (w :: g)) by (exists a, b; split; auto; split; [discriminate|auto]).
    rewrite (SAME _ SG). destruct (concat (w :: g)); reflexivity. }
  induction ws as [|w ws IH]; intros a g E F LA; cbn [group_p].
  - apply (FL a g []); auto.
  - destruct (Nat.eqb_spec (length w) 1) as [L|L].
    + replace (concat g ++ w) with (concat (g ++ [w])) by (rewrite concat_app; cbn [concat]; rewrite app_nil_r; reflexivity).
      apply (IH a); auto.
      * rewrite E, <- app_assoc. reflexivity.
      * apply Forall_app. split; auto.
    + rewrite (FL a g (w :: ws)) by auto. do 2 f_equal.
      apply (IH (a ++ g ++ [w]) []); auto.
      * rewrite E, <- !app_assoc. reflexivity.
      * right. exists (a ++ g), w. rewrite <- app_assoc. auto.
Qed.

Lemma hmm_block_group num (T : ptables num) ord tab fr total r :
  sane (sget fr) total -> ps_hmm_block T ord tab fr total r = group_p num T ord tab fr [] (chosen num fr total r).
Proof.
  intros [TT PP]. unfold chosen. destruct (calc_total num fr total r TT PP) as [route ER].
  unfold ps_hmm_block. rewrite ER. apply ps_hmm_loop_eq; try lia. eapply calc_ok; eauto.
Qed.

Lemma score_X D total ws : score numX D total ws = Some (score numR D total ws).
Proof.
  unfold score. induction ws as [|w ws IH]; [reflexivity|]. cbn [fold_right]. rewrite IH. reflexivity.
Qed.

(** If every run of word characters has a segmentation that is clearly the best, and every
    Han run in its groups of single characters has a tagging that is clearly the best, then
    [posseg.cut(s)] is what exact arithmetic gives, whatever the order of sets. *)
Theorem C107_same_as_exact :
  forall (lg : Z -> b64), log_ok lg -> log_close lg ->
  forall (T : ptables (numB lg)) (ord ord' : orders) (tab : sdict str) (fr : freqs) (total : Z) (s : str)
         (win : str -> list str),
    moderate_ptables T -> fair_order ord -> fair_order ord' -> healthy fr total -> (total <= 2 ^ 44)%Z ->
    (forall r, In (true, r) (runs pos_word_char s) ->
       (length r <= 2 ^ 21)%nat /\ clear_winner (sget fr) total r (win r) /\
       forall g h, single_group (win r) g -> length g <> 1%nat -> ~ is_word (sget fr) (concat g) ->
         In (true, h) (runs han_char (concat g)) -> exists ys, clear_tagging T h ys) ->
    ps_cut T ord true tab fr total s = ps_cut (exact_ptables T) ord' true tab fr total s.
Proof.
  intros lg LO LC T ord ord' tab fr total s win MT FO FO' HE LT CL. pose proof HE as [PC [P _]].
  rewrite !ps_cut_runs. apply gfor_ext. intros [b r] HI. cbn [fst snd]. destruct b; auto.
  destruct (CL r HI) as (LR & CW & GR).
  assert (W1 : chosen (numB lg) fr total r = win r /\ chosen numX fr total r = win r).
  { destruct CW as [C B]. split.
    - pose proof (chosen_near lg LO LC fr total r (win r) HE LT LR C) as NB.
      destruct (list_eq_dec (list_eq_dec N.eq_dec) (chosen (numB lg) fr total r) (win r)) as [E|NE]; auto. exfalso.
      specialize (B (chosen (numB lg) fr total r) (chosen_candidate (numB lg) r (healthy_sane HE) PC) NE). lra.
    - destruct (list_eq_dec (list_eq_dec N.eq_dec) (chosen numX fr total r) (win r)) as [E|NE]; auto. exfalso.
      specialize (B (chosen numX fr total r) (chosen_candidate numX r (healthy_sane HE) PC) NE).
      pose proof (@chosen_best numX orderX fr total r (win r) (healthy_sane HE) PC C) as L. rewrite !score_X in L.
      cbn [o_val orderX ext_order] in L. apply score_le_prob in L; [|apply (healthy_sane HE)..].
      destruct (healthy_sane HE) as [_ N].
      pose proof (@prob_pos (sget fr) total (chosen numX fr total r) P N) as Q.
      assert (1 <= slack (length r)).
      { unfold slack. pose proof (pos_INR (length r)). assert (0 <= INR (length r) * INR (length r)) by nra. lra. }
      nra. }
  destruct W1 as [W1 W2]. rewrite !hmm_block_group by (apply healthy_sane; auto). rewrite W1, W2.
  pose proof (candidate_partition _ _ _ (proj1 CW)) as [CAT _].
  apply (group_p_same _ _ _ _ _ _ tab fr (win r)) with (a := []) (g := []); auto.
  intros g SG. unfold ps_buf.
  assert (LG : length (concat g) = length g).
  { destruct SG as (a & b & _ & _ & F & _). clear - F. induction F as [|w g L F IH]; [reflexivity|].
    cbn [concat length]. rewrite app_length, L, IH. reflexivity. }
  rewrite LG. destruct (Nat.eqb_spec (length g) 1) as [|NG]; auto.
  destruct (freq_true fr (concat g)) eqn:FT; cbn [negb]; auto.
  assert (NW : ~ is_word (sget fr) (concat g)).
  { intros W. apply wordb_is_word in W. rewrite <- freq_true_wordb in W. congruence. }
  rewrite !ps_cut_detail_runs. apply gfor_ext. intros [b h] IH. cbn [fst snd]. destruct b; auto.
  destruct (GR g h SG NG NW IH) as [ys CLT]. pose proof (run_nonempty _ _ _ _ IH) as NH.
  assert (LH : (length h <= 2 ^ 22)%nat).
  { apply Nat.le_trans with (2 ^ 21)%nat; [|apply Nat.pow_le_mono_r; lia]. eapply Nat.le_trans; [|exact LR].
    destruct SG as (a & b & EW & _). rewrite <- CAT, EW, !concat_app, !app_length.
    assert (length h <= length (concat g))%nat; [|lia].
    rewrite <- (runs_concat han_char (concat g)).
    clear - IH. induction (runs han_char (concat g)) as [|[b x] l IHl]; [destruct IH|].
    cbn [map concat]. rewrite app_length. destruct IH as [E|IH]; [injection E as -> ->; cbn [snd]; lia|]. apply IHl in IH. lia. }
  apply (C106_clear_tagging lg T ord ord' h ys MT FO FO' NH LH CLT).
Qed.

(** 北京一人 with a dictionary that knows only 北京, the start and transition numbers that
    are shipped and three emission numbers: 一人 is tagged by the HMM *)
Example C107_nonvacuous : forall lg,
  let r := [c_bei; c_jing] ++ yi_ren in
  let win := [[c_bei; c_jing]; [0x4e00%N]; [0x4eba%N]] in
  let T := tagger_tables lg e_three in
  moderate_ptables T /\ bmes T /\ one_tag T /\ healthy (d_freq bj) (d_total bj) /\ (d_total bj <= 2 ^ 44)%Z /\
  runs pos_word_char r = [(true, r)] /\ clear_winner (sget (d_freq bj)) (d_total bj) r win /\
  (forall g h, single_group win g -> length g <> 1%nat -> ~ is_word (sget (d_freq bj)) (concat g) ->
     In (true, h) (runs han_char (concat g)) -> exists ys, clear_tagging T h ys) /\
  single_group win [[0x4e00%N]; [0x4eba%N]] /\ ~ is_word (sget (d_freq bj)) yi_ren.
Proof.
  intros lg r win T. split; [apply C106_shipped_tables, e_three_32|].
  split; [apply shipped_bmes|]. split; [intros x y; apply shipped_same_tag|].
  split; [apply healthyb_ok; vm_compute; reflexivity|].
  split; [vm_compute; discriminate|]. split; [vm_compute; reflexivity|].
  split; [|split; [|split]].
  - split; [apply candb_ok; vm_compute; reflexivity|]. intros ws' C N.
    apply (@cands_all (d_freq bj) ws' r 4 (le_n _)) in C. vm_compute in C. destruct C as [<-|[]]. exfalso. apply N. reflexivity.
  - intros g h (a & b & E & NG & FG & LA & HB) LG _ IH.
    assert (g = [[0x4e00%N]; [0x4eba%N]]) as ->.
    { unfold win in E. destruct a as [|a0 a].
      - exfalso. destruct g as [|g0 g]; [congruence|]. cbn [app] in E. injection E as <- _. inversion FG. discriminate.
      - cbn [app] in E. injection E as <- E. destruct a as [|a1 a].
        + destruct g as [|g0 [|g1 [|g2 g]]]; cbn [app] in E.
          * congruence.
          * exfalso. apply LG. reflexivity.
          * injection E as <- <- _. reflexivity.
          * injection E as _ _ E. discriminate E.
        + exfalso. cbn [app] in E. injection E as <- E. destruct LA as [LA|(a' & w & EA & LW)]; [discriminate LA|].
          destruct a as [|a2 a].
          * destruct a' as [|x [|y [|z a']]]; cbn [app] in EA; try discriminate EA. injection EA as _ <-. apply LW. reflexivity.
          * cbn [app] in E. injection E as _ E. destruct g; [congruence|]. destruct a; discriminate E. }
    change (In (true, h) [(true, yi_ren)]) in IH. destruct IH as [IH|[]]. injection IH as <-. exists [s_m; s_n]. apply C106_nonvacuous.
  - exists [[c_bei; c_jing]], []. split; [reflexivity|]. split; [discriminate|]. split; [repeat constructor|]. split; [|exact I].
    right. exists [], [c_bei; c_jing]. split; [reflexivity|]. discriminate.
  - intros W. apply wordb_is_word in W. vm_compute in W. discriminate W.
Qed.

Print Assumptions C107_default_mode.
Print Assumptions C107_same_as_exact.
Print Assumptions C107_nonvacuous.
