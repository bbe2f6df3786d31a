(** * C104: the default mode of [cut] in binary64 and in exact arithmetic *)
From Coq Require Import Reals Lra Lia.
From Flocq Require Import Core BinarySingleNaN.
From Verif Require Import PyBase PyRegex PyNum ModelFinalseg ModelSeg ModelDict SpecBase SpecSeg SpecHmm SpecNum SpecScore SpecMode
  SpecDict SpecHealth SpecLog SpecRoundErr SpecUnknown SpecMissing SpecHmmErr InstR InstB64 InstB64Ext InstCount InstRound InstSign
  B64Lit ModelTables ProofsBase ProofsRegex ProofsSplit ProofsFinalseg ProofsSeg ProofsOpt ProofsNoHmm ProofsDict ProofsTotal ProofsSuggest ProofsWhole
  ProofsStable ProofsVit ProofsMode ProofsUnknown ProofsMissing ProofsB64Lit ProofsTables ProofsHmmErr PropsHmm PropsCut PropsMode PropsRoundErr PropsHmmErr
  ProofsPick ProofsSearch Demo ProofsDemo ProofsHealth.
Local Open Scope R_scope.

Lemma grouped_mono (S1 S2 : str -> list str -> Prop) D ws out :
  (forall x ps, S1 x ps -> S2 x ps) -> hmm_grouped S1 D ws out -> hmm_grouped S2 D ws out.
Proof.
  intros M G. induction G; [constructor|constructor; auto|]. apply hg_group; auto.
Qed.

Lemma stage_mono (F1 F2 : str -> list str -> Prop) force rs out :
  (forall r ws, In (true, r) rs -> F1 r ws -> F2 r ws) -> stage_text F1 force rs out -> stage_text F2 force rs out.
Proof.
  intros M G. induction G; constructor; auto.
  - apply M; auto. left. reflexivity.
  - apply IHG. intros; apply M; auto. right. auto.
  - apply IHG. intros; apply M; auto. right. auto.
Qed.

Lemma run_nonempty p s b r : In (b, r) (runs p s) -> r <> [].
Proof.
  intros I. pose proof (runs_class p s) as RC. rewrite Forall_forall in RC. apply (RC _ I).
Qed.

(** [jieba.cut(s)] over binary64 numbers: in every run of word characters a segmentation
    that none beats in probability by more than a factor 1 + n^2 / 2^43; in it the maximal
    groups of single characters that are not a word of the dictionary are divided anew, the
    Han runs among them by labels that are the best up to n^2 / 2^45. *)
Theorem C104_default_mode :
  forall (lg : Z -> b64), log_ok lg -> log_close lg ->
  forall (H : hmm (numB lg)) (fr : freqs) (total : Z) (force : list str) (s : str),
    moderate_tables H -> healthy fr total -> (total <= 2 ^ 44)%Z ->
    exists choice : str -> list str, exists out : str -> list str,
      cut (numB lg) H (mode_of false true) fr total force s =
        gof (flat_map (fun br : bool * str => if fst br then out (snd br) else chars_crlf (snd br))
                      (runs word_char s))
      /\ forall r, candidate (sget fr) r (choice r) /\
           ((length r <= 2 ^ 21)%nat ->
            forall ws', candidate (sget fr) r ws' ->
              prob (sget fr) total ws' <= prob (sget fr) total (choice r) * slack (length r)) /\
           hmm_grouped (fun x ps => stage_text (near_found H) force (runs han_char x) ps)
                       (sget fr) (choice r) (out r).
Proof.
  intros lg LO LC H fr total force s MT HE LT. pose proof HE as [PC _].
  destruct (@cut_hmm_text (numB lg) H fr total force s (healthy_sane HE)) as [out [HG E]].
  exists (chosen (numB lg) fr total), out. split; [exact E|]. intros r.
  split; [apply chosen_candidate; auto; apply healthy_sane; auto|].
  split; [intros LR ws' C; apply chosen_near; auto|].
  eapply grouped_mono; [|apply HG]. intros x ps EX. unfold stage_of in EX.
  destruct (@stage_ok (numB lg) H force x) as [ps' [EP ST]].
  assert (ps' = ps) as -> by (rewrite EX in EP; unfold gof in EP; congruence).
  eapply stage_mono; [|exact ST]. intros h ws I EW. cbv beta in EW.
  pose proof (run_nonempty _ _ _ _ I) as NH. destruct h as [|a obs]; [congruence|].
  rewrite fs_cut_han_eq in EW. assert (ws = decode [] (a :: obs) (snd (viterbi H a obs))) as -> by (unfold gof in EW; congruence).
  destruct (viterbi_path H a obs) as (PL & PCH & PF).
  exists (snd (viterbi H a obs)).
  assert (FF : final_from None (snd (viterbi H a obs))).
  { unfold final_from. destruct (snd (viterbi H a obs)); auto. discriminate. }
  split; [apply (@decode_concat None); simpl; auto|]. split; [|split; [split; auto|]].
  - destruct (@decode_spelled true None [] [] (a :: obs) (snd (viterbi H a obs))) as [bl [B1 [B2 B3]]];
      simpl; auto.
    exists bl. split; auto. split; auto. destruct bl; auto. tauto.
  - intros LN EX0. destruct (viterbi_near lg H MT LO a obs LN EX0) as (_ & M0 & BEST). auto.
Qed.

(** ** Where everything is clear, the result is the one of exact arithmetic *)

Lemma fs_cut_same num1 num2 (H1 : hmm num1) (H2 : hmm num2) force x :
  (forall h, In (true, h) (runs han_char x) -> fs_cut_han H1 h = fs_cut_han H2 h) ->
  fs_cut num1 H1 force x = fs_cut num2 H2 force x.
Proof.
  intros SAME. destruct (@stage_ok num1 H1 force x) as [o1 [E1 S1]]. destruct (@stage_ok num2 H2 force x) as [o2 [E2 S2]].
  rewrite E1, E2. f_equal. clear E1 E2. revert o2 S2.
  induction S1 as [|r ws rs o FW S1 IH|r ws rs o TP S1 IH]; intros o2 S2; inversion S2; subst; auto.
  - assert (ws0 = ws) as ->.
    { rewrite <- (SAME r ltac:(left; reflexivity)) in *. unfold gof in *. congruence. }
    f_equal. apply IH; auto. intros h I. apply SAME. right. auto.
  - assert (ws0 = ws) as -> by (eapply C58_pieces_unique; eauto).
    f_equal. apply IH; auto. intros h I. apply SAME. right. auto.
Qed.

Lemma group_prefix (P : str -> Prop) : forall (g1 g2 w1 w2 : list str), Forall P g1 -> Forall P g2 ->
  match w1 with w :: _ => ~ P w | [] => True end -> match w2 with w :: _ => ~ P w | [] => True end ->
  g1 ++ w1 = g2 ++ w2 -> g1 = g2 /\ w1 = w2.
Proof.
  induction g1 as [|x g1 IH]; intros [|y g2] w1 w2 F1 F2 H1 H2 E; cbn [app] in E.
  - auto.
  - subst w1. inversion F2; contradiction.
  - subst w2. inversion F1; contradiction.
  - injection E as -> E. inversion F1; inversion F2; subst. destruct (IH g2 w1 w2) as [-> ->]; auto.
Qed.

Lemma grouped_same (S1 S2 : str -> list str -> Prop) D all : forall ws,
  (forall g, single_group all g -> length g <> 1%nat -> ~ is_word D (concat g) -> forall p1 p2, S1 (concat g) p1 -> S2 (concat g) p2 -> p1 = p2) ->
  forall o1, hmm_grouped S1 D ws o1 -> forall a, all = a ++ ws -> 
  (a = [] \/ match ws with w :: _ => length w <> 1%nat | [] => True end \/ exists a' w, a = a' ++ [w] /\ length w <> 1%nat) ->
  forall o2, hmm_grouped S2 D ws o2 -> o1 = o2.
Proof.
  intros ws SAME o1 G1. induction G1 as [|w ws out L G1 IH|g ws ps out NG FG HD P1 P2 G1 IH]; intros a EA LA o2 G2.
  - inversion G2 as [| |g' ws' ps' out' NG' FG' HD' P1' P2' G2' E1 E2]; subst; auto.
    destruct g'; [congruence|discriminate].
  - inversion G2 as [|w' ws' out' L' G2' E1 E2|g' ws' ps' out' NG' FG' HD' P1' P2' G2' E1 E2]; subst.
    + f_equal. apply (IH (a ++ [w])); [rewrite <- app_assoc; reflexivity|right; right; eauto|exact G2'].
    + destruct g' as [|x g']; [congruence|]. injection E1 as E1 _. subst x. inversion FG'; contradiction.
  - assert (NW : forall w r, g ++ ws = w :: r -> length w = 1%nat).
    { intros w r E. destruct g as [|x g]; [congruence|]. injection E as -> _. inversion FG; auto. }
    inversion G2 as [E1 E2|w' ws' out' L' G2' E1 E2|g' ws' ps' out' NG' FG' HD' P1' P2' G2' E1 E2].
    + destruct g; [congruence|discriminate].
    + exfalso. apply L'. eapply NW. symmetry. exact E1.
    + destruct (group_prefix (fun w => length w = 1%nat) g' g ws' ws FG' FG HD' HD E1) as [-> ->]. subst o2.
      assert (SG : single_group all g).
      { exists a, ws. split; [exact EA|]. split; auto. split; auto. split; [|exact HD].
        destruct LA as [->|[LA|LA]]; auto. exfalso. destruct g as [|x g]; [congruence|]. cbn [app] in LA.
        apply LA. inversion FG; auto. }
      f_equal.
      * destruct (Nat.eq_dec (length g) 1) as [LG|LG]; [rewrite P1, P1' by auto; reflexivity|].
        destruct (wordb D (concat g)) eqn:WB.
        -- apply wordb_is_word in WB. rewrite P1, P1' by auto. reflexivity.
        -- assert (NWD : ~ is_word D (concat g)) by (intros X; apply wordb_is_word in X; congruence).
           apply (SAME g SG); auto.
      * apply (IH (a ++ g)); [rewrite <- app_assoc; exact EA| |exact G2'].
        right. left. exact HD.
Qed.

(** If every run of word characters has a segmentation that is clearly the best, and every
    Han run in its groups of single characters has labels that are clearly the best, then
    [jieba.cut(s)] is what exact arithmetic gives. *)
Theorem C104_same_as_exact :
  forall (lg : Z -> b64), log_ok lg -> log_close lg ->
  forall (H : hmm (numB lg)) (fr : freqs) (total : Z) (force : list str) (s : str) (win : str -> list str),
    moderate_tables H -> healthy fr total -> (total <= 2 ^ 44)%Z ->
    (forall r, In (true, r) (runs word_char s) ->
       (length r <= 2 ^ 21)%nat /\ clear_winner (sget fr) total r (win r) /\
       forall g h, single_group (win r) g -> length g <> 1%nat -> ~ is_word (sget fr) (concat g) ->
         In (true, h) (runs han_char (concat g)) -> exists ls, clear_labels H h ls) ->
    cut (numB lg) H (mode_of false true) fr total force s =
    cut numR (exact_tables H) (mode_of false true) fr total force s.
Proof.
  intros lg LO LC H fr total force s win MT HE LT CL. pose proof HE as [PC [P _]].
  destruct (@cut_hmm_text (numB lg) H fr total force s (healthy_sane HE)) as [o1 [G1 E1]].
  destruct (@cut_hmm_text numR (exact_tables H) fr total force s (healthy_sane HE)) as [o2 [G2 E2]].
  cbn [mode_of]. rewrite E1, E2. f_equal.
  rewrite !flat_map_concat_map. f_equal. apply map_ext_in. intros [[] r] I; [|reflexivity]. cbn [fst snd].
  destruct (CL r I) as (LR & CW & GR).
  assert (W1 : chosen (numB lg) fr total r = win r /\ chosen numR fr total r = win r).
  { destruct CW as [C B]. split.
    - pose proof (chosen_near lg LO LC fr total r (win r) HE LT LR C) as NB.
      destruct (list_eq_dec (list_eq_dec N.eq_dec) (chosen (numB lg) fr total r) (win r)) as [E|NE]; auto. exfalso.
      specialize (B (chosen (numB lg) fr total r) (chosen_candidate (numB lg) r (healthy_sane HE) PC) NE). lra.
    - destruct (list_eq_dec (list_eq_dec N.eq_dec) (chosen numR fr total r) (win r)) as [E|NE]; auto. exfalso.
      specialize (B (chosen numR fr total r) (chosen_candidate numR r (healthy_sane HE) PC) NE).
      pose proof (@chosen_prob fr total r (win r) (healthy_sane HE) PC C) as L.
      destruct (healthy_sane HE) as [_ N].
      pose proof (@prob_pos (sget fr) total (chosen numR fr total r) P N) as Q.
      assert (1 <= slack (length r)).
      { unfold slack. pose proof (pos_INR (length r)). assert (0 <= INR (length r) * INR (length r)) by nra. lra. }
      nra. }
  destruct W1 as [W1 W2]. pose proof (G1 r) as H1. pose proof (G2 r) as H2. rewrite W1 in H1. rewrite W2 in H2.
  pose proof (candidate_partition _ _ _ (proj1 CW)) as [CAT _].
  eapply (grouped_same _ _ (sget fr) (win r) (win r) _ _ H1 []); [reflexivity|auto|exact H2].
  Unshelve. intros g SG LG NW p1 p2 S1 S2. unfold stage_of in S1, S2.
  assert (SM : fs_cut (numB lg) H force (concat g) = fs_cut numR (exact_tables H) force (concat g)).
  { apply fs_cut_same. intros h IH.
    destruct (GR g h SG LG NW IH) as [ls CLS]. pose proof (run_nonempty _ _ _ _ IH) as NH.
    assert (LH : (length h <= 2 ^ 22)%nat).
    { apply Nat.le_trans with (2 ^ 21)%nat; [|apply Nat.pow_le_mono_r; lia]. eapply Nat.le_trans; [|exact LR].
      destruct SG as (a & b & EW & _). rewrite <- CAT, EW, !concat_app, !app_length.
      assert (length h <= length (concat g))%nat; [|lia].
      rewrite <- (runs_concat han_char (concat g)).
      clear - IH. induction (runs han_char (concat g)) as [|[b x] l IHl]; [destruct IH|].
      cbn [map concat]. rewrite app_length. destruct IH as [E|IH]; [injection E as -> ->; cbn [snd]; lia|]. apply IHl in IH. lia. }
    destruct (C103_clear_labels lg H h ls LO MT NH LH CLS) as (ws & F1 & F2 & _). congruence. }
  rewrite S1, S2 in SM. unfold gof in SM. congruence.
Qed.

(** 北京中国 with a dictionary that knows only 北京: 中国 is found by the HMM *)
Definition bj : dstate := build [([c_bei; c_jing], 30%Z)].
Example C104_nonvacuous : forall lg,
  let r := [c_bei; c_jing] ++ zhong_guo in
  let win := [[c_bei; c_jing]; [20013%N]; [22269%N]] in
  moderate_tables (shipped lg) /\ healthy (d_freq bj) (d_total bj) /\ (d_total bj <= 2 ^ 44)%Z /\
  runs word_char r = [(true, r)] /\ clear_winner (sget (d_freq bj)) (d_total bj) r win /\
  (forall g h, single_group win g -> length g <> 1%nat -> ~ is_word (sget (d_freq bj)) (concat g) ->
     In (true, h) (runs han_char (concat g)) -> exists ls, clear_labels (shipped lg) h ls) /\
  single_group win [[20013%N]; [22269%N]] /\ ~ is_word (sget (d_freq bj)) zhong_guo.
Proof.
  intros lg r win. split; [apply C103_shipped_tables|]. split; [apply healthyb_ok; vm_compute; reflexivity|].
  split; [vm_compute; discriminate|]. split; [vm_compute; reflexivity|].
  split; [|split; [|split]].
  - split; [apply candb_ok; vm_compute; reflexivity|]. intros ws' C N.
    apply (@cands_all (d_freq bj) ws' r 4 (le_n _)) in C. vm_compute in C. destruct C as [<-|[]]. exfalso. apply N. reflexivity.
  - intros g h (a & b & E & NG & FG & LA & HB) LG _ IH.
    assert (g = [[20013%N]; [22269%N]]) as ->.
    { unfold win in E. destruct a as [|a0 a].
      - exfalso. destruct g as [|g0 g]; [congruence|]. cbn [app] in E. injection E as <- _. inversion FG. discriminate.
      - cbn [app] in E. injection E as <- E. destruct a as [|a1 a].
        + destruct g as [|g0 [|g1 [|g2 g]]]; cbn [app] in E.
          * congruence.
          * exfalso. apply LG. reflexivity.
          * injection E as <- <- _. reflexivity.
          * injection E as _ _ E. discriminate E.
        + exfalso. cbn [app] in E. injection E as <- E. destruct LA as [LA|(a' & w & EA & LW)]; [discriminate LA|].
          destruct a as [|a2 a].
          * destruct a' as [|x [|y [|z a']]]; cbn [app] in EA; try discriminate EA. injection EA as _ <-. apply LW. reflexivity.
          * cbn [app] in E. injection E as _ E. destruct g; [congruence|]. destruct a; discriminate E. }
    change (In (true, h) [(true, zhong_guo)]) in IH. destruct IH as [IH|[]]. injection IH as <-. exists [LB; LE]. apply C103_nonvacuous.
  - exists [[c_bei; c_jing]], []. split; [reflexivity|]. split; [discriminate|]. split; [repeat constructor|]. split; [|exact I].
    right. exists [], [c_bei; c_jing]. split; [reflexivity|]. discriminate.
  - intros W. apply wordb_is_word in W. vm_compute in W. discriminate W.
Qed.

Print Assumptions C104_default_mode.
Print Assumptions C104_same_as_exact.
