(** * The HMM stage of the tagger: words from states *)
From Verif Require Import PyBase PyRegex PyNum ModelFinalseg ModelSeg ModelDict ModelApi ModelPosseg
  SpecBase SpecSeg SpecPosseg SpecTagging ProofsBase ProofsRegex ProofsSplit ProofsDag ProofsFinalseg
  ProofsSeg ProofsPosseg ProofsPvit ProofsPvit2.

(** what may follow a state: the BMES grammar, and the same tag inside a word *)
Definition good (x y : pstate) : Prop :=
  letter_follows (fst x) (fst y) /\ (fst x = l_B \/ fst x = l_M -> snd x = snd y).

Fixpoint good_from (prev : option pstate) (ys : list pstate) : Prop :=
  match ys with
  | [] => True
  | y :: ys' => In (fst y) [l_B; l_E; l_M; l_S] /\ match prev with None => True | Some x => good x y end
                /\ good_from (Some y) ys'
  end.

(** the states of an unfinished word *)
Definition opened (first : bool) (t : str) (rcur : list pstate) : Prop :=
  (exists n, rcur = (l_B, t) :: repeat (l_M, t) n) \/
  (first = true /\ exists n, 0 < n /\ rcur = repeat (l_M, t) n).

Lemma opened_last first t rcur : opened first t rcur -> exists r x, rcur = r ++ [x] /\ snd x = t /\ (fst x = l_B \/ fst x = l_M).
Proof.
  intros [[n ->]|[_ [n [L ->]]]].
  - destruct n as [|n].
    + exists [], (l_B, t). auto.
    + exists ((l_B, t) :: repeat (l_M, t) n), (l_M, t). rewrite <- repeat_snoc. auto.
  - destruct n as [|n]; [lia|]. exists (repeat (l_M, t) n), (l_M, t). rewrite <- repeat_snoc. auto.
Qed.

Lemma opened_more first t rcur : opened first t rcur -> opened first t (rcur ++ [(l_M, t)]).
Proof.
  intros [[n ->]|[F [n [L ->]]]].
  - left. exists (S n). simpl. f_equal. apply repeat_snoc.
  - right. split; auto. exists (S n). split; [lia|]. apply repeat_snoc.
Qed.

Lemma slice_mid (a b c : str) : slice (a ++ b ++ c) (length a) (length a + length b) = b.
Proof.
  unfold slice. rewrite skipn_app, Nat.sub_diag, skipn_all. cbn [app skipn].
  replace (length a + length b - length a) with (length b) by lia.
  rewrite firstn_app, Nat.sub_diag, firstn_all. cbn [firstn]. apply app_nil_r.
Qed.

Lemma loop_ok (s : str) (route : list pstate) (rest : str) : forall (poss : list pstate) (first : bool),
  length poss = length rest ->
  (* between words *)
  (forall pre rpre begin prev,
     s = pre ++ rest -> route = rpre ++ poss -> length rpre = length pre ->
     (if first then pre = [] /\ prev = None /\ begin = 0
      else exists x, prev = Some x /\ (fst x = l_E \/ fst x = l_S)) ->
     good_from prev poss ->
     exists ws, ps_cut_loop s route (length pre) rest poss begin (length pre) = gof ws /\
                partition rest (map fst ws) /\ spelled first ws poss) /\
  (* inside a word *)
  (forall pre rpre cur rcur t prev,
     s = pre ++ cur ++ rest -> route = rpre ++ rcur ++ poss -> length rpre = length pre ->
     length rcur = length cur -> opened first t rcur ->
     (exists x r, rcur = r ++ [x] /\ prev = Some x) -> good_from prev poss ->
     exists ws, ps_cut_loop s route (length pre + length cur) rest poss (length pre) (length pre) = gof ws /\
                partition (cur ++ rest) (map fst ws) /\ spelled first ws (rcur ++ poss)).
Proof.
  induction rest as [|ch rest IH]; intros poss first L.
  - destruct poss; [|discriminate]. split.
    + intros pre rpre begin prev -> -> LR _ _. cbn [ps_cut_loop].
      rewrite app_nil_r, Nat.ltb_irrefl. exists []. split; [reflexivity|]. split; [apply partition_nil|constructor].
    + intros pre rpre cur rcur t prev -> -> LR LC OP _ _. cbn [ps_cut_loop].
      rewrite !app_nil_r. destruct (opened_last _ _ _ OP) as [r [x [ER [ET EL]]]].
      assert (NE : cur <> []) by (intros ->; subst rcur; rewrite app_length in LC; simpl in LC; lia).
      assert (LC0 : 0 < length cur) by (destruct cur; [congruence|simpl; lia]).
      replace (length pre <? length (pre ++ cur)) with true
        by (symmetry; apply Nat.ltb_lt; rewrite app_length; lia).
      assert (HD : exists y, nth_error (rpre ++ rcur) (length pre) = Some y /\ snd y = t).
      { rewrite <- LR, nth_error_app2, Nat.sub_diag by lia.
        destruct OP as [[n ->]|[_ [n [L0 ->]]]].
        - exists (l_B, t). auto.
        - destruct n; [lia|]. exists (l_M, t). auto. }
      destruct HD as [y [HD HT]]. rewrite HD, HT.
      exists [(cur, t)]. rewrite skipn_app, Nat.sub_diag, skipn_all. cbn [app skipn].
      split; [reflexivity|]. split.
      * split; simpl; [apply app_nil_r|]. constructor; auto.
      * destruct OP as [[n ->]|[-> [n [L0 ->]]]].
        -- apply sp_last. simpl in LC. rewrite repeat_length in LC. lia.
        -- apply sp_whole; auto. rewrite repeat_length in LC. lia.
  - destruct poss as [|y poss]; [discriminate|]. simpl in L. injection L as L.
    assert (LB : forall a b, In a [l_B; l_E; l_M; l_S] -> letter_follows b a -> True) by auto.
    split.
    + (* between words *)
      intros pre rpre begin prev Es Er LR FI [GL [GP GF]]. cbn [ps_cut_loop].
      destruct y as [l t]. cbn [fst snd] in *.
      assert (SN : S (length pre) = length (pre ++ [ch])) by (rewrite app_length; simpl; lia).
      assert (SL : slice s (length pre) (length pre + 1) = [ch]).
      { subst s. change (ch :: rest) with ([ch] ++ rest). apply (slice_mid pre [ch] rest). }
      (* after a complete word *)
      assert (NEXT : forall b l' , l' = l_E \/ l' = l_S -> l' = l ->
        exists ws, ps_cut_loop s route (S (length pre)) rest poss b (length pre + 1) = gof ws /\
                   partition rest (map fst ws) /\ spelled false ws poss).
      { intros b l' EL EQ. subst l'. destruct (IH poss false L) as [IH1 _].
        replace (length pre + 1) with (S (length pre)) by lia. rewrite SN.
        apply (IH1 (pre ++ [ch]) (rpre ++ [(l, t)]) b (Some (l, t))); auto.
        - rewrite <- app_assoc. auto.
        - rewrite <- app_assoc. auto.
        - rewrite !app_length. simpl. lia.
        - exists (l, t). auto. }
      assert (OPEN : opened first t [(l, t)] -> forall b, b = length pre ->
        exists ws, ps_cut_loop s route (S (length pre)) rest poss b (length pre) = gof ws /\
                   partition (ch :: rest) (map fst ws) /\ spelled first ws ((l, t) :: poss)).
      { intros OP b ->. destruct (IH poss first L) as [_ IH2].
        replace (S (length pre)) with (length pre + length [ch]) by (simpl; lia).
        change (ch :: rest) with ([ch] ++ rest). change ((l, t) :: poss) with ([(l, t)] ++ poss).
        apply (IH2 pre rpre [ch] [(l, t)] t (Some (l, t))); auto.
        exists (l, t), []. auto. }
      destruct (l =? l_B)%N eqn:EB.
      { apply N.eqb_eq in EB. apply OPEN; auto. left. exists 0. subst. reflexivity. }
      destruct (l =? l_E)%N eqn:EE.
      { apply N.eqb_eq in EE. subst l.
        destruct first.
        - destruct FI as [-> [-> ->]]. cbn [length] in *. rewrite SL.
          destruct (NEXT 0 l_E) as [ws [E [P SP]]]; auto. rewrite E.
          exists (([ch], t) :: ws). split; [reflexivity|]. split.
          + destruct P as [P1 P2]. split; simpl; [now rewrite P1|]. constructor; [discriminate|auto].
          + apply (sp_first [ch] t 0); auto.
        - exfalso. destruct FI as [x [-> EX]]. destruct GP as [GP _]. cbn [fst] in GP.
          destruct GP as [[A _]|[_ A]]; [destruct EX as [EX|EX]; rewrite EX in A|]; destruct A as [A|A]; discriminate. }
      destruct (l =? l_S)%N eqn:ES.
      { apply N.eqb_eq in ES. subst l.
        destruct (NEXT begin l_S) as [ws [E [P SP]]]; auto. rewrite E.
        exists (([ch], t) :: ws). split; [reflexivity|]. split.
        + destruct P as [P1 P2]. split; simpl; [now rewrite P1|]. constructor; [discriminate|auto].
        + constructor. auto. }
      apply N.eqb_neq in EB, EE, ES.
      assert (l = l_M) by (destruct GL as [A|[A|[A|[A|[]]]]]; congruence). subst l.
      destruct first.
      * destruct FI as [-> [-> ->]]. apply OPEN; auto. right. split; auto. exists 1. split; auto.
      * exfalso. destruct FI as [x [-> EX]]. destruct GP as [GP _]. cbn [fst] in GP.
        destruct GP as [[A _]|[_ A]]; [destruct EX as [EX|EX]; rewrite EX in A|]; destruct A as [A|A]; discriminate.
    + (* inside a word *)
      intros pre rpre cur rcur t prev Es Er LR LC OP PV [GL [GP GF]]. cbn [ps_cut_loop].
      destruct (opened_last _ _ _ OP) as [r [x [EX [TX LX]]]].
      destruct PV as [x' [r' [EX' ->]]]. rewrite EX in EX'. apply app_inj_tail in EX'.
      destruct EX' as [<- <-]. destruct GP as [GP GT].
      specialize (GT LX). rewrite TX in GT. destruct y as [l t']. cbn [fst snd] in *. subst t'.
      assert (LL : l = l_M \/ l = l_E).
      { destruct GP as [[_ A]|[A _]]; auto. destruct LX as [LX|LX]; rewrite LX in A; destruct A; discriminate. }
      assert (N1 : (l =? l_B)%N = false) by (destruct LL; subst l; reflexivity). rewrite N1.
      destruct LL as [->| ->].
      * replace (l_M =? l_E)%N with false by reflexivity. replace (l_M =? l_S)%N with false by reflexivity.
        destruct (IH poss first L) as [_ IH2].
        replace (S (length pre + length cur)) with (length pre + length (cur ++ [ch]))
          by (rewrite app_length; simpl; lia).
        replace (cur ++ ch :: rest) with ((cur ++ [ch]) ++ rest) by (rewrite <- app_assoc; auto).
        assert (EA : rcur ++ (l_M, t) :: poss = (rcur ++ [(l_M, t)]) ++ poss) by (rewrite <- app_assoc; auto).
        setoid_rewrite EA.
        apply (IH2 pre rpre (cur ++ [ch]) (rcur ++ [(l_M, t)]) t (Some (l_M, t))); auto.
        -- rewrite <- app_assoc. auto.
        -- rewrite <- app_assoc. auto.
        -- rewrite !app_length. simpl. lia.
        -- apply opened_more. auto.
        -- eauto.
      * replace (l_E =? l_E)%N with true by reflexivity.
        destruct (IH poss false L) as [IH1 _].
        assert (SL : slice s (length pre) (length pre + length cur + 1) = cur ++ [ch]).
        { subst s. replace (cur ++ ch :: rest) with ((cur ++ [ch]) ++ rest) by (rewrite <- app_assoc; auto).
          replace (length pre + length cur + 1) with (length pre + length (cur ++ [ch]))
            by (rewrite app_length; simpl; lia). apply slice_mid. }
        rewrite SL.
        destruct (IH1 (pre ++ cur ++ [ch]) (rpre ++ rcur ++ [(l_E, t)]) (length pre) (Some (l_E, t)))
          as [ws [E [P SP]]]; auto.
        -- rewrite <- !app_assoc. auto.
        -- rewrite <- !app_assoc. auto.
        -- rewrite !app_length. simpl. lia.
        -- exists (l_E, t). auto.
        -- replace (length pre + length cur + 1) with (length (pre ++ cur ++ [ch]))
             by (rewrite !app_length; simpl; lia).
           replace (S (length pre + length cur)) with (length (pre ++ cur ++ [ch]))
             by (rewrite !app_length; simpl; lia).
           rewrite E. exists ((cur ++ [ch], t) :: ws). split; [reflexivity|]. split.
           ++ destruct P as [P1 P2]. split; simpl; [rewrite P1, <- app_assoc; auto|].
              constructor; auto. destruct cur; discriminate.
           ++ destruct OP as [[n ->]|[-> [n [L0 ->]]]].
              ** apply sp_word; auto. rewrite app_length. simpl in LC. rewrite repeat_length in LC. simpl. lia.
              ** apply sp_first; auto. rewrite app_length. rewrite repeat_length in LC. simpl. lia.
Qed.

Lemma loop_words (s : str) (route : list pstate) :
  length route = length s -> good_from None route ->
  exists ws, ps_cut_loop s route 0 s route 0 0 = gof ws /\ partition s (map fst ws) /\ spelled true ws route.
Proof.
  intros L G. destruct (loop_ok s route s route true L) as [A _].
  apply (A [] [] 0 None); auto.
Qed.
