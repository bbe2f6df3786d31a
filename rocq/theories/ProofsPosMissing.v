(** * The tagger's Viterbi table in binary64 counts missing entries *)
From Coq Require Import Reals Lra.
From Flocq Require Import Core BinarySingleNaN.
From Verif Require Import PyBase PyNum ModelPosseg SpecPosseg InstB64 InstB64Ext SpecUnknown SpecPosMissing
  ProofsBase ProofsPvit ProofsPvit2 ProofsAbsorb ProofsUnknown ProofsMissing.
Local Open Scope nat_scope.

Section Count.
  Variable lg : Z -> b64.
  Variable T : ptables (numB lg).
  Hypothesis SP : sound_ptables T.
  Notation OK := (sp_ok T SP).
  Notation mis := (p_missing T).
  Notation pget := (dget pstate_eqb).

  Lemma p_rep_emit n k (x : b64) y c : rep n k x -> blim (S n) ->
    rep (S n) (k + p_lacks T y c) (Bplus mode_NE x (emit_of T y c : b64)).
  Proof.
    intros R L. unfold p_lacks, emit_of. destruct (t_emit T y) as [e|] eqn:E.
    - destruct (e c) as [t|] eqn:E'.
      + rewrite Nat.add_0_r. apply rep_small; auto. exact (@sp_emit lg T SP y e c t E E').
      + rewrite Nat.add_1_r. apply (@rep_min n k x R L).
    - rewrite Nat.add_1_r. apply (@rep_min n k x R L).
  Qed.

  Lemma p_rep_cand n k (x : b64) y y' c : rep n k x -> step T y y' -> blim (S (S n)) ->
    rep (S (S n)) (k + p_lacks T y' c) (Bplus mode_NE (Bplus mode_NE x (prob_of T y y' : b64)) (emit_of T y' c : b64)).
  Proof.
    intros R S L. apply p_rep_emit; auto. apply rep_small; auto; [|eapply blim_le; [|exact L]; lia].
    apply (@sp_trans lg T SP y y'). apply (@step_p_prob _ _ _ OK). split; auto.
  Qed.

  Lemma p_rep_first y c : is_pstate T y -> rep 2 (mis [c] [y]) (Bplus mode_NE (start_of T y : b64) (emit_of T y c : b64)).
  Proof.
    intros P. assert (L2 : blim 2) by (unfold blim; lia).
    unfold p_missing. cbn [p_lacking]. rewrite Nat.add_0_r. apply p_rep_emit; auto. unfold p_no_start.
    destruct (@sp_start lg T SP y P) as [S|E].
    - destruct (Beqb (start_of T y : b64) b64_min_float) eqn:B.
      + exfalso. destruct S as [F S]. rewrite Beqb_correct in B by (auto; vm_compute; reflexivity).
        revert B. case Raux.Req_bool_spec; [intros B _|discriminate].
        pose proof min_float_low as ML. rewrite <- B in ML.
        assert (bpow radix2 200 < bpow radix2 333)%R by (apply bpow_lt; lia).
        apply Rabs_le_inv in S. lra.
      + pose proof (small_bfin _ S) as FS. pose proof (small_le _ S) as BS. split; auto. split; [lia|]. left. split; auto.
        simpl INR. lra.
    - rewrite E. assert (B : Beqb b64_min_float b64_min_float = true) by (vm_compute; reflexivity). rewrite B.
      split; [apply bfin_min|]. split; auto. right. split; auto. symmetry. apply mins_1.
  Qed.

  Lemma p_lacking_snoc cs : forall ys c y, length ys = length cs ->
    p_lacking T (cs ++ [c]) (ys ++ [y]) = p_lacking T cs ys + p_lacks T y c.
  Proof.
    induction cs as [|d cs IH]; intros ys c y L; destruct ys as [|z ys]; try discriminate; cbn [app p_lacking].
    - lia.
    - rewrite IH by (cbn in L; lia). lia.
  Qed.
  Lemma p_mis_snoc cs ys c y : length ys = length cs -> ys <> [] ->
    mis (cs ++ [c]) (ys ++ [y]) = mis cs ys + p_lacks T y c.
  Proof.
    intros L N. unfold p_missing. rewrite p_lacking_snoc by auto. destruct ys; [congruence|]. cbn [app]. lia.
  Qed.

  (** the score of a tagging *)
  Lemma p_rep_score cs : cs <> [] -> forall ys, considered T cs ys -> blim (2 * length cs) ->
    rep (2 * length cs) (mis cs ys) (tag_score T cs ys).
  Proof.
    induction cs as [|c cs IH] using rev_ind; [congruence|]. intros _ ys CO L.
    assert (LY : length ys = length (cs ++ [c])) by apply CO.
    assert (NY : ys <> []) by (intros ->; rewrite !app_length in LY; cbn in LY; lia).
    destruct (exists_last NY) as (ys' & y & ->). destruct cs as [|c0 cs].
    - destruct ys' as [|z ys']; [|rewrite !app_length in LY; cbn in LY; lia]. cbn [app length Nat.mul Nat.add].
      apply p_rep_first. destruct CO as (_ & _ & K). specialize (K 0 y eq_refl). cbn in K.
      eapply char_state_pstate; eauto. exact OK.
    - assert (N2 : ys' <> []) by (intros ->; rewrite !app_length in LY; cbn in LY; lia).
      destruct (exists_last N2) as (zs & x & ->).
      destruct (@considered_snoc_inv _ T _ _ _ _ _ CO) as (C1 & ST & _).
      assert (LC : length (zs ++ [x]) = length (c0 :: cs)) by apply C1.
      rewrite (@tag_score_snoc _ T) by auto. rewrite p_mis_snoc by auto.
      rewrite app_length in L |- *. cbn [length] in L |- *.
      replace (2 * (S (length cs) + 1)) with (S (S (2 * length (c0 :: cs)))) in * by (cbn [length]; lia).
      apply p_rep_cand; auto. apply IH; auto; [discriminate|]. eapply blim_le; [|exact L]. lia.
  Qed.

  (** comparing *)
  Lemma p_gt_rep n (x x' : b64) k k' (y y' : pstate) : rep n k x -> rep n k' x' -> blim n ->
    pv_gt (numB lg) (x, y) (x', y') = false ->
    k' <= k /\ (k = k' -> 0 < k -> pstate_gt y y' = false).
  Proof.
    intros R R' L G.
    assert (FX : fin (infB lg) x) by (exists n; apply R). assert (FX' : fin (infB lg) x') by (exists n; apply R').
    assert (NG : pv_gt (numB lg) (x, y) (x', y') <> true) by congruence.
    rewrite (@gt_cases _ (infB lg)) in NG by auto. cbn [fst snd f_lt numB] in NG.
    assert (BF : bfin n x) by apply R. assert (BF' : bfin n x') by apply R'.
    assert (FI : is_finite x = true) by apply BF. assert (FI' : is_finite x' = true) by apply BF'.
    split.
    - destruct (le_lt_dec k' k) as [|LT]; auto. exfalso. apply NG. left.
      apply (@bfin_lt n n); auto. rewrite !bval_finite by auto. eapply rep_order; eauto.
    - intros E P. subst k'. destruct (pstate_gt y y') eqn:Y; auto. exfalso. apply NG. right.
      assert (E : B2R x = B2R x') by (eapply rep_equal; eauto).
      split; [|split; auto]; apply (@bfin_lt_false n n); auto; rewrite !bval_finite by auto; lra.
  Qed.

  Lemma p_not_above_snoc l' l y : p_not_above l' l -> p_not_above (l' ++ [y]) (l ++ [y]).
  Proof.
    intros [->|(p' & a' & p & a & q & -> & -> & LP & LT)]; [left; reflexivity|].
    right. exists p', a', p, a, (q ++ [y]). rewrite <- !app_assoc. cbn [app]. auto.
  Qed.

  Lemma p_lacking_pos cs : forall ys i c, length ys = length cs -> nth_error cs i = Some c -> p_unknown T c ->
    0 < p_lacking T cs ys.
  Proof.
    induction cs as [|d cs IH]; intros ys i c L E U; [destruct i; discriminate|].
    destruct ys as [|y ys]; [discriminate|]. cbn [p_lacking]. destruct i as [|i]; cbn in E.
    - injection E as ->. unfold p_lacks. destruct (t_emit T y) as [e|] eqn:EE; [|lia]. rewrite (U y e EE). lia.
    - injection L as L. specialize (IH ys i c L E U). lia.
  Qed.

  (** behind an unknown character the back pointers give the greatest states *)
  Lemma p_tied iu d ro col older : iu <= S d ->
    cols_inv (infB lg) T ro col older -> blim (2 * length ro) ->
    (forall ch, nth_error (rev ro) iu = Some ch -> p_unknown T ch) ->
    forall y v p ys, pget col y = Some (v, p) -> pv_back col older y = Ok (ys ++ [y]) -> d < length ro ->
    forall o, considered T (rev ro) (o ++ [y]) -> mis (rev ro) (o ++ [y]) = mis (rev ro) (ys ++ [y]) ->
      p_not_above (skipn d (o ++ [y])) (skipn d (ys ++ [y])).
  Proof.
    intros ID. induction 1 as [c col CI V|c ro col col' older C IH CI' LK]; intros L UN y v p ys G B LT o CO EM.
    - cbn in LT. assert (d = 0) as -> by lia. cbn [skipn]. left. f_equal.
      destruct CO as (LO & _). rewrite app_length in LO. cbn in LO. destruct o; [|cbn in LO; lia].
      cbn [pv_back] in B. rewrite G in B. injection B as B. change [y] with ([] ++ [y]) in B. apply app_inj_tail in B. destruct B as [<- _]. reflexivity.
    - cbn [pv_back] in B. rewrite G in B. destruct (LK y v p G) as (y0 & v0 & p0 & -> & G0 & S0 & EV & MAX).
      destruct (@cols_inv_col _ _ _ _ _ _ C) as [CI NR].
      destruct (pv_back_ok C y0 G0) as (ys0 & B0 & C0 & SC0). rewrite B0 in B. cbn [rbind] in B.
      injection B as B. apply app_inj_tail in B. destruct B as [<- _].
      assert (NRR : rev ro <> []) by (intros E; apply NR; rewrite <- (rev_involutive ro), E; reflexivity).
      assert (LO : length (o ++ [y]) = length (rev (c :: ro))) by apply CO.
      rewrite app_length, rev_length in LO. cbn [length] in LO.
      assert (NO : o <> []) by (intros ->; destruct ro; [congruence|cbn in LO; lia]).
      destruct (exists_last NO) as (o' & x & ->). cbn [rev] in CO, EM, UN.
      destruct (@considered_snoc_inv _ T _ _ _ _ _ CO) as (C1 & S1 & _).
      assert (L0 : length (ys0 ++ [y0]) = length (rev ro)) by apply C0.
      assert (L1 : length (o' ++ [x]) = length (rev ro)) by apply C1.
      rewrite !p_mis_snoc in EM by (auto; try (destruct o'; discriminate); try (destruct ys0; discriminate)).
      cbn [length] in L. replace (2 * S (length ro)) with (S (S (2 * length ro))) in L by lia.
      assert (Lr : blim (2 * length (rev ro))) by (rewrite rev_length; eapply blim_le; [|exact L]; lia).
      destruct (@cols_best _ _ _ OK _ _ _ C) with (ys := o') (y := x) as (vx & px & GX & BX); auto.
      { rewrite rev_length in Lr. exact Lr. }
      destruct (pv_back_ok C x GX) as (ysx & BKx & Cx & SCx).
      pose proof (p_rep_score _ NRR _ C0 Lr) as R0. rewrite SC0 in R0.
      pose proof (p_rep_score _ NRR _ Cx Lr) as Rx. rewrite SCx in Rx.
      pose proof (p_rep_score _ NRR _ C1 Lr) as R1.
      assert (LEx : mis (rev ro) (ysx ++ [x]) <= mis (rev ro) (o' ++ [x])).
      { destruct (le_lt_dec (mis (rev ro) (ysx ++ [x])) (mis (rev ro) (o' ++ [x]))) as [|LTx]; auto. exfalso.
        assert (B1 : bfin (2 * length (rev ro)) (tag_score T (rev ro) (o' ++ [x]))) by apply R1.
        assert (B2 : bfin (2 * length (rev ro)) vx) by apply Rx.
        assert (X : Bltb vx (tag_score T (rev ro) (o' ++ [x]) : b64) = true).
        { apply (@bfin_lt _ _ _ _ B2 B1). rewrite (bval_finite vx), (bval_finite (tag_score T (rev ro) (o' ++ [x]))) by (apply B1 || apply B2).
          eapply rep_order; eauto. }
        cbn [f_lt numB] in BX. congruence. }
      specialize (MAX x vx px GX S1). subst v. cbn [f_add numB] in MAX.
      rewrite rev_length in *.
      assert (Rn0 := @p_rep_cand _ _ v0 y0 y c R0 S0 L). assert (Rnx := @p_rep_cand _ _ vx x y c Rx S1 L).
      destruct (p_gt_rep _ _ _ _ _ _ _ Rnx Rn0 L MAX) as [GE EQ].
      assert (MX : mis (rev ro) (ysx ++ [x]) = mis (rev ro) (ys0 ++ [y0])) by lia.
      cbn [length] in LT.
      destruct (Nat.eq_dec (length ro) d) as [ED|ND].
      + assert (SK : forall l : list pstate, length l = d -> skipn d (l ++ [y]) = [y])
          by (intros l <-; rewrite skipn_app, skipn_all, Nat.sub_diag; reflexivity).
        left. rewrite (SK (o' ++ [x])), (SK (ys0 ++ [y0])); congruence.
      + assert (LT' : d < length ro) by lia.
        assert (POS : 0 < mis (rev ro) (ysx ++ [x]) + p_lacks T y c).
        { destruct (nth_error (rev ro ++ [c]) iu) as [ch|] eqn:NE.
          - pose proof (@p_lacking_pos (rev ro ++ [c]) ((ysx ++ [x]) ++ [y]) iu ch) as X.
            rewrite <- p_mis_snoc; [unfold p_missing; enough (0 < p_lacking T (rev ro ++ [c]) ((ysx ++ [x]) ++ [y])) by lia; apply X; auto| |].
            + rewrite !app_length. assert (LX : length (ysx ++ [x]) = length (rev ro)) by apply Cx.
              rewrite app_length in LX. cbn [length] in *. lia.
            + apply Cx.
            + destruct ysx; discriminate.
          - apply nth_error_None in NE. rewrite app_length, rev_length in NE. cbn [length] in NE. lia. }
        assert (PG : pstate_gt x y0 = false) by (apply EQ; lia).
        rewrite (@skipn_snoc _ d (o' ++ [x]) y), (@skipn_snoc _ d (ys0 ++ [y0]) y) by (rewrite ?L0, ?L1, ?rev_length; lia).
        destruct (pstate_gt_total x y0) as [X|[X|X]]; [congruence| |].
        * right. exists (skipn d o'), x, (skipn d ys0), y0, [y].
          rewrite app_length in L0, L1. cbn [length] in L0, L1.
          rewrite (@skipn_snoc _ d o' x), (@skipn_snoc _ d ys0 y0) by lia. rewrite <- !app_assoc. cbn [app].
          split; [reflexivity|]. split; [reflexivity|]. split; [|exact X]. rewrite !skipn_length. lia.
        * subst x. apply p_not_above_snoc.
          refine (IH _ _ y0 v0 p0 ys0 G0 B0 LT' o' C1 _); [exact Lr| |lia].
          intros ch E. apply UN. rewrite nth_error_app1; auto. apply nth_error_Some. congruence.
  Qed.

  Theorem pviterbi_missing ord obs : fair_order ord -> obs <> [] -> blim (2 * length obs) ->
    exists p route, pviterbi T ord obs = Ok (p, route) /\ considered T obs route /\
      (forall o, considered T obs o -> mis obs route <= mis obs o) /\
      (forall u c w, obs = u ++ c :: w -> p_unknown T c ->
         forall o, considered T obs o -> mis obs o = mis obs route ->
           p_not_above (skipn (length u - 1) o) (skipn (length u - 1) route)).
  Proof.
    intros FAIR NE LIM. destruct obs as [|c rest]; [congruence|]. clear NE. unfold pviterbi.
    assert (LIM' : i_lim (infB lg) (2 * length (c :: rest))) by exact LIM.
    destruct (@col0_ok _ _ _ OK c) as [col0 [-> [CI0 V0]]].
    { eapply i_lim_down; [|exact LIM']. simpl. lia. }
    cbn [rbind].
    destruct (@pv_loop_ok _ _ _ OK ord FAIR (c :: rest) 1 rest [c] col0 []) as [col [older [-> CI]]].
    { constructor; auto. }
    { eapply i_lim_down; [|exact LIM']. simpl. lia. }
    cbn [rbind]. change (rev rest ++ [c]) with (rev (c :: rest)) in CI. set (obs := c :: rest) in *.
    assert (NE : obs <> []) by discriminate.
    destruct (cols_inv_col CI) as [CC _].
    set (cands := map (fun e => (fst (snd e), fst e)) col).
    assert (CIN : forall v y, In (v, y) cands <-> exists p, pget col y = Some (v, p)).
    { intros v y. unfold cands. rewrite in_map_iff. split.
      - intros [[y' [v' p]] [E HI]]. simpl in E. injection E as -> ->. exists p.
        apply In_dget; auto using pstate_eqb_ok. apply (ci_nodup CC).
      - intros [p G]. exists (y, (v, p)). split; auto. eapply dget_In; [|eauto]. apply pstate_eqb_ok. }
    assert (LR : length (rev obs) = length obs) by apply rev_length.
    assert (FINE : forall m, In m cands -> i_fin (infB lg) (2 * length obs) (fst m)).
    { intros [v y] HI. apply CIN in HI. destruct HI as [p G]. simpl fst. rewrite <- LR. eapply ci_fin; eauto. }
    destruct (@py_max_fin (numB lg) (infB lg) cands) as [[mv my] [-> [MI [MF MG]]]].
    { apply Forall_forall. intros m HI. left. eexists. apply FINE. auto. }
    { destruct (ci_live CC) as [y [K _]]. apply (ci_keys CC) in K. apply pget_keys in K.
      destruct K as [v [p G]]. exists (v, y). split; [apply CIN; eauto|].
      eexists. apply FINE. apply CIN. eauto. }
    cbn [rbind]. apply CIN in MI. destruct MI as [p G]. cbn [snd fst].
    destruct (pv_back_ok CI my G) as [ys [BK [CO SC]]]. rewrite BK. cbn [rbind].
    rewrite rev_involutive in CO, SC. exists mv, (ys ++ [my]). split; [reflexivity|]. split; [exact CO|].
    assert (RM : rep (2 * length obs) (mis obs (ys ++ [my])) mv) by (rewrite <- SC; apply p_rep_score; auto).
    (* the column entry of the last state of another tagging *)
    assert (COL : forall o z, considered T obs (o ++ [z]) -> exists v q ysz, pget col z = Some (v, q) /\
              pv_back col older z = Ok (ysz ++ [z]) /\ considered T obs (ysz ++ [z]) /\
              rep (2 * length obs) (mis obs (ysz ++ [z])) v /\ mis obs (ysz ++ [z]) <= mis obs (o ++ [z])).
    { intros o z CZ. destruct (@cols_best _ _ _ OK _ _ _ CI) with (ys := o) (y := z) as (v & q & GZ & BZ).
      { rewrite LR. exact LIM'. }
      { rewrite rev_involutive. exact CZ. }
      rewrite rev_involutive in BZ. destruct (pv_back_ok CI z GZ) as (ysz & BKz & Cz & SCz).
      rewrite rev_involutive in Cz, SCz. exists v, q, ysz. split; auto. split; auto. split; auto.
      assert (Rz : rep (2 * length obs) (mis obs (ysz ++ [z])) v) by (rewrite <- SCz; apply p_rep_score; auto).
      assert (Ro := p_rep_score obs NE _ CZ LIM). split; auto.
      destruct (le_lt_dec (mis obs (ysz ++ [z])) (mis obs (o ++ [z]))) as [|LTx]; auto. exfalso.
      assert (B1 : bfin (2 * length obs) (tag_score T obs (o ++ [z]))) by apply Ro.
      assert (B2 : bfin (2 * length obs) v) by apply Rz.
      assert (X : Bltb v (tag_score T obs (o ++ [z]) : b64) = true).
      { apply (@bfin_lt _ _ _ _ B2 B1). rewrite (bval_finite v), (bval_finite (tag_score T obs (o ++ [z]))) by (apply B1 || apply B2).
        eapply rep_order; eauto. }
      cbn [f_lt numB] in BZ. congruence. }
    assert (CMP : forall z v q ysz, pget col z = Some (v, q) -> rep (2 * length obs) (mis obs (ysz ++ [z])) v ->
              mis obs (ys ++ [my]) <= mis obs (ysz ++ [z]) /\
              (mis obs (ysz ++ [z]) = mis obs (ys ++ [my]) -> 0 < mis obs (ysz ++ [z]) -> pstate_gt z my = false)).
    { intros z v q ysz GZ RZ. apply (p_gt_rep _ _ _ _ _ _ _ RZ RM LIM). apply MG; [apply CIN; eauto|].
      exists (2 * length obs). apply RZ. }
    assert (SNOC : forall o, considered T obs o -> exists o' z, o = o' ++ [z]).
    { intros o (LO & _). destruct (exists_last (l := o)) as (o' & z & ->); [|eauto].
      intros ->. cbn in LO. lia. }
    split.
    - intros o CZ. destruct (SNOC o CZ) as (o' & z & ->). destruct (COL o' z CZ) as (v & q & ysz & GZ & _ & _ & RZ & LE).
      destruct (CMP z v q ysz GZ RZ). lia.
    - intros u ch w E UN o CZ EM. destruct (SNOC o CZ) as (o' & z & ->).
      destruct (COL o' z CZ) as (v & q & ysz & GZ & BKz & Cz & RZ & LE). destruct (CMP z v q ysz GZ RZ) as [GE EQ].
      assert (NU : nth_error obs (length u) = Some ch) by (rewrite E, nth_error_app2, Nat.sub_diag by lia; reflexivity).
      assert (DL : length u - 1 < length (rev obs)).
      { rewrite LR, E, app_length. cbn [length]. lia. }
      assert (LO : length (o' ++ [z]) = length obs) by apply CZ. assert (LY : length (ys ++ [my]) = length obs) by apply CO.
      assert (POS : 0 < mis obs (ysz ++ [z])).
      { unfold p_missing. enough (0 < p_lacking T obs (ysz ++ [z])) by lia. eapply p_lacking_pos; eauto. apply Cz. }
      assert (PG : pstate_gt z my = false) by (apply EQ; lia).
      rewrite LR in DL. rewrite app_length in LO, LY. cbn [length] in LO, LY.
      destruct (pstate_gt_total z my) as [X|[X|X]]; [congruence| |].
      + right. exists (skipn (length u - 1) o'), z, (skipn (length u - 1) ys), my, [].
        rewrite (@skipn_snoc _ _ o' z), (@skipn_snoc _ _ ys my) by lia.
        split; [reflexivity|]. split; [reflexivity|]. split; [|exact X]. rewrite !skipn_length. lia.
      + subst z. refine (p_tied (length u) (length u - 1) (rev obs) col older _ CI _ _ my mv p ys G BK _ o' _ _);
          rewrite ?rev_involutive, ?LR; auto; [lia|]. intros ch' E'. assert (ch' = ch) as -> by congruence. exact UN.
  Qed.
End Count.
