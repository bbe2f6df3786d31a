(** * Error bounds for the tagger's Viterbi scores *)
From Coq Require Import Reals Lra Lia Psatz.
From Flocq Require Import Core BinarySingleNaN.
From Verif Require Import PyBase PyNum ModelPosseg SpecPosseg SpecNum InstR InstExt InstB64 InstB64Ext InstRound SpecUnknown
  SpecPosMissing SpecHmmErr SpecPosErr ProofsBase ProofsPvit ProofsPvit2 ProofsAbsorb ProofsUnknown ProofsMissing
  ProofsPosMissing ProofsPosHmm2 ProofsSuggestB ProofsHmmErr.
Local Open Scope R_scope.

Definition infX : NumInf numX := infR.
Definition pstate_dec (a b : pstate) : {a = b} + {a <> b}.
Proof. decide equality; [apply (list_eq_dec N.eq_dec)|apply N.eq_dec]. Defined.

Section Err.
  Variable lg : Z -> b64.
  Variable T : ptables (numB lg).
  Hypothesis MT : moderate_ptables T.
  Notation OK := (mp_ok T MT).

  Lemma moderate_psound : sound_ptables T.
  Proof.
    constructor.
    - exact OK.
    - intros y P. destruct (@mp_start lg T MT y P) as [S|S]; [left; apply within32_small; auto|auto].
    - intros x y p S. apply within32_small. apply (@mp_trans lg T MT x y p S).
    - intros y e c x E X. apply within32_small. apply (@mp_emit lg T MT y e c x E X).
  Qed.

  Lemma trans_32 x y : step T x y -> within32 (prob_of T x y).
  Proof. intros S. apply (@mp_trans lg T MT x y). apply (@step_p_prob _ _ _ OK). split; auto. Qed.

  Lemma emit_known y c : p_lacks T y c = 0%nat ->
    exists e : b64, emit_of T y c = e /\ emit_value T y c = B2R e /\ within32 e.
  Proof.
    unfold p_lacks, emit_of, emit_value. destruct (t_emit T y) as [f|] eqn:E; [|discriminate].
    destruct (f c) as [x|] eqn:X; [|discriminate]. intros _. exists x. split; auto. split; auto.
    apply (@mp_emit lg T MT y f c x E X).
  Qed.

  Lemma emit_upper y c : emit_value T y c <= 32 - INR (p_lacks T y c) * bpow radix2 300.
  Proof.
    assert (MF : f_min_float numR <= 32 - INR 1 * bpow radix2 300).
    { cbn [f_min_float numR]. change (bpow radix2 300) with (IZR (2 ^ 300)). simpl INR. rewrite Rmult_1_l, <- minus_IZR.
      apply IZR_le. vm_compute. discriminate. }
    unfold p_lacks, emit_value. destruct (t_emit T y) as [f|] eqn:E; [|exact MF].
    destruct (f c) as [x|] eqn:X; [|exact MF].
    pose proof (@mp_emit lg T MT y f c x E X) as [_ BE]. apply Rabs_le_inv in BE. simpl INR. lra.
  Qed.

  Lemma tf_err cs : forall ys y0 (acc : b64) (r m : R),
    length ys = length cs -> steps T (y0 :: ys) -> p_lacking T cs ys = 0%nat ->
    is_finite acc = true -> Rabs (B2R acc - r) <= 32 * u64 * (m * m) -> Rabs r <= 32 * m -> 1 <= m ->
    32 * u64 * ((m + 2 * INR (length cs)) * (m + 2 * INR (length cs))) <= 1 ->
    let x := tag_score_from T (acc : F (numB lg)) y0 cs ys : b64 in
    is_finite x = true /\
    Rabs (B2R x - tag_value_from T r y0 cs ys) <= 32 * u64 * ((m + 2 * INR (length cs)) * (m + 2 * INR (length cs))) /\
    Rabs (tag_value_from T r y0 cs ys) <= 32 * (m + 2 * INR (length cs)).
  Proof.
    assert (U : 0 < u64) by (rewrite u_val; lra).
    induction cs as [|c cs IH]; intros ys y0 acc r m L C K FA EA RA M1 M2 x; destruct ys as [|y ys]; try discriminate L.
    - unfold x. cbn [tag_score_from tag_value_from]. simpl INR in *. replace (m + 2 * 0) with m in * by ring. auto.
    - unfold x. clear x. cbn [tag_score_from tag_value_from]. cbn [length] in *. injection L as L. rewrite S_INR in *.
      destruct C as [FO C]. cbn [p_lacking] in K. apply Nat.eq_add_0 in K. destruct K as [K1 K2].
      pose proof (pos_INR (length cs)) as P. set (k := INR (length cs)) in *.
      pose proof (trans_32 y0 y FO) as W1. set (t := prob_of T y0 y : b64) in *.
      destruct (emit_known y c K1) as (e & -> & -> & W2). cbn [f_add numB].
      assert (B1 : 32 * u64 * ((m + 1) * (m + 1)) <= 1) by (eapply Rle_trans; [|exact M2]; apply Rmult_le_compat_l; [lra|]; apply Rmult_le_compat; lra).
      destruct (add_err acc t r m FA EA RA W1 M1 B1) as (F1 & E1 & R1).
      assert (B2 : 32 * u64 * ((m + 1 + 1) * (m + 1 + 1)) <= 1) by (eapply Rle_trans; [|exact M2]; apply Rmult_le_compat_l; [lra|]; apply Rmult_le_compat; lra).
      destruct (add_err (Bplus mode_NE acc t) e (r + B2R t) (m + 1) F1 E1 R1 W2 ltac:(lra) B2) as (F2 & E2 & R2).
      replace (m + 2 * (k + 1)) with (m + 1 + 1 + 2 * k) in * by ring.
      apply (IH ys y); auto. lra.
  Qed.

  Lemma considered_first cs ys c y : considered T (c :: cs) (y :: ys) -> is_pstate T y /\ steps T (y :: ys) /\ length ys = length cs.
  Proof.
    intros (L & S & K). split; [|split; [exact S|cbn in L; lia]].
    specialize (K 0%nat y eq_refl). cbn in K. eapply char_state_pstate; eauto. exact OK.
  Qed.

  Lemma tag_err s ys : s <> [] -> considered T s ys -> p_missing T s ys = 0%nat -> (length s <= 2 ^ 22)%nat ->
    let x := tag_score T s ys : b64 in
    is_finite x = true /\ Rabs (B2R x - tag_value T s ys) <= cost (length s) / 2 /\
    - (64 * INR (length s)) <= tag_value T s ys.
  Proof.
    intros NE CO K LS x. destruct s as [|c s]; [congruence|].
    destruct ys as [|y ys]; [destruct CO as (L & _); discriminate L|].
    destruct (considered_first _ _ _ _ CO) as (PS & ST & L).
    unfold p_missing in K. cbn [p_lacking] in K.
    assert (N1 : INR (length (c :: s)) <= 4194304).
    { apply le_INR in LS. rewrite pow_INR in LS. simpl in LS. simpl. lra. }
    cbn [length] in *. rewrite S_INR in *. pose proof (pos_INR (length s)) as P.
    destruct (emit_known y c ltac:(lia)) as (e & EE & EV & W2).
    assert (ES : within32 (start_of T y)).
    { destruct (@mp_start lg T MT y PS) as [S|S]; auto. exfalso. unfold p_no_start in K. rewrite S in K.
      assert (Q : Beqb b64_min_float b64_min_float = true) by (vm_compute; reflexivity). rewrite Q in K. lia. }
    unfold x. clear x. cbn [tag_score tag_value]. rewrite EE, EV. cbn [f_add numB].
    set (st := start_of T y : b64) in *.
    assert (U : 0 < u64) by (rewrite u_val; lra).
    destruct (add_err st e (B2R st) 1) as (F1 & E1 & R1).
    - apply ES.
    - rewrite Rminus_diag_eq, Rabs_R0 by reflexivity. nra.
    - destruct ES as [_ ES]. lra.
    - exact W2.
    - lra.
    - rewrite u_val. lra.
    - assert (BB : 32 * u64 * ((1 + 1 + 2 * INR (length s)) * (1 + 1 + 2 * INR (length s))) <= 1).
      { rewrite u_val. set (k := INR (length s)) in *. assert ((1 + 1 + 2 * k) * (1 + 1 + 2 * k) <= 8388608 * 8388608) by (apply Rmult_le_compat; lra). lra. }
      destruct (tf_err s ys y _ _ (1 + 1) L ST ltac:(lia) F1 E1 R1 ltac:(lra) BB) as (A & B & D).
      split; [exact A|]. split.
      + eapply Rle_trans; [exact B|]. unfold cost. rewrite S_INR. rewrite u_val. set (k := INR (length s)). nra.
      + apply Rabs_le_inv in D. lra.
  Qed.

  Lemma tf_upper cs : forall ys y0 (r : R), length ys = length cs -> steps T (y0 :: ys) ->
    tag_value_from T r y0 cs ys <= r + 64 * INR (length cs) - INR (p_lacking T cs ys) * bpow radix2 300.
  Proof.
    pose proof (bpow_gt_0 radix2 300) as BP.
    induction cs as [|c cs IH]; intros ys y0 r L C; destruct ys as [|y ys]; try discriminate L.
    - cbn [tag_value_from p_lacking length]. simpl INR. lra.
    - cbn [tag_value_from p_lacking length]. cbn [length] in L. injection L as L. destruct C as [FO C].
      destruct (trans_32 y0 y FO) as [_ BT]. apply Rabs_le_inv in BT.
      eapply Rle_trans; [apply IH; auto|]. rewrite S_INR, plus_INR. pose proof (emit_upper y c). lra.
  Qed.

  Lemma tag_upper s ys : s <> [] -> considered T s ys ->
    tag_value T s ys <= 64 * INR (length s) - INR (p_missing T s ys) * bpow radix2 300.
  Proof.
    pose proof (bpow_gt_0 radix2 300) as BP.
    intros NE CO. destruct s as [|c s]; [congruence|].
    destruct ys as [|y ys]; [destruct CO as (L & _); discriminate L|].
    destruct (considered_first _ _ _ _ CO) as (PS & ST & L).
    cbn [tag_value]. eapply Rle_trans; [apply tf_upper; auto|].
    unfold p_missing. cbn [p_lacking length]. rewrite S_INR, !plus_INR.
    pose proof (emit_upper y c) as EB.
    assert (SB : B2R (start_of T y : b64) <= 32 - INR (if p_no_start T y then 1 else 0) * bpow radix2 300).
    { pose proof min_float_low as ML.
      assert (B3 : bpow radix2 300 <= bpow radix2 333) by (apply bpow_le; lia).
      destruct (@mp_start lg T MT y PS) as [[SF SS]|SS].
      - apply Rabs_le_inv in SS. destruct (p_no_start T y) eqn:NS; [|simpl INR; lra].
        exfalso. unfold p_no_start in NS. rewrite Beqb_correct in NS by (auto; vm_compute; reflexivity).
        assert (Q : bpow radix2 6 <= bpow radix2 333) by (apply bpow_le; lia). change (bpow radix2 6) with 64 in Q.
        revert NS. destruct (Req_bool_spec (B2R (start_of T y : b64)) (B2R b64_min_float)); [lra|intros NS; discriminate NS].
      - unfold p_no_start. rewrite SS. assert (Q : Beqb b64_min_float b64_min_float = true) by (vm_compute; reflexivity).
        rewrite Q. simpl INR. change 32 with (IZR 32). lra. }
    lra.
  Qed.

  Lemma cost_pos n : 0 <= cost n.
  Proof. unfold cost. pose proof (pos_INR n). assert (0 <= INR n * INR n) by nra. lra. Qed.

  Lemma lim_22 (s : str) : (length s <= 2 ^ 22)%nat -> blim (2 * length s).
  Proof.
    intros LN. unfold blim. apply Nat2Z.inj_le in LN. rewrite Nat2Z.inj_pow in LN.
    change (Z.of_nat 2 ^ Z.of_nat 22)%Z with (2 ^ 22)%Z in LN. lia.
  Qed.

  (** a tagging that none exceeds in binary64 *)
  Lemma best_near s route : s <> [] -> (length s <= 2 ^ 22)%nat -> considered T s route ->
    (forall o, considered T s o -> f_lt (numB lg) (tag_score T s route) (tag_score T s o) = false) ->
    (exists ys, considered T s ys /\ p_missing T s ys = 0%nat) ->
    p_missing T s route = 0%nat /\
    forall o, considered T s o -> tag_value T s o <= tag_value T s route + cost (length s).
  Proof.
    intros NE LN CR BEST (l0 & LA0 & M0). pose proof (lim_22 s LN) as LB.
    assert (ML : p_missing T s route = 0%nat).
    { pose proof (p_rep_score lg T moderate_psound s NE route CR LB) as R1.
      pose proof (p_rep_score lg T moderate_psound s NE l0 LA0 LB) as R0.
      destruct (p_gt_rep lg _ _ _ _ _ (hd (0%N, []) route) (hd (0%N, []) route) R0 R1 LB) as [Q _]; [|lia].
      unfold pv_gt, tup_gt. cbn [fst snd]. rewrite BEST by auto.
      destruct (f_eq _ _ _); auto. apply pstate_gt_irrefl. }
    split; auto. intros o CO. specialize (BEST o CO).
    destruct (tag_err s route NE CR ML LN) as (F1 & E1 & LOW). pose proof (cost_pos (length s)) as CP.
    destruct (Nat.eq_dec (p_missing T s o) 0) as [MO|MO].
    - destruct (tag_err s o NE CO MO LN) as (F2 & E2 & _).
      assert (V2 : B2R (tag_score T s o : b64) <= B2R (tag_score T s route : b64)).
      { cbn [f_lt numB] in BEST. rewrite Bltb_correct in BEST by auto. apply Rnot_lt_le. intros LT.
        rewrite Rlt_bool_true in BEST by auto. discriminate BEST. }
      apply Rabs_le_inv in E1, E2. lra.
    - pose proof (tag_upper s o NE CO) as UP.
      assert (N1 : INR (length s) <= 4194304).
      { apply le_INR in LN. rewrite pow_INR in LN. simpl in LN. lra. }
      assert (K1 : 1 <= INR (p_missing T s o)) by (change 1 with (INR 1); apply le_INR; lia).
      assert (BIG : 1000000000 <= bpow radix2 300).
      { apply Rle_trans with (bpow radix2 30); [change (bpow radix2 30) with (IZR (2 ^ 30)); apply IZR_le; vm_compute; discriminate|apply bpow_le; lia]. }
      assert (bpow radix2 300 <= INR (p_missing T s o) * bpow radix2 300) by (apply Rle_trans with (1 * bpow radix2 300); [lra|]; apply Rmult_le_compat_r; lra).
      lra.
  Qed.

  Lemma pviterbi_near ord s : fair_order ord -> s <> [] -> (length s <= 2 ^ 22)%nat ->
    (exists ys, considered T s ys /\ p_missing T s ys = 0%nat) ->
    exists p route, pviterbi T ord s = Ok (p, route) /\ considered T s route /\ p_missing T s route = 0%nat /\
      forall o, considered T s o -> tag_value T s o <= tag_value T s route + cost (length s).
  Proof.
    intros FO NE LN EX.
    destruct (@pviterbi_ok _ _ _ OK ord s FO NE (lim_22 s LN)) as (p & route & E & CR & SC & BEST).
    exists p, route. split; auto. split; auto. apply best_near; auto. intros o CO. rewrite SC. apply BEST, CO.
  Qed.

  (** *** The exact tables *)
  Notation X := (exact_ptables T).
  Notation rv := (fun x : b64 => Some (B2R x) : F numX).

  Lemma dget_map {V W} (g : V -> W) (l : list (pstate * V)) k :
    dget pstate_eqb (map (fun q => (fst q, g (snd q))) l) k = match dget pstate_eqb l k with Some v => Some (g v) | None => None end.
  Proof. induction l as [|[a v] l IH]; cbn [map dget fst snd]; auto. destruct (pstate_eqb _ _); auto. Qed.

  Lemma ex_keys : map fst (t_trans X) = map fst (t_trans T).
  Proof. unfold exact_ptables. cbn [t_trans]. rewrite map_map. apply map_ext. intros [x l]. reflexivity. Qed.
  Lemma ex_pstate y : is_pstate X y <-> is_pstate T y.
  Proof. unfold is_pstate. rewrite ex_keys. tauto. Qed.
  Lemma ex_row x l : In (x, l) (t_trans X) -> exists l0, In (x, l0) (t_trans T) /\ l = map (fun q => (fst q, rv (snd q))) l0.
  Proof.
    unfold exact_ptables. cbn [t_trans]. intros I. apply in_map_iff in I. destruct I as ([x' l0] & E & I). cbn [fst snd] in E.
    injection E as -> <-. exists l0. auto.
  Qed.
  Lemma ex_step_p x y p : step_p X x y p <-> exists q : b64, step_p T x y q /\ p = rv q.
  Proof.
    split.
    - intros (l & I & J). apply ex_row in I. destruct I as (l0 & I & ->). apply in_map_iff in J.
      destruct J as ([y' q] & E & J). cbn [fst snd] in E. injection E as -> <-. exists q. split; auto. exists l0. auto.
    - intros (q & (l0 & I & J) & ->). exists (map (fun q => (fst q, rv (snd q))) l0). split.
      + unfold exact_ptables. cbn [t_trans]. apply in_map_iff. exists (x, l0). auto.
      + apply in_map_iff. exists (y, q). auto.
  Qed.
  Lemma ex_step x y : step X x y <-> step T x y.
  Proof.
    split; intros (p & S).
    - apply ex_step_p in S. destruct S as (q & S & _). exists q. auto.
    - exists (rv p). apply ex_step_p. exists p. auto.
  Qed.
  Lemma ex_live x : live X x <-> live T x.
  Proof. split; intros (y & S); exists y; apply ex_step; auto. Qed.

  Lemma exact_ok : tables_ok infX X.
  Proof.
    pose proof OK as K. constructor.
    - pose proof (tk_keys K) as Q. rewrite <- ex_keys in Q. exact Q.
    - intros x l I. apply ex_row in I. destruct I as (l0 & I & ->). rewrite map_map. cbn [fst].
      apply (tk_inner K) in I. exact I.
    - intros y P. apply ex_pstate in P. destruct (tk_start K y P) as (s & E & _).
      exists (rv s). unfold exact_ptables. cbn [t_start]. rewrite E. split; auto. cbn. discriminate.
    - intros y P. apply ex_pstate in P. destruct (tk_emit K y P) as (e & E & _).
      eexists. unfold exact_ptables. cbn [t_emit]. rewrite E. split; [reflexivity|]. intros c x. cbv beta.
      destruct (e c); [|discriminate]. intros Q. injection Q as <-. cbn. discriminate.
    - intros x y p S. apply ex_step_p in S. destruct S as (q & _ & ->). cbn. discriminate.
    - intros x y S. apply ex_step in S. apply ex_live. apply (tk_trans K _ _ S).
    - intros c l E. unfold exact_ptables in E. cbn [t_states] in E. destruct (tk_char K c l E) as (A & y & I & L).
      split; [|exists y; split; auto; apply ex_live; auto].
      eapply Forall_impl; [|exact A]. intros z Z. apply ex_pstate. exact Z.
    - destruct (tk_some K) as (y & L). exists y. apply ex_live. auto.
  Qed.

  Lemma ex_considered s ys : considered X s ys <-> considered T s ys.
  Proof.
    assert (CS : forall d y, char_state X d y <-> char_state T d y).
    { intros d y. unfold char_state. change (t_states X d) with (t_states T d). destruct (t_states T d); [tauto|apply ex_pstate]. }
    assert (KE : forall r y, kept X r y <-> kept T r y).
    { induction r as [|d r IH]; intros y; cbn [kept]; [tauto|]. destruct r as [|d' r]; [apply CS|].
      assert (EX : forall z, (exists x, kept X (d' :: r) x /\ step X x z) <-> (exists x, kept T (d' :: r) x /\ step T x z)).
      { intros z. split; intros (x & A & B); exists x; (split; [apply IH; exact A|apply ex_step; exact B]). }
      rewrite EX, CS. split; (intros [A [B|B]]; [tauto|]; split; [exact A|]; right; intros z Z1 Z2; apply (B z);
        [apply EX; exact Z1|apply CS; exact Z2]). }
    assert (ST : forall l, steps X l <-> steps T l).
    { induction l as [|x l IH]; cbn [steps]; [tauto|]. rewrite IH. destruct l; [tauto|]. rewrite ex_step. tauto. }
    unfold considered. rewrite ST. split; intros (A & B & C); (split; [exact A|split; [exact B|]]); intros i y E; apply KE; auto.
  Qed.

  Lemma ex_prob x y : step T x y -> prob_of X x y = rv (prob_of T x y).
  Proof.
    intros S. pose proof (proj2 (@ex_step x y) S) as SX.
    destruct S as (p & S). pose proof S as S'. apply (@step_p_prob _ _ _ OK) in S'. destruct S' as [E _].
    assert (Q : step_p X x y (rv p)) by (apply ex_step_p; exists p; auto).
    apply (@step_p_prob _ _ _ exact_ok) in Q. destruct Q as [Q _]. rewrite Q, E. reflexivity.
  Qed.
  Lemma ex_emit y c : emit_of X y c = Some (emit_value T y c).
  Proof.
    unfold emit_of, emit_value, exact_ptables. cbn [t_emit]. destruct (t_emit T y) as [f|]; [|reflexivity].
    destruct (f c); reflexivity.
  Qed.

  Lemma ex_score_from cs : forall ys y0 (acc : R), length ys = length cs -> steps T (y0 :: ys) ->
    tag_score_from X (Some acc : F numX) y0 cs ys = Some (tag_value_from T acc y0 cs ys).
  Proof.
    induction cs as [|c cs IH]; intros ys y0 acc L C; destruct ys as [|y ys]; try discriminate L; [reflexivity|].
    cbn [tag_score_from tag_value_from]. destruct C as [S C]. rewrite (ex_prob y0 y S), ex_emit.
    cbn [length] in L. injection L as L. rewrite <- IH by auto. reflexivity.
  Qed.
  Lemma ex_score s ys : s <> [] -> considered T s ys -> tag_score X s ys = Some (tag_value T s ys).
  Proof.
    intros NE CO. destruct s as [|c s]; [congruence|].
    destruct ys as [|y ys]; [destruct CO as (L & _); discriminate L|].
    destruct (considered_first _ _ _ _ CO) as (PS & ST & L).
    assert (SX : start_of X y = rv (start_of T y)).
    { destruct (tk_start OK y PS) as (s0 & E & _). unfold start_of, exact_ptables. cbn [t_start]. rewrite E. reflexivity. }
    cbn [tag_score tag_value]. rewrite SX, ex_emit, <- ex_score_from by auto. reflexivity.
  Qed.

  Lemma clear_route ord s ys : fair_order ord -> s <> [] -> (length s <= 2 ^ 22)%nat -> clear_tagging T s ys ->
    (exists p, pviterbi T ord s = Ok (p, ys)) /\ exists p, pviterbi X ord s = Ok (p, ys).
  Proof.
    intros FO NE LN (CO & M0 & CL). split.
    - destruct (pviterbi_near ord s FO NE LN (ex_intro _ ys (conj CO M0))) as (p & route & E & CR & _ & BEST).
      exists p. rewrite E. f_equal. f_equal. destruct (list_eq_dec pstate_dec route ys) as [Q|NQ]; auto.
      exfalso. specialize (CL _ CR NQ). specialize (BEST ys CO). lra.
    - destruct (@pviterbi_ok _ _ _ exact_ok ord s FO NE I) as (p & route & E & CR & SC & BEST).
      exists p. rewrite E. f_equal. f_equal. destruct (list_eq_dec pstate_dec route ys) as [Q|NQ]; auto.
      exfalso. specialize (BEST ys (proj2 (ex_considered s ys) CO)). apply ex_considered in CR.
      rewrite <- SC, !ex_score in BEST by auto. specialize (CL _ CR NQ). pose proof (cost_pos (length s)) as CP.
      cbv [f_lt numX ext_num numR] in BEST. unfold Rltb in BEST. destruct (Rlt_dec (tag_value T s route) (tag_value T s ys)); [discriminate BEST|lra].
  Qed.
End Err.
