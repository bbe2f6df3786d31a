(** * C106: what rounding can do to the tags the HMM chooses *)
From Coq Require Import Reals Lra Lia.
From Flocq Require Import Core BinarySingleNaN.
From Verif Require Import PyBase PyRegex PyNum ModelPosseg SpecBase SpecPosseg SpecUnknown SpecPosMissing SpecHmmErr SpecPosErr
  InstR InstExt InstB64 InstB64Ext InstRound B64Lit DataPosseg DataPossegOk DataPossegNum ModelPosTables
  ProofsBase ProofsPosseg ProofsPvit ProofsPvit2 ProofsAbsorb ProofsUnknown ProofsB64Lit ProofsPosMissing ProofsPosTables ProofsHmmErr ProofsPosErr PropsHmmErr Demo ProofsDemo.
Local Open Scope R_scope.

(** Binary64, a text that can be tagged without a missing entry: the search of
    posseg/viterbi.py returns a tagging that needs none either, and no tagging that it
    compares has a sum of table entries that is larger by more than n^2 / 2^45. *)
Theorem C106_near_best :
  forall (lg : Z -> b64) (T : ptables (numB lg)) (ord : orders) (s : str),
    moderate_ptables T -> fair_order ord -> s <> [] -> (length s <= 2 ^ 22)%nat ->
    (exists ys, considered T s ys /\ p_missing T s ys = 0%nat) ->
    exists p route,
      pviterbi T ord s = Ok (p, route) /\ considered T s route /\ p_missing T s route = 0%nat /\
      forall other, considered T s other -> tag_value T s other <= tag_value T s route + cost (length s).
Proof. intros lg T ord s MT FO NE LN EX. apply pviterbi_near; auto. Qed.

(** A tagging that is better than all others by more than that is the one that is
    returned, in whatever order sets are visited, and words and tags are those of exact
    arithmetic. *)
Theorem C106_clear_tagging :
  forall (lg : Z -> b64) (T : ptables (numB lg)) (ord ord' : orders) (s : str) (ys : list pstate),
    moderate_ptables T -> fair_order ord -> fair_order ord' -> s <> [] -> (length s <= 2 ^ 22)%nat ->
    clear_tagging T s ys ->
    (exists p, pviterbi T ord s = Ok (p, ys)) /\
    ps_cut_han T ord s = ps_cut_han (exact_ptables T) ord' s.
Proof.
  intros lg T ord ord' s ys MT FO FO' NE LN CL.
  destruct (clear_route lg T MT ord s ys FO NE LN CL) as [(p & E) _].
  destruct (clear_route lg T MT ord' s ys FO' NE LN CL) as [_ (p' & E')].
  split; [exists p; exact E|]. unfold ps_cut_han. rewrite E, E'. reflexivity.
Qed.

Lemma zero_32 : within32 (b64_of (0, 0)%Z).
Proof. apply entry_32. reflexivity. Qed.

(** The start and transition numbers that are shipped meet the hypotheses, with
    emission numbers between -32 and 32. *)
Theorem C106_shipped_tables :
  forall (lg : Z -> b64) (e : pstate -> char -> option b64),
    (forall y c x, e y c = Some x -> within32 x) -> moderate_ptables (tagger_tables lg e).
Proof.
  intros lg e EW.
  assert (ES : forall y c x, e y c = Some x -> small x) by (intros y c x E; apply within32_small, (EW _ _ _ E)).
  pose proof (tagger_sound lg e ES) as SP. constructor.
  - apply SP.
  - intros y P. apply shipped_pstate in P. rewrite tagger_start by auto. destruct (pos_start_num y) as [me|] eqn:E; auto.
    left. unfold pos_start_num in E. destruct (dget pstate_eqb (combine pos_states pos_start_nums) y) as [o|] eqn:D; [|discriminate E].
    subst o. apply entry_32. apply dget_In in D; [|apply pstate_eqb_ok]. apply in_combine_snd in D.
    pose proof start_nums_checked as C. rewrite forallb_forall in C. exact (C _ D).
  - intros x y p (l & I & J). apply shipped_row in I. destruct I as (i & _ & -> & ->).
    apply in_map_iff in J. destruct J as (j & E & _).
    apply (f_equal snd) in E. cbn [snd v_trans] in E. rewrite <- E. clear E.
    unfold pos_trans_num. destruct (dget pstate_eqb _ (pos_state i)) as [[js ns]|] eqn:E; [|apply zero_32].
    destruct (find _ (combine js ns)) as [[j' me]|] eqn:FI; [|apply zero_32]. cbn [snd].
    apply find_some in FI. destruct FI as [FI _]. apply in_combine_snd in FI.
    apply dget_In in E; [|apply pstate_eqb_ok]. apply in_combine_snd, in_combine_snd in E.
    pose proof trans_nums_checked as C. rewrite forallb_forall in C. specialize (C _ E).
    rewrite forallb_forall in C. apply entry_32. exact (C _ FI).
  - intros y e' c x E E'. unfold tagger_tables, shipped in E. cbn [t_emit v_emit] in E.
    destruct (p_in y pos_states); [|discriminate E]. injection E as <-. exact (EW _ _ _ E').
Qed.

(** An emission table with three entries: 一 as S m, 人 as S n or B n.  With the shipped
    start and transition numbers, the tagging S m, S n of 一人 is clear. *)
Definition s_m : pstate := (l_S, [109]%N).
Definition s_n : pstate := (l_S, [110]%N).
Definition b_n : pstate := (l_B, [110]%N).
Definition yi_ren : str := [0x4e00; 0x4eba]%N.
Definition e_three : pstate -> char -> option b64 := fun y c =>
  if (c =? 0x4e00)%N then (if pstate_eqb y s_m then Some (b64_of (-2, 0)%Z) else None)
  else if (c =? 0x4eba)%N then
    (if pstate_eqb y s_n then Some (b64_of (-3, 0)%Z) else if pstate_eqb y b_n then Some (b64_of (-31, 0)%Z) else None)
  else None.
Lemma e_three_32 : forall y c x, e_three y c = Some x -> within32 x.
Proof.
  intros y c x. unfold e_three.
  repeat match goal with |- context [if ?b then _ else _] => destruct b end; intros E; try discriminate E; injection E as <-; apply entry_32; reflexivity.
Qed.

Lemma three_step (y : pstate) : In y [s_n; b_n] -> forall lg, step (tagger_tables lg e_three) s_m y.
Proof.
  intros I lg. apply tagger_step; [intros z c x E; apply within32_small, (e_three_32 _ _ _ E)|].
  exists 214%N. split; [lia|]. split; [vm_compute; reflexivity|]. apply p_in_In.
  destruct I as [<-|[<-|[]]]; vm_compute; reflexivity.
Qed.
Lemma three_considered (y : pstate) : In y [s_n; b_n] -> forall lg, considered (tagger_tables lg e_three) yi_ren [s_m; y].
Proof.
  intros I lg.
  assert (A1 : forall lg, char_state (tagger_tables lg e_three) 0x4e00%N s_m).
  { intros lg'. unfold char_state. change (match option_map (map pos_state) (dget N.eqb pos_chars 0x4e00%N) with Some l => In s_m l | None => is_pstate (tagger_tables lg' e_three) s_m end).
    destruct (dget N.eqb pos_chars 0x4e00%N) as [l|] eqn:E; [|vm_compute in E; discriminate E].
    cbn [option_map]. apply p_in_In. vm_compute in E. injection E as <-. vm_compute. reflexivity. }
  assert (A2 : forall lg, char_state (tagger_tables lg e_three) 0x4eba%N y).
  { intros lg'. unfold char_state. change (match option_map (map pos_state) (dget N.eqb pos_chars 0x4eba%N) with Some l => In y l | None => is_pstate (tagger_tables lg' e_three) y end).
    destruct (dget N.eqb pos_chars 0x4eba%N) as [l|] eqn:E; [|vm_compute in E; discriminate E].
    cbn [option_map]. apply p_in_In. vm_compute in E. injection E as <-. destruct I as [<-|[<-|[]]]; vm_compute; reflexivity. }
  split; [reflexivity|]. split; [cbn [steps]; repeat split; apply three_step; auto|].
  intros [|[|i]] z E; cbn [nth_error] in E.
  - injection E as <-. cbn [firstn rev app kept yi_ren]. apply A1.
  - injection E as <-. cbn [firstn rev app kept yi_ren]. split; [exists s_m; split; [apply A1|apply three_step; auto]|left; apply A2].
  - destruct i; discriminate E.
Qed.

Lemma three_prob (y : pstate) : In y [s_n; b_n] -> forall lg,
  prob_of (tagger_tables lg e_three) s_m y = (b64_of (pos_trans_num s_m y) : F (numB lg)).
Proof.
  intros I lg. assert (MT : moderate_ptables (tagger_tables lg e_three)) by (apply C106_shipped_tables, e_three_32).
  destruct (three_step y I lg) as (p & S). pose proof S as S'.
  apply (@step_p_prob _ _ _ (mp_ok _ MT)) in S. destruct S as [-> _].
  destruct S' as (l & J & K). apply shipped_row in J. destruct J as (i & _ & E1 & ->).
  apply in_map_iff in K. destruct K as (j & E & _). pose proof (f_equal fst E) as E2. apply (f_equal snd) in E. cbn [fst snd v_trans] in E, E2.
  rewrite <- E, E2, E1. reflexivity.
Qed.

Lemma three_emit (y : pstate) (c : char) x : p_in y pos_states = true -> e_three y c = Some x ->
  forall lg, emit_value (tagger_tables lg e_three) y c = B2R x /\ p_lacks (tagger_tables lg e_three) y c = 0%nat.
Proof.
  intros P E lg. unfold emit_value, p_lacks, tagger_tables, shipped. cbn [t_emit v_emit]. rewrite P, E. auto.
Qed.
Lemma three_states : p_in s_m pos_states = true /\ p_in s_n pos_states = true /\ p_in b_n pos_states = true.
Proof. vm_compute. auto. Qed.

Example C106_nonvacuous : forall lg,
  moderate_ptables (tagger_tables lg e_three) /\ clear_tagging (tagger_tables lg e_three) yi_ren [s_m; s_n] /\
  considered (tagger_tables lg e_three) yi_ren [s_m; b_n] /\ p_missing (tagger_tables lg e_three) yi_ren [s_m; b_n] = 0%nat.
Proof.
  intros lg. assert (MT : moderate_ptables (tagger_tables lg e_three)) by (apply C106_shipped_tables, e_three_32).
  assert (NS : p_no_start (tagger_tables lg e_three) s_m = false).
  { destruct three_states as (S1 & _). unfold p_no_start. rewrite tagger_start by (apply p_in_In; exact S1).
    assert (P : pos_start_num s_m = Some (-3680792709667359, -50)%Z) by (vm_compute; reflexivity). rewrite P.
    apply small_not_min, b64_of_small; lia. }
  destruct three_states as (S1 & S2 & S3).
  destruct (three_emit s_m 0x4e00%N _ S1 eq_refl lg) as [V0 K0].
  destruct (three_emit s_n 0x4eba%N _ S2 eq_refl lg) as [V1 K1].
  destruct (three_emit b_n 0x4eba%N _ S3 eq_refl lg) as [V2 K2].
  split; auto. split; [|split].
  - assert (C0 : considered (tagger_tables lg e_three) yi_ren [s_m; s_n]) by (apply three_considered; cbn; auto).
    assert (M00 : p_missing (tagger_tables lg e_three) yi_ren [s_m; s_n] = 0%nat) by (unfold p_missing; cbn [yi_ren p_lacking]; rewrite NS, K0, K1; reflexivity).
    assert (LN : (length yi_ren <= 2 ^ 22)%nat).
    { apply Nat.le_trans with (2 ^ 2)%nat; [cbn; lia|apply Nat.pow_le_mono_r; lia]. }
    split; auto. split; auto.
    intros ys' CO NQ.
    assert (N2 : yi_ren <> []) by discriminate.
    destruct (Nat.eq_dec (p_missing (tagger_tables lg e_three) yi_ren ys') 0) as [M0|M0].
    + destruct CO as (L & ST & _). destruct ys' as [|y1 [|y2 [|y3 ys']]]; try discriminate L.
      unfold p_missing in M0. cbn [yi_ren p_lacking] in M0.
      assert (K : forall y c, p_lacks (tagger_tables lg e_three) y c = 0%nat -> e_three y c <> None).
      { intros y c Q. unfold p_lacks, tagger_tables, shipped in Q. cbn [t_emit v_emit] in Q.
        destruct (p_in y pos_states); [|discriminate Q]. intros N. rewrite N in Q. discriminate Q. }
      assert (Y1 : y1 = s_m).
      { pose proof (K y1 0x4e00%N ltac:(lia)) as Q. unfold e_three in Q. cbn [N.eqb Pos.eqb] in Q.
        destruct (pstate_eqb y1 s_m) eqn:E; [apply pstate_eqb_ok; exact E|congruence]. }
      assert (Y2 : y2 = b_n).
      { pose proof (K y2 0x4eba%N ltac:(lia)) as Q. unfold e_three in Q. cbn [N.eqb Pos.eqb] in Q.
        destruct (pstate_eqb y2 s_n) eqn:E; [apply pstate_eqb_ok in E; congruence|].
        destruct (pstate_eqb y2 b_n) eqn:E2; [apply pstate_eqb_ok; exact E2|congruence]. }
      subst y1 y2. cbn [tag_value tag_value_from yi_ren].
      rewrite (three_prob s_n), (three_prob b_n) by (cbn; auto).
      assert (P1 : pos_trans_num s_m s_n = (-5659323196280561, -51)%Z) by (vm_compute; reflexivity).
      assert (P2 : pos_trans_num s_m b_n = (-7620839868697707, -52)%Z) by (vm_compute; reflexivity).
      rewrite P1, P2.
      rewrite V1, V2, !b64_of_val by lia. unfold cost. replace (INR (length yi_ren)) with 2 by (cbn; lra).
      change (bpow radix2 0) with 1. change (bpow radix2 (-51)) with (/ IZR (2 ^ 51)). change (bpow radix2 (-52)) with (/ IZR (2 ^ 52)).
      change (2 ^ 51)%Z with 2251799813685248%Z. change (2 ^ 52)%Z with 4503599627370496%Z. lra.
    + pose proof (tag_upper lg _ MT yi_ren ys' N2 CO) as UP.
      assert (KK : 1 <= INR (p_missing (tagger_tables lg e_three) yi_ren ys')) by (change 1 with (INR 1); apply le_INR; lia).
      assert (BIG : 1000000000 <= bpow radix2 300).
      { apply Rle_trans with (bpow radix2 30); [change (bpow radix2 30) with (IZR (2 ^ 30)); apply IZR_le; vm_compute; discriminate|apply bpow_le; lia]. }
      assert (bpow radix2 300 <= INR (p_missing (tagger_tables lg e_three) yi_ren ys') * bpow radix2 300) by (apply Rle_trans with (1 * bpow radix2 300); [lra|]; apply Rmult_le_compat_r; lra).
      destruct (tag_err lg _ MT yi_ren [s_m; s_n] N2 C0 M00 LN) as (_ & _ & LOW).
      unfold cost. cbn [length yi_ren INR] in *. lra.
  - apply three_considered; cbn; auto.
  - unfold p_missing. cbn [yi_ren p_lacking]. rewrite NS, K0, K2. reflexivity.
Qed.

Print Assumptions C106_near_best.
Print Assumptions C106_clear_tagging.
Print Assumptions C106_shipped_tables.
Print Assumptions C106_nonvacuous.
