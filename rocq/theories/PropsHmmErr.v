(** * C103: what rounding can do to the labels the HMM stage chooses *)
From Coq Require Import Reals Lra Lia.
From Flocq Require Import Core BinarySingleNaN.
From Verif Require Import PyBase PyRegex PyNum ModelFinalseg SpecBase SpecSeg SpecHmm SpecNum SpecMode
  SpecUnknown SpecMissing SpecHmmErr InstR InstB64 InstB64Ext B64Lit ModelTables
  ProofsBase ProofsFinalseg ProofsVit ProofsMode ProofsUnknown ProofsMissing ProofsB64Lit ProofsTables ProofsHmmErr PropsHmm.
Local Open Scope R_scope.

(** Binary64, a text that can be labelled without a missing entry: the HMM stage uses
    labels that need none either, and no other labels have a sum of table entries that is
    larger by more than n^2 / 2^45. *)
Theorem C103_near_best :
  forall (lg : Z -> b64) (H : hmm (numB lg)) (s : str),
    log_ok lg -> moderate_tables H -> s <> [] -> (length s <= 2 ^ 22)%nat ->
    (exists ls, labelling s ls /\ missing H (no_start H) s ls = 0%nat) ->
    exists labels ws,
      fs_cut_han H s = gof ws /\ concat ws = s /\ spelled_by labels ws /\ labelling s labels /\
      missing H (no_start H) s labels = 0%nat /\
      forall other, labelling s other -> exact_score H s other <= exact_score H s labels + cost (length s).
Proof.
  intros lg H s LO MT NE LN EX. destruct s as [|a obs]; [congruence|].
  destruct (viterbi_near lg H MT LO a obs LN EX) as (LA & M0 & BEST).
  exists (snd (viterbi H a obs)), (decode [] (a :: obs) (snd (viterbi H a obs))).
  destruct LA as (PL & PC & PF).
  assert (FF : final_from None (snd (viterbi H a obs))).
  { unfold final_from. destruct (snd (viterbi H a obs)); auto. discriminate. }
  split; [apply fs_cut_han_eq|]. split; [|split; [|split; [split; auto|split; auto]]].
  - apply (@decode_concat None); simpl; auto.
  - destruct (@decode_spelled true None [] [] (a :: obs) (snd (viterbi H a obs))) as [bl [B1 [B2 B3]]];
      simpl; auto.
    exists bl. split; auto. split; auto. destruct bl; auto. tauto.
Qed.

Lemma clear_viterbi lg (H : hmm (numB lg)) a obs ls :
  log_ok lg -> moderate_tables H -> (length (a :: obs) <= 2 ^ 22)%nat -> clear_labels H (a :: obs) ls ->
  snd (viterbi H a obs) = ls /\ snd (viterbi (exact_tables H) a obs) = ls.
Proof.
  intros LO MT LN (LA & M0 & CL). split.
  - destruct (viterbi_near lg H MT LO a obs LN (ex_intro _ ls (conj LA M0))) as (LV & _ & BEST).
    destruct (list_eq_dec (fun a b : label => ltac:(decide equality) : {a = b} + {a <> b}) (snd (viterbi H a obs)) ls) as [E|NE]; auto.
    exfalso. specialize (CL _ LV NE). specialize (BEST ls LA). lra.
  - assert (FIN : hmm_finite orderR (exact_tables H)) by (repeat split).
    destruct (viterbi_best FIN a obs) as [V1 V2]. rewrite V1 in V2. destruct LA as (L1 & L2 & L3).
    specialize (V2 ls L1 L2 L3). cbn [o_val orderR] in V2.
    destruct (viterbi_path (exact_tables H) a obs) as (P1 & P2 & P3).
    destruct (list_eq_dec (fun a b : label => ltac:(decide equality) : {a = b} + {a <> b}) (snd (viterbi (exact_tables H) a obs)) ls) as [E|NE]; auto.
    exfalso. specialize (CL _ (conj P1 (conj P2 P3)) NE). unfold exact_score in CL.
    assert (CP : 0 <= cost (length (a :: obs))).
    { unfold cost. pose proof (pos_INR (length (a :: obs))) as P.
      assert (0 <= INR (length (a :: obs)) * INR (length (a :: obs))) by (apply Rmult_le_pos; auto). lra. }
    lra.
Qed.

(** Labels that are better than all others by more than that are the ones used, and the
    words are those of exact arithmetic. *)
Theorem C103_clear_labels :
  forall (lg : Z -> b64) (H : hmm (numB lg)) (s : str) (ls : list label),
    log_ok lg -> moderate_tables H -> s <> [] -> (length s <= 2 ^ 22)%nat -> clear_labels H s ls ->
    exists ws, fs_cut_han H s = gof ws /\ fs_cut_han (exact_tables H) s = gof ws /\
               concat ws = s /\ spelled_by ls ws.
Proof.
  intros lg H s ls LO MT NE LN CL. destruct s as [|a obs]; [congruence|].
  destruct (clear_viterbi lg H a obs ls LO MT LN CL) as [E1 E2].
  exists (decode [] (a :: obs) ls). rewrite !fs_cut_han_eq, E1, E2. split; auto. split; auto.
  destruct CL as ((PL & PC & PF) & _).
  assert (FF : final_from None ls).
  { unfold final_from. destruct ls; auto. discriminate. }
  split; [apply (@decode_concat None); simpl; auto|].
  destruct (@decode_spelled true None [] [] (a :: obs) ls) as [bl [B1 [B2 B3]]]; simpl; auto.
  exists bl. split; auto. split; auto. destruct bl; auto. tauto.
Qed.

(** The tables that are shipped meet the hypotheses. *)
Theorem C103_shipped_tables : forall lg : Z -> b64, moderate_tables (shipped lg).
Proof.
  intros lg. constructor.
  - intros y. cbn [h_start shipped]. destruct y; cbn [start_table]; auto; left; apply b64_of_32; lia.
  - intros a y FO. cbn [h_trans shipped]. destruct a, y; try destruct FO; cbn [trans_table]; eexists; reflexivity.
  - intros a y x. cbn [h_trans shipped].
    destruct a, y; cbn [trans_table]; try discriminate; intros E; injection E as <-; apply b64_of_32; lia.
  - intros y c x. cbn [h_emit shipped]. unfold emit_entry. destruct (emit_row c) as [n|] eqn:E; [|discriminate].
    apply emit_row_ok in E. destruct E as [E _].
    assert (X : entry_small (pick y n) = true).
    { destruct n as [[[b m] e] s]. unfold row_small in E. cbn [pick].
      apply andb_prop in E. destruct E as [E E4]. apply andb_prop in E. destruct E as [E E3].
      apply andb_prop in E. destruct E as [E1 E2]. destruct y; auto. }
    destruct (pick y n) as [me|]; [|discriminate]. intros EX. injection EX as <-. apply entry_32. exact X.
Qed.

Theorem C103_shipped :
  forall (lg : Z -> b64) (s : str),
    log_ok lg -> s <> [] -> (length s <= 2 ^ 22)%nat -> Forall (known (shipped lg)) s ->
    exists labels ws,
      fs_cut_han (shipped lg) s = gof ws /\ concat ws = s /\ spelled_by labels ws /\ labelling s labels /\
      missing (shipped lg) (no_start (shipped lg)) s labels = 0%nat /\
      forall other, labelling s other ->
        exact_score (shipped lg) s other <= exact_score (shipped lg) s labels + cost (length s).
Proof.
  intros lg s LO NE LN KN. apply C103_near_best; auto; [apply C103_shipped_tables|].
  (* every character a word of its own *)
  assert (CH : forall l : str, chain (map (fun _ => LS) l)).
  { induction l as [|x l IH]; cbn [map chain]; auto. split; auto. destruct l; cbn; auto. }
  exists (map (fun _ => LS) s). split; [split; [apply map_length|split; auto]|].
  - destruct (exists_last NE) as (p & x & ->). rewrite map_app. exists (map (fun _ => LS) p), LS. split; auto.
  - unfold missing. destruct s as [|a s]; [congruence|]. cbn [map].
    assert (NS : no_start (shipped lg) LS = false).
    { unfold no_start. cbn [h_start shipped start_table]. vm_compute. reflexivity. }
    rewrite NS. cbn [Nat.add]. clear - KN.
    change (LS :: map (fun _ : char => LS) s) with (map (fun _ : char => LS) (a :: s)).
    induction KN as [|x l K F IH]; [reflexivity|]. cbn [map lacking]. rewrite IH. unfold lacks.
    unfold known in K. destruct (h_emit (shipped lg) LS x); [reflexivity|congruence].
Qed.

(** 中国 with the shipped tables: the labels B E are clearly the best *)
Lemma b64_of_val m e : (Z.abs m < 2 ^ 53)%Z -> (-1074 <= e <= 0)%Z -> B2R (b64_of (m, e)) = IZR m * bpow radix2 e.
Proof.
  intros BM BE. unfold b64_of. cbn [fst snd].
  pose proof (binary_normalize_correct 53 1024 _ _ mode_NE m e false) as BC. cbv zeta in BC. cbn [round_mode] in BC.
  assert (G : round radix2 (SpecFloat.fexp 53 1024) ZnearestE (F2R (Float radix2 m e)) = F2R (Float radix2 m e)).
  { apply round_generic; [apply valid_rnd_N|]. destruct (Z.eq_dec m 0) as [->|NZ]; [rewrite F2R_0; apply generic_format_0|].
    apply generic_format_F2R. cbn [Fnum Fexp]. intros _. unfold cexp. rewrite mag_F2R by auto.
    assert (B : (mag radix2 (IZR m) <= 53)%Z).
    { apply mag_le_bpow; [apply IZR_neq; auto|]. rewrite <- abs_IZR. change (bpow radix2 53) with (IZR (2 ^ 53)). apply IZR_lt. auto. }
    unfold SpecFloat.fexp, SpecFloat.emin. lia. }
  rewrite G in BC. rewrite Rlt_bool_true in BC; [apply BC|].
  unfold F2R. cbn [Fnum Fexp]. rewrite Rabs_mult, <- abs_IZR, (Rabs_right (bpow radix2 e)) by (apply Rle_ge, bpow_ge_0).
  apply Rle_lt_trans with (bpow radix2 53 * 1); [|rewrite Rmult_1_r; apply bpow_lt; lia].
  apply Rmult_le_compat; [apply IZR_le; lia|apply bpow_ge_0| |change 1 with (bpow radix2 0); apply bpow_le; lia].
  change (bpow radix2 53) with (IZR (2 ^ 53)). apply IZR_le. lia.
Qed.

Definition zhong_guo : str := [20013; 22269]%N.
Lemma zhong_guo_rows :
  (emit_entry LB 20013%N = Some (-5175472870455555, -50) /\ emit_entry LS 20013%N = Some (-5419584076435821, -50) /\
   emit_entry LE 22269%N = Some (-5072185980843003, -50) /\ emit_entry LS 22269%N = Some (-7775848377583495, -50))%Z.
Proof. vm_compute. auto. Qed.

Example C103_nonvacuous : forall lg,
  Forall (known (shipped lg)) zhong_guo /\ clear_labels (shipped lg) zhong_guo [LB; LE] /\
  labelling zhong_guo [LS; LS] /\ missing (shipped lg) (no_start (shipped lg)) zhong_guo [LS; LS] = 0%nat.
Proof.
  intros lg. destruct zhong_guo_rows as (R1 & R2 & R3 & R4).
  assert (NB : no_start (shipped lg) LB = false) by (vm_compute; reflexivity).
  assert (NS : no_start (shipped lg) LS = false) by (vm_compute; reflexivity).
  assert (NM : no_start (shipped lg) LM = true) by (vm_compute; reflexivity).
  assert (NE : no_start (shipped lg) LE = true) by (vm_compute; reflexivity).
  split; [|split; [|split]].
  - repeat constructor; unfold known; cbn [h_emit shipped]; rewrite ?R2, ?R4; discriminate.
  - split; [|split].
    + split; [reflexivity|]. split; [cbn; auto|]. exists [LB], LE. auto.
    + unfold missing, lacking, lacks, zhong_guo. cbn [h_emit shipped]. rewrite R1, R3, NB. reflexivity.
    + intros ls' (L & C & FI) N. destruct ls' as [|a [|b [|]]]; try discriminate L.
      destruct FI as (p & y & EP & FY). destruct p as [|p0 [|p1 [|p2 p]]]; try discriminate EP. injection EP as -> ->.
      destruct C as [FO _].
      assert (VAL : exact_score (shipped lg) zhong_guo [LB; LE] =
        IZR (-4732141241282413) * bpow radix2 (-54) + IZR (-5175472870455555) * bpow radix2 (-50) +
        IZR (-4601108177687627) * bpow radix2 (-53) + IZR (-5072185980843003) * bpow radix2 (-50)).
      { unfold exact_score, zhong_guo, exact_tables. cbn [label_score score_from h_start h_trans h_emit shipped start_table trans_table].
        rewrite R1, R3. cbn [entry f_add numR]. rewrite !b64_of_val by lia. reflexivity. }
      assert (VAL2 : exact_score (shipped lg) zhong_guo [LS; LS] =
        IZR (-6598959431365077) * bpow radix2 (-52) + IZR (-5419584076435821) * bpow radix2 (-50) +
        IZR (-5997562022321019) * bpow radix2 (-53) + IZR (-7775848377583495) * bpow radix2 (-50)).
      { unfold exact_score, zhong_guo, exact_tables. cbn [label_score score_from h_start h_trans h_emit shipped start_table trans_table].
        rewrite R2, R4. cbn [entry f_add numR]. rewrite !b64_of_val by lia. reflexivity. }
      rewrite VAL. unfold cost. cbn [length zhong_guo INR]. cbn [bpow].
      assert (FAR : forall x, no_start (shipped lg) x = true -> follows x y -> exact_score (shipped lg) zhong_guo [x; y] <= -1000).
      { intros x NX FX. eapply Rle_trans; [apply (score_upper lg _ (C103_shipped_tables lg)); [discriminate|reflexivity|cbn; auto]|].
        unfold missing. rewrite NX. rewrite plus_INR. pose proof (pos_INR (lacking (shipped lg) zhong_guo [x; y])).
        assert (B3 : bpow radix2 30 <= bpow radix2 300) by (apply bpow_le; lia). change (bpow radix2 30) with 1073741824 in B3.
        cbn [length zhong_guo INR]. pose proof (bpow_gt_0 radix2 300). nra. }
      destruct p0.
      * destruct FY as [->| ->]; [exfalso; apply N; reflexivity|destruct FO].
      * specialize (FAR LM NM FO). cbn [Z.pow_pos Pos.iter Z.mul Pos.mul radix_val radix2]. lra.
      * specialize (FAR LE NE FO). cbn [Z.pow_pos Pos.iter Z.mul Pos.mul radix_val radix2]. lra.
      * destruct FY as [->| ->]; [destruct FO|]. rewrite VAL2. cbn [bpow Z.pow_pos Pos.iter Z.mul Pos.mul radix_val radix2]. lra.
  - split; [reflexivity|]. split; [cbn; auto|]. exists [LS], LS. auto.
  - unfold missing, lacking, lacks, zhong_guo. cbn [h_emit shipped]. rewrite R2, R4, NS. reflexivity.
Qed.

Print Assumptions C103_near_best.
Print Assumptions C103_clear_labels.
Print Assumptions C103_shipped_tables.
Print Assumptions C103_shipped.
