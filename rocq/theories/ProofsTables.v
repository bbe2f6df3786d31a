(** * Facts about the shipped tables of finalseg *)
From Coq Require Import Reals Lra.
From Flocq Require Import Core BinarySingleNaN.
From Verif Require Import PyBase PyRegex PyNum ModelFinalseg ModelSeg SpecBase SpecSeg SpecHmm SpecMode
  SpecUnknown SpecMissing SpecTables InstB64 InstB64Ext B64Lit DataFinalseg ModelTables
  ProofsBase ProofsFinalseg ProofsNoHmm ProofsSuggest ProofsSuggest ProofsMode ProofsUnknown ProofsMissing ProofsB64Lit.

Definition row_small (n : num4) : bool :=
  let '(b, m, e, s) := n in entry_small b && entry_small m && entry_small e && entry_small s.
Definition row_single (hi lo : N) (n : num4) : bool :=
  let '(b, m, e, s) := n in
  match s with Some _ => true | None => existsb (N.eqb (256 * hi + lo)) half_known end.

Definition check (t : list (N * list (N * num4))) : bool :=
  forallb (fun b => (forallb (fun r => row_small (snd r) && row_single (fst b) (fst r) (snd r)) (snd b))) t.
Lemma table_checked : check emit_table = true.
Proof. vm_compute. reflexivity. Qed.

Lemma row_In {A} k (t : list (N * A)) x : row k t = Some x -> In (k, x) t.
Proof.
  unfold row. destruct (find _ t) as [[k' x']|] eqn:E; [|discriminate]. cbn [snd]. intros EQ. injection EQ as ->.
  apply find_some in E. cbn [fst] in E. destruct E as [I E]. apply N.eqb_eq in E. subst. exact I.
Qed.

Lemma checked_row t c n : check t = true ->
  match row (N.shiftr c 8) t with Some t' => row (N.land c 255) t' | None => None end = Some n ->
  row_small n = true /\ row_single (N.shiftr c 8) (N.land c 255) n = true.
Proof.
  intros TC. destruct (row (N.shiftr c 8) t) as [t'|] eqn:E; [|discriminate].
  apply row_In in E. intros E'. apply row_In in E'. unfold check in TC.
  rewrite forallb_forall in TC. specialize (TC _ E). cbn [fst snd] in TC.
  rewrite forallb_forall in TC. specialize (TC _ E'). cbn [fst snd] in TC. apply andb_prop in TC. exact TC.
Qed.
Lemma emit_row_ok c n : emit_row c = Some n ->
  row_small n = true /\ row_single (N.shiftr c 8) (N.land c 255) n = true.
Proof. exact (checked_row emit_table c n table_checked). Qed.

Lemma split_char c : (256 * N.shiftr c 8 + N.land c 255 = c)%N.
Proof.
  rewrite N.shiftr_div_pow2. change 255%N with (N.ones 8). rewrite N.land_ones.
  change (2 ^ 8)%N with 256%N. symmetry. apply N.div_mod. discriminate.
Qed.

Lemma emit_entry_small y c : match emit_entry y c with Some me => small (b64_of me) | None => True end.
Proof.
  unfold emit_entry. destruct (emit_row c) as [n|] eqn:E; auto.
  apply emit_row_ok in E. destruct E as [E _].
  assert (X : entry_small (pick y n) = true).
  { destruct n as [[[b m] e] s]. unfold row_small in E. cbn [pick].
    apply andb_prop in E. destruct E as [E E4]. apply andb_prop in E. destruct E as [E E3].
    apply andb_prop in E. destruct E as [E1 E2]. destruct y; auto. }
  destruct (pick y n) as [me|]; auto. apply entry_small_ok. exact X.
Qed.

Lemma shipped_sound lg : sound_tables (shipped lg).
Proof.
  constructor.
  - intros y. cbn [h_start shipped]. destruct y; cbn [start_table]; auto; left; apply b64_of_small; lia.
  - intros a y FO. cbn [h_trans shipped].
    destruct a, y; try destruct FO; cbn [trans_table]; eexists; (split; [reflexivity|]); apply b64_of_small; lia.
  - intros y c x. cbn [h_emit shipped]. pose proof (emit_entry_small y c) as B.
    destruct (emit_entry y c) as [me|]; [|discriminate]. intros E.
    assert (x = b64_of me) as -> by congruence. exact B.
Qed.

Lemma shipped_plain lg : plain_tables (shipped lg).
Proof.
  pose proof (shipped_sound lg) as [SS ST SE]. constructor; auto.
  - apply b64_of_small; lia.
  - assert (MF : entry_ok b64_min_float) by (split; [vm_compute; reflexivity|apply min_float_bound]).
    assert (MU : (B2R b64_min_float <= bpow radix2 200)%R).
    { pose proof ProofsAbsorb.min_float_low. pose proof (bpow_gt_0 radix2 333). pose proof (bpow_gt_0 radix2 200). lra. }
    intros y. destruct (SS y) as [S| ->]; auto. split; [|apply (small_le _ S)].
    destruct S as [F B]. split; auto. eapply Rle_trans; [exact B|]. apply bpow_le. lia.
Qed.

Lemma shipped_known lg c : ~ In c half_known -> known (shipped lg) c \/ unknown (shipped lg) c.
Proof.
  intros NI. unfold known, unknown. cbn [h_emit shipped]. unfold emit_entry.
  destruct (emit_row c) as [n|] eqn:E; [|right; reflexivity].
  apply emit_row_ok in E. destruct E as [_ E]. destruct n as [[[b m] e] s]. unfold row_single in E. cbn [pick].
  destruct s as [s|]; [left; discriminate|].
  apply existsb_exists in E. destruct E as (x & I & E). apply N.eqb_eq in E.
  rewrite split_char in E. subst x. contradiction.
Qed.

(** ** A text that is one group for the HMM *)

(** the rows of the listed characters *)
Lemma half_known_checked :
  forallb (fun c => match emit_row c with
                    | Some (None, None, None, None) | Some (_, _, _, Some _) | None => false | _ => true
                    end) half_known = true.
Proof. vm_compute. reflexivity. Qed.
Lemma half_known_row c : In c half_known ->
  match emit_entry LS c, emit_entry LB c, emit_entry LM c, emit_entry LE c with
  | Some _, _, _, _ | None, None, None, None => False | _, _, _, _ => True
  end.
Proof.
  intros I. pose proof half_known_checked as X. rewrite forallb_forall in X. specialize (X c I). cbn beta in X.
  unfold emit_entry. destruct (emit_row c) as [[[[b m] e] s]|]; [|discriminate]. cbn [pick].
  destruct s; [destruct b, m, e; discriminate|]. destruct b, m, e; auto; discriminate.
Qed.
Lemma middle_only_checked :
  forallb (fun c => match emit_row c with Some (None, Some _, None, None) => true | _ => false end) middle_only = true.
Proof. vm_compute. reflexivity. Qed.
Lemma middle_only_row c : In c middle_only ->
  match emit_entry LB c, emit_entry LM c, emit_entry LE c, emit_entry LS c with
  | None, Some _, None, None => True | _, _, _, _ => False
  end.
Proof.
  intros I. pose proof middle_only_checked as X. rewrite forallb_forall in X. specialize (X c I). cbn beta in X.
  unfold emit_entry. destruct (emit_row c) as [[[[b m] e] s]|]; [|discriminate]. cbn [pick].
  destruct b, m, e, s; auto; discriminate.
Qed.

Lemma cut_one_group num (H : hmm num) fr total force s :
  length s <> 1 -> s <> [] -> Forall (fun x => han_char x = true) s ->
  sane (sget fr) total -> prefix_closed (sget fr) ->
  (forall a w b, s = a ++ w ++ b -> is_word (sget fr) w -> length w = 1) ->
  cut num H WithHMM fr total force s = fs_cut num H force s.
Proof.
  intros L1 NS HA SA PC NW.
  destruct (@cut_hmm_text num H fr total force s SA) as (out & HG & E).
  rewrite E. rewrite (@runs_whole word_char s true); auto.
  2:{ eapply Forall_impl; [|exact HA]. cbn. intros x X. unfold word_char. rewrite X. reflexivity. }
  cbn [flat_map fst snd]. rewrite app_nil_r.
  assert (SI : chosen num fr total s = map (fun x => [x]) s) by (apply chosen_singles; auto).
  specialize (HG s). rewrite SI in HG.
  assert (SW : Forall (fun w : str => length w = 1) (map (fun x : char => [x]) s)).
  { apply Forall_map, Forall_forall. reflexivity. }
  assert (CS : concat (map (fun x : char => [x]) s) = s) by (clear; induction s; cbn; congruence).
  inversion HG as [E0 EO|w ws0 out0 LW HG' E0 EO|g ws0 ps out0 GN GF NX G1 G2 HG' E0 EO].
  - destruct s; [congruence|discriminate].
  - rewrite <- E0 in SW. inversion SW; contradiction.
  - assert (ws0 = []) as ->.
    { destruct ws0 as [|w ws0]; auto. rewrite <- E0 in SW. apply Forall_app in SW. destruct SW as [_ SW].
      inversion SW; contradiction. }
    rewrite app_nil_r in E0. subst g. inversion HG' as [E1 E2|w ws1 o1 LW H1 E1 E2|g1 ws1 ps1 o1 GN1 GF1 NX1 P1 Q1 H1 E1 E2].
    2:{ destruct g1; [congruence|discriminate]. }
    rewrite app_nil_r. rewrite CS in *. rewrite map_length in *.
    assert (NI : ~ is_word (sget fr) s).
    { intros W. apply L1. apply (NW [] s []); [rewrite app_nil_r; reflexivity|exact W]. }
    specialize (G2 L1 NI). symmetry. exact G2.
Qed.
