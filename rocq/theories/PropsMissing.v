(** * Missing entries of the HMM tables decide *)
From Coq Require Import Reals Lra.
From Coq Require QArith_base.
From Flocq Require Import Core BinarySingleNaN.
From Verif Require Import PyBase PyRegex PyNum ModelFinalseg SpecBase SpecSeg SpecHmm SpecNum SpecMode
  SpecUnknown SpecMissing InstQ InstR InstB64 InstB64Ext
  ProofsBase ProofsFinalseg ProofsVit ProofsMode ProofsUnknown ProofsMissing PropsHmm PropsUnknown.

(** ** C98

    Binary64.  Among all labellings of a text the HMM stage chooses one that needs the
    fewest entries that the tables lack, whatever the numbers in the tables are.  From
    the character before one without any emission probability on, only this counts: of
    the labellings that lack as few entries, the chosen one is the greatest when
    compared from the end (S > M > E > B). *)
Theorem C98_fewest_missing :
  forall (lg : Z -> b64) (H : hmm (numB lg)) (s : str),
    sound_tables H -> s <> [] -> (Z.of_nat (length s) <= 2 ^ 49)%Z ->
    exists labels ws,
      fs_cut_han H s = gof ws /\ concat ws = s /\ spelled_by labels ws /\ labelling s labels /\
      (forall other, labelling s other ->
         missing H (no_start H) s labels <= missing H (no_start H) s other) /\
      (forall u c v, s = u ++ c :: v -> unknown H c ->
         forall other, labelling s other ->
           missing H (no_start H) s other = missing H (no_start H) s labels ->
           not_above (skipn (length u - 1) other) (skipn (length u - 1) labels)).
Proof.
  intros lg H s ST NE L. destruct s as [|a obs]; [congruence|].
  assert (LB : blim (2 * length (a :: obs))) by (unfold blim; lia).
  destruct (viterbi_missing lg H ST a obs LB) as (LA & FEW & TIE).
  exists (snd (viterbi H a obs)), (decode [] (a :: obs) (snd (viterbi H a obs))).
  destruct LA as (PL & PC & PF).
  assert (FF : final_from None (snd (viterbi H a obs))).
  { unfold final_from. destruct (snd (viterbi H a obs)); auto. discriminate. }
  split; [apply fs_cut_han_eq|]. split; [|split; [|split; [|split]]].
  - apply (@decode_concat None); simpl; auto.
  - destruct (@decode_spelled true None [] [] (a :: obs) (snd (viterbi H a obs))) as [bl [B1 [B2 B3]]];
      simpl; auto.
    exists bl. split; auto. split; auto. destruct bl; auto. tauto.
  - split; auto.
  - exact FEW.
  - intros u c v ES UN o LO EQ. rewrite Nat.sub_1_r. apply (TIE u c v ES UN o LO EQ).
Qed.

(** Two tables with the same entries, whatever the numbers: the word with a character
    that has no emission probability ends at the same place, and the words behind it are
    the same. *)
Theorem C98_only_entries_matter :
  forall (lg1 lg2 : Z -> b64) (H1 : hmm (numB lg1)) (H2 : hmm (numB lg2)) (u : str) (c : char) (v : str),
    sound_tables H1 -> sound_tables H2 -> same_entries H1 H2 -> unknown H1 c ->
    (Z.of_nat (length (u ++ c :: v)) <= 2 ^ 49)%Z ->
    exists a1 a2 b,
      fs_cut_han H1 (u ++ c :: v) = gof (a1 ++ b) /\ fs_cut_han H2 (u ++ c :: v) = gof (a2 ++ b) /\
      concat a1 = concat a2 /\ length u < length (concat a1) /\
      (exists a w, a1 = a ++ [w] /\ length (concat a) <= length u) /\
      (exists a w, a2 = a ++ [w] /\ length (concat a) <= length u) /\
      (u = [] -> a1 = a2).
Proof.
  intros lg1 lg2 H1 H2 u c v S1 S2 [SS SE] UN L.
  assert (LB : blim (2 * length (u ++ c :: v))) by (unfold blim; lia).
  assert (UN2 : unknown H2 c) by (intros y; apply SE, UN).
  assert (MI : forall s l, missing H1 (no_start H1) s l = missing H2 (no_start H2) s l).
  { intros s l. unfold missing. f_equal; [destruct l as [|y l]; auto; rewrite SS; auto|].
    revert l. induction s as [|x s IH]; intros [|y l]; cbn [lacking]; auto. rewrite IH. f_equal.
    unfold lacks. specialize (SE y x). destruct (h_emit H1 y x), (h_emit H2 y x); auto; exfalso;
      destruct SE as [X Y]; (discriminate X || discriminate Y); reflexivity. }
  destruct (u ++ c :: v) as [|a obs] eqn:ES; [destruct u; discriminate|].
  destruct (viterbi_missing lg1 H1 S1 a obs LB) as (A1 & F1 & T1).
  destruct (viterbi_missing lg2 H2 S2 a obs LB) as (A2 & F2 & T2).
  rewrite !fs_cut_han_eq.
  set (l1 := snd (viterbi H1 a obs)) in *. set (l2 := snd (viterbi H2 a obs)) in *.
  assert (EM : missing H1 (no_start H1) (a :: obs) l1 = missing H1 (no_start H1) (a :: obs) l2).
  { pose proof (F1 l2 A2) as X. pose proof (F2 l1 A1) as Y. rewrite <- !MI in Y. apply Nat.le_antisymm; auto. }
  assert (EQ : skipn (Nat.pred (length u)) l1 = skipn (Nat.pred (length u)) l2).
  { apply not_above_antisym.
    - apply (T2 u c v (eq_sym ES) UN2 l1 A1). rewrite <- !MI. exact EM.
    - apply (T1 u c v (eq_sym ES) UN l2 A2). symmetry. exact EM. }
  assert (EQ' : skipn (length u) l1 = skipn (length u) l2).
  { destruct u as [|x u]; [exact EQ|]. cbn [length Nat.pred] in EQ.
    assert (SK : forall l : list label, skipn (S (length u)) l = skipn 1 (skipn (length u) l)).
    { intros l. rewrite skipn_skipn. reflexivity. }
    cbn [length]. rewrite !SK, EQ. reflexivity. }
  rewrite <- ES in A1, A2 |- *.
  destruct (same_words u c v l1 l2 A1 A2 EQ') as (a1 & a2 & b & D1 & D2 & CC & LT & W1 & W2).
  exists a1, a2, b. split; [rewrite <- D1; reflexivity|]. split; [rewrite <- D2; reflexivity|].
  split; auto. split; auto. split; auto. split; auto.
  intros ->. cbn [length skipn] in EQ'. subst l2. rewrite EQ' in D1. rewrite D1 in D2. apply app_inv_tail in D2. auto.
Qed.

(** In exact arithmetic the first half holds too, if the entries are small compared to
    3.14e100 over the length of the text. *)
Theorem C98_fewest_missing_exact :
  forall (H : hmm numR) (st : label -> bool) (B : R) (s : str),
    sound_tables_exact H st B -> s <> [] -> (4 * INR (length s) * B < IZR (314 * 10 ^ 98))%R ->
    exists labels ws,
      fs_cut_han H s = gof ws /\ concat ws = s /\ spelled_by labels ws /\ labelling s labels /\
      forall other, labelling s other -> missing H st s labels <= missing H st s other.
Proof.
  intros H st B s ST NE BB.
  assert (FIN : hmm_finite orderR H) by (repeat split).
  destruct (C14_best_labels numR orderR H s FIN NE) as (labels & ws & E1 & E2 & E3 & L1 & C1 & F1 & BEST).
  exists labels, ws. split; auto. split; auto. split; auto. split; [split; auto|].
  intros other (L2 & C2 & F2). specialize (BEST other L2 C2 F2).
  cbn [o_val orderR] in BEST.
  assert (MF : exists m : R, (0 < m)%R /\ IZR (314 * 10 ^ 98) = m /\ f_min_float numR = (- m)%R).
  { exists (IZR (314 * 10 ^ 98)). split; [apply IZR_lt; reflexivity|]. split; [reflexivity|].
    exact (opp_IZR (314 * 10 ^ 98)). }
  destruct MF as (m & MP & ME & MV). rewrite ME in BB. clear ME.
  assert (B0 : (0 <= B)%R).
  { destruct (@se_trans H st B ST LB LE I) as (x & _ & X). pose proof (Rabs_pos x). lra. }
  assert (SF : forall cs ls y0 acc k t n, length ls = length cs -> chain (y0 :: ls) ->
    acc = (- m * INR k + t)%R -> (Rabs t <= n * B)%R ->
    exists t', score_from H acc y0 cs ls = (- m * INR (k + lacking H cs ls) + t')%R /\
               (Rabs t' <= (n + 2 * INR (length cs)) * B)%R).
  { clear - ST MV B0. induction cs as [|c cs IH]; intros ls y0 acc k t n L C EA BT; destruct ls as [|y ls]; try discriminate.
    - cbn [score_from lacking length]. rewrite Nat.add_0_r. exists t. split; auto. simpl INR. lra.
    - cbn [score_from lacking length]. cbn [length] in L. injection L as L.
      destruct C as [FO C]. destruct (@se_trans H st B ST y0 y FO) as (x & EX & BX). rewrite EX. cbn [entry].
      cbn [f_add numR].
      assert (EE : exists e : R, entry numR (h_emit H y c) = (- m * INR (lacks H y c) + e)%R /\ (Rabs e <= B)%R).
      { unfold lacks. destruct (h_emit H y c) as [e|] eqn:EM; cbn [entry].
        - exists e. split; [simpl INR; lra|]. apply (@se_emit H st B ST y c e EM).
        - exists 0%R. rewrite MV. split; [simpl INR; lra|]. rewrite Rabs_R0. auto. }
      destruct EE as (e & EE & BE).
      edestruct (IH ls y (acc + x + entry numR (h_emit H y c))%R (k + lacks H y c) (t + x + e)%R (n + 2)%R L C)
        as (t' & E' & B').
      + rewrite EE, EA, plus_INR. lra.
      + eapply Rle_trans; [apply Rabs_triang|]. pose proof (Rabs_triang t x). lra.
      + exists t'. split; [rewrite Nat.add_assoc; exact E'|]. rewrite S_INR. lra. }
  assert (SC : forall ls, length ls = length s -> chain ls ->
    exists t, label_score H s ls = (- m * INR (missing H st s ls) + t)%R /\ (Rabs t <= 2 * INR (length s) * B)%R).
  { intros ls L C. destruct s as [|c s]; [congruence|]. destruct ls as [|y ls]; [discriminate|].
    cbn [label_score]. cbn [length] in L. injection L as L. unfold missing. cbn [lacking f_add numR].
    assert (EE : exists e : R, entry numR (h_emit H y c) = (- m * INR (lacks H y c) + e)%R /\ (Rabs e <= B)%R).
    { unfold lacks. destruct (h_emit H y c) as [e|] eqn:EM; cbn [entry].
      - exists e. split; [simpl INR; lra|]. apply (@se_emit H st B ST y c e EM).
      - exists 0%R. rewrite MV. split; [simpl INR; lra|]. rewrite Rabs_R0. auto. }
    destruct EE as (e & EE & BE).
    assert (SS : exists z : R, h_start H y = (- m * INR (if st y then 1 else 0) + z)%R /\ (Rabs z <= B)%R).
    { pose proof (@se_start H st B ST y) as X. destruct (st y).
      - exists 0%R. rewrite X, MV. split; [simpl INR; lra|]. rewrite Rabs_R0. auto.
      - exists (h_start H y). split; [simpl INR; lra|]. exact X. }
    destruct SS as (z & SS & BZ).
    edestruct (SF s ls y (h_start H y + entry numR (h_emit H y c))%R ((if st y then 1 else 0) + lacks H y c) (z + e)%R 2%R L C)
      as (t & E & BT).
    - rewrite EE, SS, plus_INR. lra.
    - eapply Rle_trans; [apply Rabs_triang|]. lra.
    - exists t. split; [rewrite Nat.add_assoc; exact E|]. cbn [length]. rewrite S_INR. lra. }
  destruct (SC labels L1 C1) as (t1 & S1 & T1). destruct (SC other L2 C2) as (t2 & S2 & T2).
  rewrite S1, S2 in BEST. apply Nat.nlt_ge. intros LT.
  apply le_INR in LT. rewrite S_INR in LT. apply Rabs_le_inv in T1. apply Rabs_le_inv in T2.
  assert (m * (INR (missing H st s other) + 1) <= m * INR (missing H st s labels))%R by (apply Rmult_le_compat_l; lra).
  lra.
Qed.

(** ** The shipped tables on 丄, 揶 and 揄

    The entries of prob_emit.py for 揶 (B and E only) and 揄 (E and S only); 丄 has
    none.  The numbers are those of the files, as in PropsUnknown. *)
Definition c_ye : char := 0x63f6%N.
Definition c_yu : char := 0x63c4%N.
Definition ship_emit2 (y : label) (c : char) : option (Z * Z) :=
  if (c =? c_ye)%N then
    match y with LB => Some (-3736309789678949, -48) | LE => Some (-2146956065995973, -47) | _ => None end%Z
  else if (c =? c_yu)%N then
    match y with LE => Some (-3736309789678949, -48) | LS => Some (-8064138897447807, -49) | _ => None end%Z
  else None.
Definition ship2 (lg : Z -> b64) : hmm (numB lg) :=
  mkHmm (numB lg)
    (fun y => match ship_start y with Some (m, e) => dy m e | None => b64_min_float end)
    (fun a y => match ship_trans a y with Some (m, e) => Some (dy m e : F (numB lg)) | None => None end)
    (fun y c => match ship_emit2 y c with Some (m, e) => Some (dy m e : F (numB lg)) | None => None end).
Definition shipQ2 : hmm numQ :=
  mkHmm numQ
    (fun y => match ship_start y with Some me => fracQ me | None => f_min_float numQ end)
    (fun a y => match ship_trans a y with Some me => Some (fracQ me) | None => None end)
    (fun y c => match ship_emit2 y c with Some me => Some (fracQ me) | None => None end).

Lemma ship2_sound lg : sound_tables (ship2 lg).
Proof.
  constructor.
  - intros y. cbn [h_start ship2]. destruct y; cbn [ship_start]; auto; left; apply dy_small; lia.
  - intros a y FO. cbn [h_trans ship2].
    destruct a, y; try destruct FO; cbn [ship_trans]; eexists; (split; [reflexivity|]); apply dy_small; lia.
  - intros y c x. cbn [h_emit ship2].
    assert (B : match ship_emit2 y c with Some (m, e) => small (dy m e) | None => True end).
    { unfold ship_emit2. destruct (c =? c_ye)%N; [|destruct (c =? c_yu)%N; auto];
        destruct y; auto; apply dy_small; lia. }
    destruct (ship_emit2 y c) as [[m e]|]; [|discriminate]. intros E.
    assert (x = dy m e) as -> by congruence. exact B.
Qed.

(** 揶揄 is a word; behind 丄 it is torn apart: S B E and B E S lack one entry each,
    and B E S is greater at the end.  In exact arithmetic it stays a word. *)
Example C98_nonvacuous (lg : Z -> b64) :
  sound_tables (ship2 lg) /\ unknown (ship2 lg) c_shang /\
  fs_cut_han (ship2 lg) [c_ye; c_yu] = gof [[c_ye; c_yu]] /\
  fs_cut_han (ship2 lg) [c_shang; c_ye; c_yu] = gof [[c_shang; c_ye]; [c_yu]] /\
  missing (ship2 lg) (no_start (ship2 lg)) [c_shang; c_ye; c_yu] [LS; LB; LE] = 1 /\
  missing (ship2 lg) (no_start (ship2 lg)) [c_shang; c_ye; c_yu] [LB; LE; LS] = 1 /\
  not_above [LS; LB; LE] [LB; LE; LS] /\
  fs_cut_han shipQ2 [c_shang; c_ye; c_yu] = gof [[c_shang]; [c_ye; c_yu]].
Proof.
  split; [apply ship2_sound|]. split; [intros y; reflexivity|].
  split; [vm_compute; reflexivity|]. split; [vm_compute; reflexivity|].
  split; [vm_compute; reflexivity|]. split; [vm_compute; reflexivity|].
  split; [|vm_compute; reflexivity].
  right. exists [LS; LB], LE, [LB; LE], LS, []. repeat split.
Qed.

(** the same tables with other numbers: every entry -1 *)
Definition flat (lg : Z -> b64) : hmm (numB lg) :=
  mkHmm (numB lg) (fun y => match ship_start y with Some _ => dy (-1) 0 | None => b64_min_float end)
    (fun a y => match ship_trans a y with Some _ => Some (dy (-1) 0 : F (numB lg)) | None => None end)
    (fun y c => match ship_emit2 y c with Some _ => Some (dy (-1) 0 : F (numB lg)) | None => None end).
Example C98_only_entries_matter_nonvacuous (lg1 lg2 : Z -> b64) :
  sound_tables (flat lg2) /\ same_entries (ship2 lg1) (flat lg2) /\
  fs_cut_han (flat lg2) [c_shang; c_ye; c_yu] = gof [[c_shang; c_ye]; [c_yu]].
Proof.
  split; [|split].
  - assert (S1 : small (dy (-1) 0)) by (apply dy_small; lia).
    constructor.
    + intros y. cbn [h_start flat]. destruct (ship_start y); auto.
    + intros a y FO. cbn [h_trans flat]. exists (dy (-1) 0). split; auto. destruct a, y; try destruct FO; reflexivity.
    + intros y c x. cbn [h_emit flat]. destruct (ship_emit2 y c); [|discriminate]. intros E.
      assert (x = dy (-1) 0) as -> by congruence. exact S1.
  - split.
    + intros []; vm_compute; reflexivity.
    + intros y c. cbn [h_emit ship2 flat]. destruct (ship_emit2 y c) as [[m e]|]; split; congruence.
  - vm_compute. reflexivity.
Qed.

(** ** Where the numbers do matter

    In exact arithmetic they matter behind an unknown character too: with the shipped
    numbers 丄揶揄 is 丄 and 揶揄, with a more probable E for 揶 it is 丄揶 and 揄. *)
Theorem C98_exact_refuted :
  ~ (forall (H1 H2 : hmm numQ) (c : char) (v : str),
       (forall y, h_start H1 y = h_start H2 y) -> (forall a y, h_trans H1 a y = h_trans H2 a y) ->
       (forall y x, h_emit H1 y x = None <-> h_emit H2 y x = None) -> unknown H1 c ->
       fs_cut_han H1 (c :: v) = fs_cut_han H2 (c :: v)).
Proof.
  intros C.
  specialize (C shipQ2 (mkHmm numQ (h_start shipQ2) (h_trans shipQ2)
    (fun y x => match h_emit shipQ2 y x with
                | Some e => Some (match y with LE => if (x =? c_ye)%N then QArith_base.Qmake (-1) 1 else e | _ => e end : F numQ)
                | None => None end)) c_shang [c_ye; c_yu]).
  assert (E : fs_cut_han shipQ2 [c_shang; c_ye; c_yu] = gof [[c_shang; c_ye]; [c_yu]]).
  { rewrite C.
    - vm_compute. reflexivity.
    - reflexivity.
    - reflexivity.
    - intros y x. cbn [h_emit]. destruct (h_emit shipQ2 y x); split; congruence.
    - intros y. reflexivity. }
  vm_compute in E. discriminate.
Qed.

(** Without an unknown character they matter in binary64: 杭研 with the shipped numbers
    and with ones that favour S. *)
Theorem C98_known_characters_refuted :
  ~ (forall (lg : Z -> b64) (H1 H2 : hmm (numB lg)) (s : str),
       sound_tables H1 -> sound_tables H2 -> same_entries H1 H2 -> fs_cut_han H1 s = fs_cut_han H2 s).
Proof.
  intros C. set (lg := fun _ : Z => b64_min_float).
  set (H2 := mkHmm (numB lg) (h_start (ship lg)) (h_trans (ship lg))
               (fun y x => match ship_emit y x with Some _ => Some (dy (match y with LS => -1 | _ => -32 end) 0 : F (numB lg)) | None => None end)).
  pose proof (ship_plain lg) as PT.
  assert (SS : forall y, small (h_start (ship lg) y) \/ h_start (ship lg) y = b64_min_float).
  { intros y. cbn [h_start ship]. destruct y; cbn [ship_start]; auto; left; apply dy_small; lia. }
  assert (E : fs_cut_han (ship lg) [c_hang; c_yan] = fs_cut_han H2 [c_hang; c_yan]).
  { apply C.
    - constructor; [exact SS|apply (@pt_trans lg (ship lg) PT)|apply (@pt_emit lg (ship lg) PT)].
    - constructor; [exact SS|apply (@pt_trans lg (ship lg) PT)|].
      intros y c x. cbn [h_emit H2]. destruct (ship_emit y c); [|discriminate]. intros E.
      assert (x = dy (match y with LS => -1 | _ => -32 end) 0) as -> by congruence. destruct y; apply dy_small; lia.
    - split; [reflexivity|]. intros y c. cbn [h_emit H2 ship]. destruct (ship_emit y c) as [[m e]|]; split; congruence. }
  vm_compute in E. discriminate.
Qed.

Print Assumptions C98_fewest_missing.
Print Assumptions C98_only_entries_matter.
Print Assumptions C98_fewest_missing_exact.
Print Assumptions C98_exact_refuted.
Print Assumptions C98_known_characters_refuted.
