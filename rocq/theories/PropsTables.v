(** * The HMM stage with the tables that finalseg ships *)
From Coq Require Import Reals Lra.
From Flocq Require Import Core BinarySingleNaN.
From Verif Require Import PyBase PyRegex PyNum ModelFinalseg ModelSeg SpecBase SpecSeg SpecHmm SpecNum SpecMode
  SpecUnknown SpecMissing SpecTables InstB64 InstB64Ext DataFinalseg ModelTables
  ProofsBase ProofsFinalseg ProofsNoHmm ProofsSuggest ProofsVit ProofsMode ProofsUnknown ProofsMissing ProofsTables Demo ProofsDemo
  PropsHmm PropsUnknown PropsMissing.

(** ** C14, C97 and C98 for the shipped tables *)

Theorem C14_shipped :
  forall (lg : Z -> b64) (s : str), log_ok lg -> s <> [] ->
    exists labels ws,
      fs_cut_han (shipped lg) s = gof ws /\ concat ws = s /\ spelled_by labels ws /\
      length labels = length s /\ chain labels /\ final labels /\
      forall other, length other = length s -> chain other -> final other ->
        (bval (label_score (shipped lg) s other) <= bval (label_score (shipped lg) s labels))%R.
Proof.
  intros lg s LO NE. apply (C14_best_labels_binary64 lg LO (shipped lg) s); auto.
  pose proof (shipped_sound lg) as [SS ST SE]. split; [|split].
  - intros y. destruct (SS y) as [S|E]; [exact (proj1 S)|]. rewrite E. vm_compute. reflexivity.
  - intros a y x E. assert (F : follows a y) by (destruct a, y; exact I || discriminate E).
    destruct (ST a y F) as (x' & E' & S). assert (x = x') as -> by congruence. exact (proj1 S).
  - intros y c x E. exact (proj1 (SE y c x E)).
Qed.

(** a character without an entry takes the rest of the group apart; the 113 characters
    with an entry for another label but not for S are left out *)
Theorem C97_shipped :
  forall (lg : Z -> b64) (force : list str) (u : str) (c : char),
    Forall (fun x => han_char x = true) (u ++ [c]) -> Forall (fun x => ~ In x half_known) u ->
    unknown (shipped lg) c ->
    exists ws, concat ws = u /\ Forall (fun w => w <> []) ws /\
      (forall u' x, u = u' ++ [x] -> exists ws', ws = ws' ++ [[x]]) /\
      forall v, Forall (fun x => han_char x = true) v -> Forall (fun x => ~ In x half_known) v ->
        (Z.of_nat (length (u ++ c :: v)) <= 2 ^ 49)%Z ->
        fs_cut (numB lg) (shipped lg) force (u ++ c :: v) = gof (ws ++ map (fun x => [x]) (c :: v)).
Proof.
  intros lg force u c HU FU UN.
  assert (KU : forall l, Forall (fun x => ~ In x half_known) l ->
                 Forall (fun x => known (shipped lg) x \/ unknown (shipped lg) x) l).
  { intros l F. eapply Forall_impl; [|exact F]. apply shipped_known. }
  destruct (C97_rest_in_single_characters lg (shipped lg) force u c (shipped_plain lg) HU (KU u FU) UN)
    as (ws & C & NE & LA & ALL).
  exists ws. repeat (split; [assumption|]). intros v HV FV L. apply ALL; auto.
Qed.

Theorem C98_shipped :
  forall (lg : Z -> b64) (s : str), s <> [] -> (Z.of_nat (length s) <= 2 ^ 49)%Z ->
    exists labels ws,
      fs_cut_han (shipped lg) s = gof ws /\ concat ws = s /\ spelled_by labels ws /\ labelling s labels /\
      (forall other, labelling s other ->
         missing (shipped lg) (no_start (shipped lg)) s labels <= missing (shipped lg) (no_start (shipped lg)) s other) /\
      (forall u c v, s = u ++ c :: v -> unknown (shipped lg) c ->
         forall other, labelling s other ->
           missing (shipped lg) (no_start (shipped lg)) s other = missing (shipped lg) (no_start (shipped lg)) s labels ->
           not_above (skipn (length u - 1) other) (skipn (length u - 1) labels)).
Proof. intros lg s. apply C98_fewest_missing, shipped_sound. Qed.

(** ** C99

    A character of which the tables know only that it stands inside of words: written
    three times or more it comes out of the HMM stage as one word, however often. *)
Theorem C99_no_longest_word :
  forall (lg : Z -> b64) (force : list str) (c : char) (n : nat),
    In c middle_only -> 3 <= n -> (Z.of_nat n <= 2 ^ 49)%Z -> ~ In (repeat c n) force ->
    fs_cut (numB lg) (shipped lg) force (repeat c n) = gof [repeat c n].
Proof.
  intros lg force c n IN N3 NL NF.
  assert (EM : forall y, lacks (shipped lg) y c = match y with LM => 0 | _ => 1 end).
  { intros y. unfold lacks. cbn [h_emit shipped].
    pose proof (middle_only_row c IN) as X.
    destruct (emit_entry LB c) eqn:E1; [destruct X|]. destruct (emit_entry LM c) eqn:E2; [|destruct X].
    destruct (emit_entry LE c) eqn:E3; [destruct X|]. destruct (emit_entry LS c) eqn:E4; [destruct X|].
    destruct y; rewrite ?E1, ?E2, ?E3, ?E4; reflexivity. }
  assert (HC : han_char c = true).
  { assert (X : Forall (fun c => han_char c = true) middle_only) by (unfold middle_only; repeat constructor).
    rewrite Forall_forall in X. auto. }
  assert (NS : forall y, no_start (shipped lg) y = match y with LM | LE => true | _ => false end)
    by (intros []; vm_compute; reflexivity).
  destruct n as [|n]; [lia|]. cbn [repeat].
  set (obs := repeat c n). assert (LO : length obs = n) by apply repeat_length.
  assert (LBD : blim (2 * length (c :: obs))) by (unfold blim; cbn [length]; lia).
  destruct (viterbi_missing lg (shipped lg) (shipped_sound lg) c obs LBD) as ((PL & PC & PF) & FEW & _).
  set (l := snd (viterbi (shipped lg) c obs)) in *.
  (* how many labels are not M *)
  set (others := fix others (ls : list label) : nat :=
         match ls with [] => 0 | LM :: ls' => others ls' | _ :: ls' => S (others ls') end).
  assert (LK : forall ls k, length ls = k -> lacking (shipped lg) (repeat c k) ls = others ls).
  { induction ls as [|y ls IH]; intros k E; cbn in E; subst k; cbn [repeat lacking others]; auto.
    rewrite EM, (IH (length ls)) by auto. destruct y; reflexivity. }
  assert (OA : forall a b, others (a ++ b) = others a + others b).
  { induction a as [|y a IH]; intros b; cbn [app others]; auto. destruct y; rewrite IH; auto. }
  assert (O0 : forall ls, others ls = 0 -> ls = repeat LM (length ls)).
  { induction ls as [|y ls IH]; auto. destruct y; cbn [others]; intros E; try discriminate. cbn [length repeat]. f_equal. auto. }
  assert (M2 : missing (shipped lg) (no_start (shipped lg)) (c :: obs) l <= 2).
  { assert (V : labelling (c :: obs) (repeat LM n ++ [LE])).
    { split; [rewrite app_length, repeat_length; cbn [length]; lia|]. split; [|exists (repeat LM n), LE; auto].
      clear. induction n as [|n IH]; [exact (conj I I)|]. cbn [repeat app chain]. split; [|exact IH].
      destruct n; exact I. }
    specialize (FEW _ V). eapply Nat.le_trans; [exact FEW|]. unfold missing.
    change (c :: obs) with (repeat c (S n)). rewrite LK by (rewrite app_length, repeat_length; cbn [length]; lia).
    rewrite OA. assert (E0 : others (repeat LM n) = 0) by (clear; induction n as [|n IH]; auto). rewrite E0. cbn [others].
    destruct n; [lia|]. cbn [repeat app]. rewrite NS. lia. }
  unfold missing in M2. change (c :: obs) with (repeat c (S n)) in M2. rewrite LK in M2 by (rewrite PL; cbn [length]; lia).
  destruct PF as (p & e & El & He).
  assert (SH : l = repeat LM n ++ [LE] \/ l = LB :: repeat LM (n - 1) ++ [LE]).
  { rewrite El in *. rewrite app_length in PL. cbn [length] in PL. assert (LP : length p = n) by lia.
    rewrite OA in M2. assert (OE : others [e] = 1) by (destruct He as [-> | ->]; reflexivity). rewrite OE in M2.
    destruct p as [|f p]; [cbn in LP; lia|]. cbn [length] in LP. cbn [app] in M2, PC |- *. rewrite NS in M2.
    assert (TAIL : forall a q, q <> [] -> q = repeat LM (length q) -> chain (a :: q ++ [e]) -> follows a LM /\ e = LE).
    { intros a q NQ EQ CH. split.
      - destruct q as [|x q]; [congruence|]. cbn in EQ. injection EQ as EQ _. subst x. cbn in CH. tauto.
      - destruct (exists_last NQ) as (q' & z & ->). rewrite EQ in CH. clear EQ NQ. rewrite app_length in CH. cbn [length] in CH.
        rewrite Nat.add_1_r in CH. rewrite <- repeat_snoc in CH. rewrite <- app_assoc, app_comm_cons in CH. cbn [app] in CH.
        apply (chain_two (a :: repeat LM (length q'))) in CH. destruct He as [-> | ->]; [reflexivity|destruct CH]. }
    assert (NP : p <> []) by (intros ->; cbn in LP; lia).
    destruct f; cbn [others] in M2.
    - assert (EP : p = repeat LM (length p)) by (apply O0; lia).
      destruct (TAIL LB p NP EP PC) as [_ ->]. right. rewrite EP. repeat f_equal. lia.
    - assert (EP : p = repeat LM (length p)) by (apply O0; lia).
      destruct (TAIL LM p NP EP PC) as [_ ->]. left. rewrite EP. replace n with (S (length p)) by lia. reflexivity.
    - lia.
    - assert (EP : p = repeat LM (length p)) by (apply O0; lia).
      destruct (TAIL LS p NP EP PC) as [F _]. destruct F. }
  assert (ONE : decode [] (c :: obs) l = [c :: obs]).
  { clear -SH N3. assert (DM : forall k cur, decode cur (repeat c (S k)) (repeat LM k ++ [LE]) = [cur ++ repeat c (S k)]).
    { induction k as [|k IH]; intros cur; [reflexivity|]. change (repeat c (S (S k))) with (c :: repeat c (S k)).
      cbn [app decode]. change (repeat LM (S k) ++ [LE]) with (LM :: repeat LM k ++ [LE]). cbn [decode].
      rewrite IH, <- app_assoc. reflexivity. }
    destruct SH as [-> | ->].
    - change (c :: obs) with (repeat c (S n)). rewrite DM. reflexivity.
    - cbn [decode]. unfold obs. replace n with (S (n - 1)) at 1 by lia. rewrite DM. cbn [app].
      replace (S (n - 1)) with n by lia. reflexivity. }
  destruct (@stage_ok (numB lg) (shipped lg) force (c :: obs)) as (out & E & ST).
  assert (HA : Forall (fun x => han_char x = true) (c :: obs)).
  { constructor; auto. apply Forall_forall. intros x I. apply repeat_spec in I. rewrite I. exact HC. }
  rewrite (@runs_whole han_char _ true) in ST by (auto; discriminate).
  rewrite E. f_equal. inversion ST as [|r ws0 rs out0 FO ST'|]. inversion ST'. rewrite app_nil_r.
  rewrite fs_cut_han_eq in FO. fold l in FO. rewrite ONE in FO. injection FO as <-. cbn [flat_map].
  unfold forced. destruct (in_dec (list_eq_dec N.eq_dec) (c :: obs) force) as [I|]; [contradiction|reflexivity].
Qed.

(** the same for the accurate mode, if no dictionary word is made of this character alone *)
Theorem C99_no_longest_word_cut :
  forall (lg : Z -> b64) (fr : freqs) (total : Z) (force : list str) (c : char) (n : nat),
    In c middle_only -> 3 <= n -> (Z.of_nat n <= 2 ^ 49)%Z -> ~ In (repeat c n) force ->
    sane (sget fr) total -> prefix_closed (sget fr) ->
    (forall k, is_word (sget fr) (repeat c k) -> k = 1) ->
    cut (numB lg) (shipped lg) (mode_of false true) fr total force (repeat c n) = gof [repeat c n].
Proof.
  intros lg fr total force c n IN N3 NL NF SA PC NW. change (mode_of false true) with WithHMM.
  rewrite cut_one_group; auto.
  - apply C99_no_longest_word; auto.
  - rewrite repeat_length. lia.
  - destruct n; [lia|discriminate].
  - apply Forall_forall. intros x I. apply repeat_spec in I. subst.
    assert (X : Forall (fun c => han_char c = true) middle_only) by (unfold middle_only; repeat constructor).
    rewrite Forall_forall in X. auto.
  - intros a w b E W.
    assert (EW : w = repeat c (length w)).
    { clear -E. assert (F : Forall (fun x => x = c) w).
      { assert (FA : Forall (fun x => x = c) (repeat c n)) by (apply Forall_forall; intros x I; apply repeat_spec in I; auto).
        rewrite E in FA. apply Forall_app in FA. destruct FA as [_ FA]. apply Forall_app in FA. tauto. }
      clear E. induction F as [|x w -> _ IH]; cbn; congruence. }
    apply NW. rewrite <- EW. exact W.
Qed.

(** ** Concrete cases *)

(** the list of exceptions in [C97_shipped] is exact *)
Theorem C97_half_known :
  forall (lg : Z -> b64) (c : char),
    In c half_known <-> h_emit (shipped lg) LS c = None /\ exists y, h_emit (shipped lg) y c <> None.
Proof.
  intros lg c. split.
  - intros IN. pose proof (half_known_row c IN) as X. cbn [h_emit shipped].
    destruct (emit_entry LS c); [destruct X|]. split; auto.
    destruct (emit_entry LB c) eqn:E1; [exists LB; rewrite E1; discriminate|].
    destruct (emit_entry LM c) eqn:E2; [exists LM; rewrite E2; discriminate|].
    destruct (emit_entry LE c) eqn:E3; [exists LE; rewrite E3; discriminate|destruct X].
  - intros [NS (y & E)]. destruct (in_dec N.eq_dec c half_known) as [I|NI]; auto. exfalso.
    destruct (shipped_known lg c NI) as [K|U]; [exact (K NS)|exact (E (U y))].
Qed.

(** they have to be left out: 丄 has no entry, 揶 has none for S; 丄揶揄 is cut into 丄揶 and 揄 *)
Theorem C97_half_known_refuted :
  exists (u : str) (c : char), Forall (fun x => han_char x = true) (c :: u) /\
    forall lg : Z -> b64, unknown (shipped lg) c /\
      fs_cut (numB lg) (shipped lg) [] (c :: u) <> gof (map (fun x => [x]) (c :: u)).
Proof.
  exists [0x63f6; 0x63c4]%N, 0x4e04%N. split; [repeat constructor|]. intros lg. split.
  - intros y. destruct y; vm_compute; reflexivity.
  - vm_compute. discriminate.
Qed.

(** 你丄你: known, unknown, known *)
Example C97_shipped_case (lg : Z -> b64) :
  Forall (fun x => han_char x = true) [0x4f60; 0x4e04]%N /\ Forall (fun x => ~ In x half_known) [0x4f60]%N /\
  unknown (shipped lg) 0x4e04%N /\ known (shipped lg) 0x4f60%N.
Proof.
  split; [repeat constructor|]. split.
  - constructor; [|constructor]. intros I. apply (in_map (fun x => N.eqb x 0x4f60)) in I. revert I. vm_compute. intuition discriminate.
  - split; [intros y; destruct y; vm_compute; reflexivity|].
    unfold known. cbn [h_emit shipped].
    assert (X : emit_entry LS 0x4f60%N <> None) by (vm_compute; discriminate).
    destruct (emit_entry LS 0x4f60%N); [discriminate|congruence].
Qed.

(** 嬿嬿嬿嬿嬿 with the small dictionary of [Demo] *)
Example C99_case (lg : Z -> b64) :
  In 0x5b3f%N middle_only /\
  cut (numB lg) (shipped lg) (mode_of false true) demo_fr demo_total [] (repeat 0x5b3f%N 5) = gof [repeat 0x5b3f%N 5].
Proof.
  split; [left; reflexivity|]. apply C99_no_longest_word_cut.
  - left; reflexivity.
  - lia.
  - cbn. lia.
  - intros [].
  - apply demo_sane.
  - apply demo_prefix_closed.
  - intros k (f & G & _). exfalso. apply sget_In in G. revert G. vm_compute. destruct k as [|[|k]]; intuition discriminate.
Qed.

(** twice is not enough: both labels tie and S wins *)
Example C99_two_refuted (lg : Z -> b64) :
  fs_cut (numB lg) (shipped lg) [] (repeat 0x5b3f%N 2) = gof [[0x5b3f]; [0x5b3f]]%N.
Proof. vm_compute. reflexivity. Qed.

Print Assumptions C14_shipped.
Print Assumptions C97_shipped.
Print Assumptions C97_half_known.
Print Assumptions C97_half_known_refuted.
Print Assumptions C98_shipped.
Print Assumptions C99_no_longest_word.
Print Assumptions C99_no_longest_word_cut.
