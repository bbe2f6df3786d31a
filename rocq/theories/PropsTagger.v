(** * C119, C120: the tagger with the tables it ships *)
From Coq Require Import Reals Lra Lia.
From Flocq Require Import Core BinarySingleNaN.
From Verif Require Import PyBase PyRegex PyNum ModelFinalseg ModelSeg ModelDict ModelPosseg
  SpecBase SpecSeg SpecNum SpecDict SpecHealth SpecPosseg SpecTagging SpecUnknown SpecPosMissing SpecHmmErr SpecPosErr SpecPosTables
  InstB64 InstB64Ext InstSign B64Lit DataPosseg DataPossegOk ModelPosTables ModelPosEmit
  ProofsBase ProofsPosseg ProofsPvit ProofsAbsorb ProofsUnknown ProofsPosMissing ProofsPosTables ProofsB64Lit ProofsHmmErr ProofsPosErr ProofsPosEmit
  PropsPosseg PropsPosTables PropsPosErr.

Lemma tagger_is lg : tagger lg = tagger_tables lg emissions.
Proof. unfold tagger. reflexivity. Qed.

Lemma emissions_number y c x : emissions y c = Some x -> exists me, x = b64_of me /\ entry_small (Some me) = true.
Proof.
  unfold emissions. destruct (pos_emit_num y c) as [[m e]|] eqn:E; [|discriminate]. cbn [option_map]. intros K. injection K as <-.
  exists (m, e). split; auto. apply emit_num_ok in E. unfold emit_number_ok in E.
  apply andb_true_iff in E. destruct E as [E _]. apply andb_true_iff in E. apply E.
Qed.
Lemma emissions_32 y c x : emissions y c = Some x -> within32 x.
Proof. intros E. apply emissions_number in E. destruct E as (me & -> & E). apply entry_32. exact E. Qed.
Lemma emissions_small y c x : emissions y c = Some x -> small x.
Proof. intros E. apply within32_small, (emissions_32 _ _ _ E). Qed.

(** ** C119

    Every emission number is a log probability, and none is below -16. *)
Theorem C119_emission_numbers :
  forall (y : pstate) (c : char) (m e : Z), pos_emit_num y c = Some (m, e) -> (-16 <= IZR m * bpow radix2 e <= 0)%R.
Proof.
  intros y c m e E. apply emit_num_ok in E. unfold emit_number_ok in E.
  apply andb_true_iff in E. destruct E as [E E3]. apply andb_true_iff in E. destruct E as [E1 E2].
  apply Z.leb_le in E2, E3. cbn [entry_small] in E1.
  apply andb_true_iff in E1. destruct E1 as [E1 _]. apply andb_true_iff in E1. destruct E1 as [_ E1]. apply Z.leb_le in E1.
  rewrite Z.shiftl_mul_pow2 in E3 by lia. pose proof (bpow_gt_0 radix2 e) as P.
  assert (Q : (IZR (2 ^ (- e)) * bpow radix2 e = 1)%R).
  { change 2%Z with (radix_val radix2). rewrite IZR_Zpower by lia. rewrite <- bpow_plus. replace (- e + e)%Z with 0%Z by lia. reflexivity. }
  apply IZR_le in E2. apply IZR_le in E3. rewrite opp_IZR, mult_IZR in E3. split; [|nra].
  assert (X : (- IZR m * bpow radix2 e <= 16 * IZR (2 ^ (- e)) * bpow radix2 e)%R) by (apply Rmult_le_compat_r; lra).
  rewrite Rmult_assoc, Q in X. lra.
Qed.

(** The tables of jieba/posseg meet every condition on tables in this development. *)
Theorem C119_tables :
  forall lg : Z -> b64,
    tables_ok (infB lg) (tagger lg) /\ bmes (tagger lg) /\ one_tag (tagger lg) /\
    sound_ptables (tagger lg) /\ moderate_ptables (tagger lg).
Proof.
  intros lg. rewrite tagger_is. pose proof (C106_shipped_tables lg emissions emissions_32) as M.
  pose proof (C100_shipped lg emissions emissions_small) as SP.
  split; [apply SP|]. split; [apply shipped_bmes|]. split; [intros x y; apply shipped_same_tag|]. auto.
Qed.

(** posseg.cut in binary64: no exception, the words make up the text, none is empty, and
    neither words nor tags depend on the order in which Python visits sets. *)
Theorem C119_words :
  forall (lg : Z -> b64) (ord : orders) (HMM : bool) (tab : sdict str) (fr : freqs) (total : Z) (s : str),
    fair_order ord -> sane (sget fr) total -> (Z.of_nat (length s) <= 2 ^ 49)%Z ->
    exists ws, ps_cut (tagger lg) ord HMM tab fr total s = gof ws /\
      concat (map fst ws) = s /\ Forall (fun wt => fst wt <> []) ws /\
      forall ord', fair_order ord' -> ps_cut (tagger lg) ord' HMM tab fr total s = gof ws.
Proof.
  intros lg ord HMM tab fr total s FO SA L. destruct (C119_tables lg) as (A & B & C & _).
  assert (LIM : i_lim (infB lg) (2 * length s)) by (cbn [i_lim infB]; unfold blim; lia).
  destruct (C33_tagging_lossless _ (infB lg) (tagger lg) ord HMM tab fr total s A B C FO SA LIM) as (ws & E & R1 & R2).
  exists ws. split; auto. split; auto. split; auto. intros ord' FO'.
  rewrite (C59_independent_of_set_order _ (infB lg) (tagger lg) ord' ord HMM tab fr total s A FO' FO LIM). exact E.
Qed.

(** ... and so after any calls that change the dictionary. *)
Theorem C119_after_any_history :
  forall (lg : Z -> b64) (H : hmm (numB lg)) (ord : orders) (w : pworld) (os : list pop) (i : nat) (HMM : bool) (s : str),
    fair_order ord -> healthy (d_freq (pw_d w)) (d_total (pw_d w)) -> Forall pop_nonneg os ->
    i < length (pw_tabs w) -> (Z.of_nat (length s) <= 2 ^ 49)%Z ->
    exists ws,
      snd (do_pop (numB lg) H (tagger lg) ord (do_pops (numB lg) H (tagger lg) ord w os) (PCut i HMM s)) = PWords (gof ws) /\
      concat (map fst ws) = s /\ Forall (fun wt => fst wt <> []) ws.
Proof.
  intros lg H ord w os i HMM s FO HE FA LI L. unfold tagger, tagger_tables.
  apply (C33_after_any_history (numB lg) (infB lg) (signB lg)); auto; [|cbn [i_lim infB]; unfold blim; lia].
  split; [|split]; cbn [v_start v_trans v_emit].
  - intros y. pose proof (pos_start_small y) as SM. destruct (pos_start_num y); [apply small_bfin; exact SM|apply bfin_min].
  - intros x y. apply small_bfin, pos_trans_small.
  - intros y c x E. apply small_bfin, (emissions_small y c x E).
Qed.

(** The states found for a group of characters have the greatest score of all taggings
    that are compared, as computed in binary64. *)
Theorem C119_best_tagging :
  forall (lg : Z -> b64) (ord : orders) (obs : str),
    fair_order ord -> obs <> [] -> (Z.of_nat (length obs) <= 2 ^ 49)%Z ->
    exists p route, pviterbi (tagger lg) ord obs = Ok (p, route) /\
      considered (tagger lg) obs route /\ tag_score (tagger lg) obs route = p /\
      forall ys, considered (tagger lg) obs ys ->
        f_lt (numB lg) (tag_score (tagger lg) obs route) (tag_score (tagger lg) obs ys) = false.
Proof.
  intros lg ord obs FO NE L. destruct (C119_tables lg) as (A & _).
  apply (C60_viterbi_optimal _ (infB lg)); auto. cbn [i_lim infB]. unfold blim. lia.
Qed.

(** ** C120: the two tables about characters

    Every state that char_state_tab.py gives for a character has a number for it in
    prob_emit.py, with one exception: 跛 as an adjective of one character. *)
Theorem C120_listed_states_have_numbers :
  forall (c : char) (states : list N) (i : N),
    dget N.eqb pos_chars c = Some states -> In i states ->
    (exists me, pos_emit_num (pos_state i) c = Some me) \/ (c = 0x8ddb%N /\ pos_state i = (l_S, [97]%N)).
Proof.
  intros c ys i E I. apply dget_In in E; [|intros; apply N.eqb_eq]. destruct (row_agrees_all c ys E) as (A & _).
  destruct (A i I) as [K|[-> ->]]; [left; apply with_number_iff in K; apply K|right; split; reflexivity].
Qed.

(** For all but thirteen characters the two tables name the same states. *)
Theorem C120_tables_agree :
  forall (c : char) (states : list N),
    dget N.eqb pos_chars c = Some states ->
    ~ In c [0x4e48; 0x5412; 0x54e9; 0x5925; 0x5f8c; 0x5fb5; 0x65bc; 0x6c88; 0x6e6e; 0x77fd; 0x8457; 0x8ddb; 0x8e60]%N ->
    forall i, (i < 256)%N -> (In i states <-> exists me, pos_emit_num (pos_state i) c = Some me).
Proof.
  intros c ys E NO i L. apply dget_In in E; [|intros; apply N.eqb_eq]. destruct (row_agrees_all c ys E) as (A & _ & B).
  destruct B as [B|B]; [contradiction|]. split.
  - intros I. destruct (A i I) as [K|[-> _]]; [apply with_number_iff in K; apply K|]. exfalso. apply NO. vm_compute. tauto.
  - intros N. apply B. apply with_number_iff. auto.
Qed.

(** The exception is one, and prob_emit.py knows characters that char_state_tab.py does
    not have, 並 for example. *)
Lemma bo_states : dget N.eqb pos_chars 0x8ddb%N = Some [25; 52; 192]%N.
Proof. vm_compute. reflexivity. Qed.
Lemma bo_lacks : pos_emit_num (l_S, [97]%N) 0x8ddb%N = None.
Proof. lazy. reflexivity. Qed.
Lemma bo_has : pos_emit_num (l_B, [110]%N) 0x8ddb%N <> None /\ pos_emit_num (l_B, [118]%N) 0x8ddb%N <> None.
Proof. split; lazy; intros E; discriminate E. Qed.
Theorem C120_no_exception_refuted :
  exists c states i, dget N.eqb pos_chars c = Some states /\ In i states /\ pos_emit_num (pos_state i) c = None.
Proof.
  exists 0x8ddb%N, [25; 52; 192]%N, 192%N. split; [exact bo_states|]. split; [cbn; auto|exact bo_lacks].
Qed.
Theorem C120_listed_refuted :
  exists c y me, dget N.eqb pos_chars c = None /\ pos_emit_num y c = Some me.
Proof.
  exists 0x4e26%N, (pos_state 52). destruct (pos_emit_num (pos_state 52) 0x4e26%N) as [me|] eqn:E; [|lazy in E; discriminate E].
  exists me. split; [vm_compute; reflexivity|reflexivity].
Qed.

(** A character without any emission number is one that the tagger does not know at all:
    it is not in char_state_tab.py either.  So C101 holds with this simple condition. *)
Theorem C120_unknown_tags :
  forall (lg : Z -> b64) (ord : orders) (tab : sdict str) (fr : freqs) (total : Z) (s : str),
    fair_order ord -> sane (sget fr) total -> prefix_closed (sget fr) ->
    (forall a w b, s = a ++ w ++ b -> is_word (sget fr) w -> length w = 1) ->
    Forall (fun c => han_char c = true /\ forall y, pos_emit_num y c = None) s ->
    2 <= length s -> (Z.of_nat (length s) <= 2 ^ 49)%Z ->
    ps_cut (tagger lg) ord true tab fr total s =
      gof (combine (map (fun c => [c]) s) (unknown_tags (length s))).
Proof.
  intros lg ord tab fr total s FO SA PC NW F L2 L. rewrite tagger_is.
  apply (C101_unknown_tags lg emissions); auto; try (exact emissions_small).
  - eapply Forall_impl; [|exact F]. intros c K. apply K.
  - eapply Forall_impl; [|exact F]. intros c [_ K]. split.
    + intros I. apply in_map_iff in I. destruct I as [[c' ys] [E I]]. cbn [fst] in E. subst c'.
      destruct (row_agrees_all c ys I) as (_ & N & _). destruct (with_number c) as [|i l] eqn:W; [congruence|].
      assert (J : In i (with_number c)) by (rewrite W; left; reflexivity). apply with_number_iff in J.
      destruct J as [_ [me J]]. rewrite K in J. discriminate J.
    + intros y. unfold emissions. rewrite K. reflexivity.
Qed.

(** ** What the missing number does

    At the end of a group of characters that the HMM tags, 跛 is never taken for a
    one-character adjective, unless right after a character taken for S nt. *)
Notation bo := 0x8ddb%N. Notation s_a := (l_S, [97]%N : str). Notation s_nt := (l_S, [110; 116]%N : str).
Notation b_n := (l_B, [110]%N : str). Notation b_v := (l_B, [118]%N : str).
Definition into_bo (i : N) : bool :=
  let row := map pos_state (pos_row i) in
  negb (p_in s_a row) || p_in b_n row || p_in b_v row || pstate_eqb (pos_state i) s_nt.
Lemma into_bo_checked : forallb into_bo (map N.of_nat (seq 0 256)) = true.
Proof. vm_compute. reflexivity. Qed.
Lemma into_bo_all lg x : step (tagger lg) x s_a -> x <> s_nt -> step (tagger lg) x b_n \/ step (tagger lg) x b_v.
Proof.
  rewrite tagger_is, !tagger_step by (exact emissions_small). intros (i & L & -> & I) NE.
  pose proof into_bo_checked as X. rewrite forallb_forall in X.
  assert (K : In i (map N.of_nat (seq 0 256))).
  { apply in_map_iff. exists (N.to_nat i). split; [apply N2Nat.id|apply in_seq; lia]. }
  specialize (X i K). unfold into_bo in X. cbv zeta in X. apply p_in_In in I. rewrite I in X. cbn [negb orb] in X.
  apply orb_true_iff in X. destruct X as [X|X]; [|apply pstate_eqb_ok in X; congruence].
  apply orb_true_iff in X. destruct X as [X|X]; apply p_in_In in X; [left|right]; exists i; auto.
Qed.

Lemma steps_last {num} (T : ptables num) l x y z : steps T (l ++ [x; y]) -> step T x z -> steps T (l ++ [x; z]).
Proof.
  intros S1 S2. induction l as [|a l IH]; cbn [app steps] in *; [tauto|]. destruct S1 as [A B]. split; [|apply IH; exact B].
  destruct l as [|b l]; exact A.
Qed.
Lemma steps_before {num} (T : ptables num) l x y : steps T (l ++ [x; y]) -> step T x y.
Proof. induction l as [|a l IH]; cbn [app steps]; tauto. Qed.
Lemma lacking_last {num} (T : ptables num) cs : forall ys c y, length ys = length cs ->
  p_lacking T (cs ++ [c]) (ys ++ [y]) = p_lacking T cs ys + p_lacks T y c.
Proof.
  induction cs as [|d cs IH]; intros [|z ys] c y L; try discriminate L; cbn [app p_lacking]; [lia|].
  rewrite IH by (injection L as L; exact L). lia.
Qed.
Lemma kept_cons {num} (T : ptables num) c l x z :
  kept T l x -> step T x z -> char_state T c z -> kept T (c :: l) z.
Proof. destruct l as [|d l]; [intros []|]. intros K S1 C. split; [exists x; auto|left; exact C]. Qed.
Lemma bo_char_state lg z : z = b_n \/ z = b_v -> char_state (tagger lg) bo z.
Proof.
  intros E. unfold char_state. change (t_states (tagger lg) bo) with (option_map (map pos_state) (dget N.eqb pos_chars bo)).
  rewrite bo_states. cbn [option_map map In]. destruct E as [-> | ->]; [left|right; left]; reflexivity.
Qed.
Lemma tagger_lacks lg y c : In y pos_states ->
  p_lacks (tagger lg) y c = match pos_emit_num y c with Some _ => 0 | None => 1 end.
Proof.
  intros I. unfold p_lacks, tagger, tagger_tables, shipped. cbn [t_emit v_emit]. apply p_in_In in I. rewrite I.
  unfold emissions. destruct (pos_emit_num y c); reflexivity.
Qed.

Lemma bo_lacks_one lg : p_lacks (tagger lg) s_a bo = 1.
Proof. rewrite tagger_lacks by (apply p_in_In; vm_compute; reflexivity).
  exact (f_equal (fun o : option (Z * Z) => match o with Some _ => 0 | None => 1 end) bo_lacks).
Qed.
Lemma bo_lacks_none lg z : z = b_n \/ z = b_v -> p_lacks (tagger lg) z bo = 0.
Proof.
  intros [-> | ->]; rewrite tagger_lacks by (apply p_in_In; vm_compute; reflexivity);
    match goal with |- match ?o with _ => _ end = _ => destruct o eqn:E; [reflexivity|exfalso] end;
    [exact (proj1 bo_has E)|exact (proj2 bo_has E)].
Qed.

Theorem C120_adjective_at_the_end :
  forall (lg : Z -> b64) (ord : orders) (s : str),
    fair_order ord -> s <> [] -> (Z.of_nat (length s) < 2 ^ 49)%Z ->
    exists p route x y,
      pviterbi (tagger lg) ord (s ++ [bo]) = Ok (p, route ++ [x; y]) /\ (y = s_a -> x = s_nt).
Proof.
  intros lg ord s FO NE L. destruct (C119_tables lg) as (_ & _ & _ & SP & _).
  assert (NE' : s ++ [bo] <> []) by (destruct s; discriminate).
  assert (L' : (Z.of_nat (length (s ++ [bo])) <= 2 ^ 49)%Z) by (rewrite app_length; cbn [length]; lia).
  destruct (C100_fewest_missing lg (tagger lg) ord (s ++ [bo]) SP FO NE' L') as (p & route & E & (CL & CS & CK) & MI & _).
  rewrite app_length in CL. cbn [length] in CL.
  destruct (@exists_last _ route) as (r1 & y & ->); [intros ->; cbn in CL; lia|]. rewrite app_length in CL. cbn [length] in CL.
  destruct (@exists_last _ r1) as (r & x & ->); [intros ->; cbn in CL; destruct s; [congruence|cbn in CL; lia]|].
  exists p, r, x, y. rewrite <- app_assoc in E. cbn [app] in E. split; [exact E|]. intros ->.
  destruct (list_eq_dec N.eq_dec (snd x) [110; 116]%N) as [E2|N2];
    [destruct (N.eq_dec (fst x) l_S) as [E1|N1]; [destruct x as [a b]; cbn [fst snd] in *; congruence|]|]; exfalso.
  all: assert (NX : x <> s_nt) by (intros ->; cbn [fst snd] in *; congruence).
  all: assert (CS' : steps (tagger lg) (r ++ [x; s_a])) by (rewrite <- app_assoc in CS; exact CS).
  all: destruct (into_bo_all lg x (steps_before _ _ _ _ CS') NX) as [SZ|SZ];
    [set (z := b_n) in *|set (z := b_v) in *]; assert (ZZ : z = b_n \/ z = b_v) by (unfold z; auto).
  all: assert (CO : considered (tagger lg) (s ++ [bo]) ((r ++ [x]) ++ [z])); [
    split; [rewrite !app_length in *; cbn [length] in *; lia|];
    split; [rewrite <- app_assoc; exact (steps_last _ _ _ _ _ CS' SZ)|];
    intros i w EW; destruct (Nat.lt_ge_cases i (length (r ++ [x]))) as [LI|LI];
    [rewrite nth_error_app1 in EW by exact LI; apply CK; rewrite nth_error_app1 by exact LI; exact EW|];
    rewrite nth_error_app2 in EW by exact LI;
    assert (EI : i = length (r ++ [x])) by (destruct (i - length (r ++ [x])) as [|k] eqn:K; [lia|destruct k; discriminate EW]);
    rewrite EI, Nat.sub_diag in EW; cbn [nth_error] in EW; injection EW as <-;
    rewrite firstn_all2 by (rewrite !app_length in *; cbn [length] in *; lia);
    rewrite rev_unit; pose proof (CK (length r) x) as KX;
    rewrite nth_error_app1 in KX by (rewrite app_length; cbn [length]; lia);
    rewrite nth_error_app2, Nat.sub_diag in KX by lia; specialize (KX eq_refl);
    rewrite firstn_app in KX; rewrite app_length in CL; cbn [length] in CL;
    replace (S (length r) - length s) with 0 in KX by lia; rewrite firstn_O, app_nil_r, firstn_all2 in KX by lia;
    exact (kept_cons _ _ _ _ _ KX SZ (bo_char_state lg _ ZZ))|].
  all: specialize (MI _ CO); unfold p_missing in MI; rewrite !lacking_last in MI by (rewrite !app_length in *; cbn [length] in *; lia).
  all: rewrite bo_lacks_one, (bo_lacks_none lg z ZZ) in MI.
  all: destruct r as [|b r]; cbn [app] in MI; lia.
Qed.

(** 他跛 becomes 他/r 跛/n; and 杭研 becomes 杭/j 研/vn *)
Example C119_example : forall lg,
  ps_cut_han (tagger lg) plain_ord [0x676d; 0x7814]%N = gof [([0x676d], [106]); ([0x7814], [118; 110])]%N /\
  fair_order plain_ord.
Proof. intros lg. split; [lazy; reflexivity|apply plain_fair]. Qed.
Example C120_example : forall lg,
  ps_cut_han (tagger lg) plain_ord [0x4ed6; 0x8ddb]%N = gof [([0x4ed6], [114]); ([0x8ddb], [110])]%N.
Proof. intros lg. lazy. reflexivity. Qed.

Print Assumptions C119_emission_numbers.
Print Assumptions C119_tables.
Print Assumptions C119_words.
Print Assumptions C119_after_any_history.
Print Assumptions C119_best_tagging.
Print Assumptions C120_listed_states_have_numbers.
Print Assumptions C120_tables_agree.
Print Assumptions C120_no_exception_refuted.
Print Assumptions C120_listed_refuted.
Print Assumptions C120_unknown_tags.
Print Assumptions C120_adjective_at_the_end.
