(** * Characters the tagger does not know *)
From Coq Require Import Reals.
From Flocq Require Import Core BinarySingleNaN.
From Verif Require Import PyBase PyRegex PyNum ModelFinalseg ModelSeg ModelPosseg SpecBase SpecSeg SpecTagging SpecPosseg SpecUnknown
  SpecPosMissing SpecPosTables InstB64 InstB64Ext B64Lit DataPosseg DataPossegOk ModelPosTables
  ProofsBase ProofsPosseg ProofsPvit ProofsPvit2 ProofsUnknown ProofsB64Lit ProofsPosMissing ProofsPosTables Demo ProofsDemo.

(** ** C100

    Binary64.  Among all taggings that the search of posseg/viterbi.py compares, it
    returns one that needs the fewest entries that the tables lack, whatever the numbers
    in the tables are.  From the character before one without any emission probability
    on, only this counts: of the taggings that lack as few entries, the chosen one is the
    greatest when compared from the end. *)
Theorem C100_fewest_missing :
  forall (lg : Z -> b64) (T : ptables (numB lg)) (ord : orders) (s : str),
    sound_ptables T -> fair_order ord -> s <> [] -> (Z.of_nat (length s) <= 2 ^ 49)%Z ->
    exists p route,
      pviterbi T ord s = Ok (p, route) /\ considered T s route /\
      (forall other, considered T s other -> p_missing T s route <= p_missing T s other) /\
      (forall u c v, s = u ++ c :: v -> p_unknown T c ->
         forall other, considered T s other -> p_missing T s other = p_missing T s route ->
           p_not_above (skipn (length u - 1) other) (skipn (length u - 1) route)).
Proof.
  intros lg T ord s SP FO NE L. apply pviterbi_missing; auto. unfold blim. lia.
Qed.

(** Two tables with the same entries, whatever the numbers and whatever the order in
    which sets are visited: the states from the character before the first unknown one
    on are the same. *)
Theorem C100_only_entries_matter :
  forall (lg1 lg2 : Z -> b64) (T1 : ptables (numB lg1)) (T2 : ptables (numB lg2)) (ord1 ord2 : orders)
         (u : str) (c : char) (v : str),
    sound_ptables T1 -> sound_ptables T2 -> same_pentries T1 T2 -> fair_order ord1 -> fair_order ord2 ->
    p_unknown T1 c -> (Z.of_nat (length (u ++ c :: v)) <= 2 ^ 49)%Z ->
    exists p1 p2 a1 a2 b,
      pviterbi T1 ord1 (u ++ c :: v) = Ok (p1, a1 ++ b) /\ pviterbi T2 ord2 (u ++ c :: v) = Ok (p2, a2 ++ b) /\
      length a1 = length u - 1 /\ length a2 = length u - 1.
Proof.
  intros lg1 lg2 T1 T2 ord1 ord2 u c v S1 S2 SE F1 F2 UN L.
  assert (LB : blim (2 * length (u ++ c :: v))) by (unfold blim; lia).
  assert (UN2 : p_unknown T2 c).
  { intros y e E. destruct (e c) as [x|] eqn:EC; auto. exfalso.
    destruct (proj2 (sn_emit T1 T2 SE y c)) as (e1 & x1 & E1 & E2); [exists e, x; auto|]. rewrite (UN y e1 E1) in E2. discriminate. }
  assert (LK : forall y d, p_lacks T1 y d = p_lacks T2 y d).
  { intros y d. pose proof (sn_emit T1 T2 SE y d) as X. unfold p_has in X. unfold p_lacks.
    destruct (t_emit T1 y) as [e1|] eqn:E1; [destruct (e1 d) as [x1|] eqn:X1|];
    (destruct (t_emit T2 y) as [e2|] eqn:E2; [destruct (e2 d) as [x2|] eqn:X2|]); auto; exfalso;
      (destruct (proj1 X) as (e & x & A & B); [eauto|congruence]) || (destruct (proj2 X) as (e & x & A & B); [eauto|congruence]). }
  assert (MI : forall s l, p_missing T1 s l = p_missing T2 s l).
  { intros s l. unfold p_missing. f_equal; [destruct l as [|y l]; auto; rewrite (sn_start T1 T2 SE); auto|].
    revert l. induction s as [|x s IH]; intros [|y l]; cbn [p_lacking]; auto. }
  assert (CS : forall d y, char_state T1 d y <-> char_state T2 d y).
  { intros d y. unfold char_state. rewrite <- (sn_states T1 T2 SE). destruct (t_states T1 d); [tauto|apply (sn_pstate T1 T2 SE)]. }
  assert (KE : forall r y, kept T1 r y <-> kept T2 r y).
  { induction r as [|d r IH]; intros y; cbn [kept]; [tauto|]. destruct r as [|d' r]; [apply CS|].
    assert (EX : forall z, (exists x, kept T1 (d' :: r) x /\ step T1 x z) <-> (exists x, kept T2 (d' :: r) x /\ step T2 x z)).
    { intros z. split; intros (x & A & B); exists x; split; try (apply IH; exact A); apply (sn_step T1 T2 SE); exact B. }
    rewrite EX, CS. split; (intros [A [B|B]]; [tauto|]; split; [exact A|]; right; intros z Z1 Z2; apply (B z);
      [apply EX; exact Z1|apply CS; exact Z2]). }
  assert (ST : forall l, steps T1 l <-> steps T2 l).
  { induction l as [|x l IH]; cbn [steps]; [tauto|]. rewrite IH. destruct l as [|y l]; [tauto|]. rewrite (sn_step T1 T2 SE). tauto. }
  assert (CO : forall s l, considered T1 s l <-> considered T2 s l).
  { intros s l. unfold considered. rewrite ST. split; intros (A & B & C); split; auto; split; auto; intros i y E;
      apply KE; apply C; exact E. }
  assert (NE : u ++ c :: v <> []) by (destruct u; discriminate).
  destruct (pviterbi_missing lg1 T1 S1 ord1 _ F1 NE LB) as (p1 & r1 & E1 & C1 & M1 & G1).
  destruct (pviterbi_missing lg2 T2 S2 ord2 _ F2 NE LB) as (p2 & r2 & E2 & C2 & M2 & G2).
  assert (EM : p_missing T1 (u ++ c :: v) r1 = p_missing T1 (u ++ c :: v) r2).
  { apply Nat.le_antisymm; [apply M1; apply CO; exact C2|]. rewrite !MI. apply M2. apply CO. exact C1. }
  assert (EQ : skipn (length u - 1) r1 = skipn (length u - 1) r2).
  { apply p_not_above_antisym.
    - apply (G2 u c v eq_refl UN2); [apply CO; exact C1|]. rewrite <- !MI. exact EM.
    - apply (G1 u c v eq_refl UN); [apply CO; exact C2|]. symmetry. exact EM. }
  exists p1, p2, (firstn (length u - 1) r1), (firstn (length u - 1) r2), (skipn (length u - 1) r1).
  rewrite E1, E2. rewrite EQ at 2. rewrite !firstn_skipn. split; auto. split; auto.
  assert (L1 : length r1 = length (u ++ c :: v)) by apply C1. assert (L2 : length r2 = length (u ++ c :: v)) by apply C2.
  rewrite app_length in L1, L2. cbn [length] in L1, L2. rewrite !firstn_length. split; lia.
Qed.

(** The start and transition tables that jieba ships qualify, with any emission table
    without numbers beyond 2^200. *)
Theorem C100_shipped :
  forall (lg : Z -> b64) (e : pstate -> char -> option b64),
    (forall y c x, e y c = Some x -> small x) ->
    sound_ptables (tagger_tables lg e).
Proof. intros lg e ES. apply tagger_sound. exact ES. Qed.

(** ** C101

    With the start and transition tables that jieba ships, in binary64: two or more Han
    characters that the tagger does not know, not joined by a dictionary word, come out
    as single characters.  Their tags depend only on how many there are: x zg x zg ...,
    with y in front if the number is odd. *)
Theorem C101_unknown_tags :
  forall (lg : Z -> b64) (e : pstate -> char -> option b64) (ord : orders) (tab : sdict str) (fr : freqs)
         (total : Z) (s : str),
    (forall y c x, e y c = Some x -> small x) -> fair_order ord ->
    sane (sget fr) total -> prefix_closed (sget fr) ->
    (forall a w b, s = a ++ w ++ b -> is_word (sget fr) w -> length w = 1) ->
    Forall (fun c => han_char c = true) s -> Forall (tagger_unknown e) s ->
    2 <= length s -> (Z.of_nat (length s) <= 2 ^ 49)%Z ->
    ps_cut (tagger_tables lg e) ord true tab fr total s =
      gof (combine (map (fun c => [c]) s) (unknown_tags (length s))).
Proof.
  intros lg e ord tab fr total s ES FO SA PC NW HF UN L2 L.
  rewrite (ps_cut_whole _ (tagger_tables lg e) ord tab fr total s HF L2 SA PC NW).
  unfold ps_cut_han. destruct (tagger_unknown_route lg e ES ord s FO L2) as [p ->]; auto; [unfold blim; lia|].
  apply loop_singles; [|lia].
  pose proof (unknown_rev_ok (length s)) as E. apply (f_equal (@length _)) in E.
  rewrite rev_length, unknown_rev_length, map_length in E. symmetry. exact E.
Qed.

(** Such a character alone has the tag of the word table, x if it is not in it. *)
Theorem C101_one_unknown :
  forall (lg : Z -> b64) (e : pstate -> char -> option b64) (ord : orders) (tab : sdict str) (fr : freqs)
         (total : Z) (c : char),
    sane (sget fr) total -> han_char c = true ->
    ps_cut (tagger_tables lg e) ord true tab fr total [c] = gone ([c], tag_get tab [c]).
Proof.
  intros lg e ord tab fr total c SA HC. apply ps_cut_one; auto.
Qed.

(** One more such character at the end changes the tag of every character before it. *)
Theorem C101_every_tag_changes :
  forall (lg : Z -> b64) (e : pstate -> char -> option b64) (ord : orders) (tab : sdict str) (fr : freqs)
         (total : Z) (s : str) (c : char),
    (forall y c x, e y c = Some x -> small x) -> fair_order ord ->
    sane (sget fr) total -> prefix_closed (sget fr) ->
    (forall a w b, s ++ [c] = a ++ w ++ b -> is_word (sget fr) w -> length w = 1) ->
    Forall (fun c => han_char c = true) (s ++ [c]) -> Forall (tagger_unknown e) (s ++ [c]) ->
    2 <= length s -> (Z.of_nat (length (s ++ [c])) <= 2 ^ 49)%Z ->
    exists ts ts',
      ps_cut (tagger_tables lg e) ord true tab fr total s = gof (combine (map (fun c => [c]) s) ts) /\
      ps_cut (tagger_tables lg e) ord true tab fr total (s ++ [c]) = gof (combine (map (fun c => [c]) (s ++ [c])) ts') /\
      length ts = length s /\ length ts' = length (s ++ [c]) /\
      forall i, i < length s -> nth_error ts i <> nth_error ts' i.
Proof.
  intros lg e ord tab fr total s c ES FO SA PC NW HF UN L2 L.
  assert (LS : length (s ++ [c]) = S (length s)) by (rewrite app_length; cbn [length]; lia).
  exists (unknown_tags (length s)), (unknown_tags (length (s ++ [c]))).
  rewrite (C101_unknown_tags lg e ord tab fr total (s ++ [c])) by (auto; lia).
  assert (HF' := HF). assert (UN' := UN). apply Forall_app in HF', UN'.
  rewrite (C101_unknown_tags lg e ord tab fr total s); auto; try tauto; try lia.
  - split; auto. split; auto. rewrite !unknown_tags_length. split; auto. split; auto. intros i I. rewrite LS. apply unknown_tags_change. exact I.
  - intros a w b E. apply (NW a w (b ++ [c])). rewrite E, <- !app_assoc. reflexivity.
Qed.

(** A concrete case: 丄丆丏 with the small dictionary of [Demo]; the emission table has
    one entry, for 一. *)
Definition e_demo (n : Z) : pstate -> char -> option b64 :=
  fun y c => if (pstate_eqb y (l_B, [110]) && (c =? 19968))%N%bool then Some (b64_of (n, 0)%Z) else None.
Lemma e_demo_small n : (Z.abs n <= 9)%Z -> forall y c x, e_demo n y c = Some x -> small x.
Proof.
  intros L y c x. unfold e_demo. destruct (_ && _)%bool; [|discriminate]. intros E. injection E as <-. apply b64_of_small; lia.
Qed.
Definition unknown3 : str := [0x4e04; 0x4e06; 0x4e0f]%N.
Lemma unknown3_ok n : Forall (tagger_unknown (e_demo n)) unknown3.
Proof.
  assert (X : forallb (fun c => negb (existsb (N.eqb c) (map fst pos_chars)) && negb (c =? 19968)%N) unknown3 = true) by (vm_compute; reflexivity).
  apply Forall_forall. intros c I. rewrite forallb_forall in X. specialize (X c I).
  apply andb_true_iff in X. destruct X as [X Y]. apply negb_true_iff in X, Y. split.
  - intros J. assert (Z : existsb (N.eqb c) (map fst pos_chars) = true); [|congruence].
    apply existsb_exists. exists c. split; auto. apply N.eqb_refl.
  - intros y. unfold e_demo. rewrite Y, andb_false_r. reflexivity.
Qed.
Definition plain_ord : orders := fun _ _ l => l.
Lemma plain_fair : fair_order plain_ord.
Proof. intros obs t l _. apply Permutation.Permutation_refl. Qed.

Example C101_nonvacuous (lg : Z -> b64) :
  ps_cut (tagger_tables lg (e_demo (-5))) plain_ord true [] demo_fr demo_total unknown3 =
  gof [([0x4e04], t_y); ([0x4e06], t_x); ([0x4e0f], t_zg)]%N /\
  ps_cut (tagger_tables lg (e_demo (-5))) plain_ord true [] demo_fr demo_total [0x4e04; 0x4e06]%N =
  gof [([0x4e04], t_x); ([0x4e06], t_zg)]%N.
Proof.
  assert (W : forall w, is_word (sget demo_fr) w -> incl w unknown3 -> length w = 1).
  { intros w (f & G & _) I. exfalso.
    assert (X : forallb (fun kf => match fst kf with c :: _ => negb (existsb (N.eqb c) unknown3) | [] => false end) demo_fr = true) by (vm_compute; reflexivity).
    apply sget_In in G. rewrite forallb_forall in X. specialize (X _ G). cbn [fst] in X. destruct w as [|c w]; [discriminate|].
    apply negb_true_iff in X. assert (Y : existsb (N.eqb c) unknown3 = true); [|congruence].
    apply existsb_exists. exists c. split; [apply I; left; reflexivity|apply N.eqb_refl]. }
  split.
  - rewrite (C101_unknown_tags lg (e_demo (-5)) plain_ord [] demo_fr demo_total unknown3); auto using plain_fair, demo_sane, demo_prefix_closed, unknown3_ok.
    + apply e_demo_small. lia.
    + intros a w b E HW. apply W; auto. intros c I. rewrite E. apply in_app_iff. right. apply in_app_iff. auto.
    + repeat constructor.
    + cbn. lia.
    + vm_compute. discriminate.
  - rewrite (C101_unknown_tags lg (e_demo (-5)) plain_ord [] demo_fr demo_total [0x4e04; 0x4e06]%N); auto using plain_fair, demo_sane, demo_prefix_closed.
    + apply e_demo_small. lia.
    + intros a w b E HW. apply W; auto. intros c I. unfold unknown3. change [0x4e04; 0x4e06; 0x4e0f]%N with ([0x4e04; 0x4e06] ++ [0x4e0f])%N.
      rewrite E. apply in_app_iff. left. apply in_app_iff. right. apply in_app_iff. auto.
    + apply Forall_forall. intros c I. pose proof (unknown3_ok (-5)) as X. rewrite Forall_forall in X. apply X.
      destruct I as [<-|[<-|[]]]; cbn; auto.
    + vm_compute. discriminate.
Qed.

(** So x is not the tag of every unknown character. *)
Theorem C101_unknown_is_x_refuted :
  ~ (forall (lg : Z -> b64) (e : pstate -> char -> option b64) (ord : orders) (fr : freqs) (total : Z) (s : str),
       (forall y c x, e y c = Some x -> small x) -> fair_order ord -> sane (sget fr) total ->
       Forall (fun c => han_char c = true) s -> Forall (tagger_unknown e) s ->
       forall wt, In wt (fst (ps_cut (tagger_tables lg e) ord true [] fr total s)) -> snd wt = t_x).
Proof.
  intros C. set (lg := fun _ : Z => b64_min_float).
  specialize (C lg (e_demo (-5)) plain_ord demo_fr demo_total unknown3 (e_demo_small (-5) ltac:(lia)) plain_fair demo_sane
                ltac:(repeat constructor) (unknown3_ok (-5)) ([0x4e04]%N, t_y)).
  rewrite (proj1 (C101_nonvacuous lg)) in C. specialize (C (or_introl eq_refl)). discriminate.
Qed.

(** Two emission tables with different numbers for the same entry. *)
Example C100_nonvacuous (lg1 lg2 : Z -> b64) :
  sound_ptables (tagger_tables lg1 (e_demo (-5))) /\ sound_ptables (tagger_tables lg2 (e_demo (-7))) /\
  same_pentries (tagger_tables lg1 (e_demo (-5))) (tagger_tables lg2 (e_demo (-7))) /\
  p_unknown (tagger_tables lg1 (e_demo (-5))) 0x4e04%N /\ fair_order plain_ord.
Proof.
  split; [apply tagger_sound, e_demo_small; lia|]. split; [apply tagger_sound, e_demo_small; lia|]. split; [|split; [|apply plain_fair]].
  - constructor.
    + intros c. reflexivity.
    + intros y. unfold tagger_tables. rewrite !shipped_pstate. tauto.
    + intros x y. rewrite (tagger_step lg1), (tagger_step lg2) by (apply e_demo_small; lia). tauto.
    + intros y. unfold p_no_start, start_of, tagger_tables, shipped. cbn [t_start v_start]. reflexivity.
    + intros y c. unfold p_has, tagger_tables, shipped. cbn [t_emit v_emit]. destruct (p_in y pos_states).
      2: { split; intros (e & x & E & _); discriminate. }
      split; intros (e & x & E & X); injection E as <-; unfold e_demo in *;
        (eexists; eexists; split; [reflexivity|]); cbv beta in *; destruct (pstate_eqb y (l_B, [110%N]) && (c =? 19968)%N)%bool; try discriminate; reflexivity.
  - destruct (tagger_unknown_chars lg1 (e_demo (-5)) unknown3 (unknown3_ok (-5))) as [_ X]. inversion X; auto.
Qed.

Print Assumptions C100_fewest_missing.
Print Assumptions C100_only_entries_matter.
Print Assumptions C100_shipped.
Print Assumptions C101_unknown_tags.
Print Assumptions C101_one_unknown.
Print Assumptions C101_every_tag_changes.
Print Assumptions C101_unknown_is_x_refuted.
