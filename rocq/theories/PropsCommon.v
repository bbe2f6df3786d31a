(** * C121: texts of common characters are tagged without gaps in the tables *)
From Coq Require Import Reals Lra Lia.
From Flocq Require Import Core BinarySingleNaN.
From Verif Require Import PyBase PyRegex PyNum ModelFinalseg ModelSeg ModelDict ModelPosseg
  SpecBase SpecSeg SpecNum SpecDict SpecHealth SpecPosseg SpecMode SpecTagging SpecUnknown SpecPosMissing SpecLog SpecRoundErr SpecScore SpecHmmErr SpecPosErr SpecPosTables SpecTagger
  InstB64 InstB64Ext InstSign B64Lit DataPosseg DataPossegOk ModelPosTables ModelPosEmit
  ProofsBase ProofsRegex ProofsSplit ProofsDag ProofsFinalseg ProofsSeg ProofsPosseg ProofsPvit ProofsPosHmm ProofsPosHmm2 ProofsAbsorb ProofsUnknown ProofsPosMissing ProofsPosTables ProofsB64Lit ProofsHmmErr ProofsPosErr ProofsPosEmit
  PropsDefault PropsPosseg PropsPosTables PropsPosErr PropsPosDefault PropsTagger.
Local Open Scope nat_scope.

(** ** Taggings whose states the characters have *)

Lemma steps_nth {num} (T : ptables num) ys : forall i x y, steps T ys -> nth_error ys i = Some x -> nth_error ys (S i) = Some y -> step T x y.
Proof.
  induction ys as [|a ys IH]; intros i x y ST E1 E2; [destruct i; discriminate E1|].
  destruct ys as [|b ys]; [destruct i; discriminate E2|]. destruct ST as [S1 S2].
  destruct i as [|i]; cbn [nth_error] in *; [injection E1 as <-; injection E2 as <-; exact S1|].
  apply (IH i); auto.
Qed.
Lemma firstn_snoc {A} (l : list A) : forall i c, nth_error l i = Some c -> firstn (S i) l = firstn i l ++ [c].
Proof.
  induction l as [|a l IH]; intros i c E; [destruct i; discriminate E|]. destruct i as [|i]; cbn [nth_error] in E.
  - injection E as <-. reflexivity.
  - cbn [firstn app]. f_equal. apply IH. exact E.
Qed.
Lemma F2_length {A B} (P : A -> B -> Prop) l l' : Forall2 P l l' -> length l = length l'.
Proof. induction 1; cbn [length]; congruence. Qed.
Lemma F2_nth {A B} (P : A -> B -> Prop) l l' : Forall2 P l l' -> forall i y, nth_error l' i = Some y -> exists x, nth_error l i = Some x /\ P x y.
Proof. induction 1; intros [|i] z E; try discriminate E; cbn [nth_error] in *; [injection E as <-; eauto|auto]. Qed.

Lemma considered_direct {num} (T : ptables num) cs ys : Forall2 (char_state T) cs ys -> steps T ys -> considered T cs ys.
Proof.
  intros F ST. pose proof (F2_length _ _ _ F) as L. split; [congruence|]. split; [exact ST|].
  induction i as [|i IH]; intros y E.
  - destruct (F2_nth _ _ _ F _ _ E) as (c & EC & C). destruct cs as [|d cs]; [discriminate EC|]. injection EC as ->. exact C.
  - destruct (F2_nth _ _ _ F _ _ E) as (c & EC & C). rewrite (firstn_snoc _ _ _ EC), rev_unit.
    assert (LI : i < length ys) by (apply Nat.lt_succ_l, nth_error_Some; congruence).
    destruct (nth_error ys i) as [x|] eqn:EX; [|apply nth_error_None in EX; lia].
    apply (kept_cons _ _ _ x); auto. apply (steps_nth _ ys i); auto.
Qed.

(** ** The twenty-eight states *)

Definition core : list pstate := map (fun t => (l_S, t)) one_char_tags.
Lemma core_known : forallb (fun y => p_in y pos_states && match pos_start_num y with Some _ => true | None => false end) core = true.
Proof. vm_compute. reflexivity. Qed.
(** each can follow each *)
Definition core_row (i : N) : bool :=
  negb (p_in (pos_state i) core) || (let row := map pos_state (pos_row i) in forallb (fun y => p_in y row) core).
Lemma core_rows : forallb core_row (map N.of_nat (seq 0 256)) = true.
Proof. vm_compute. reflexivity. Qed.
Lemma core_in_rows : forallb (fun y => existsb (fun i => pstate_eqb (pos_state i) y) (map N.of_nat (seq 0 256))) core = true.
Proof. vm_compute. reflexivity. Qed.
Lemma core_step lg x y : In x core -> In y core -> step (tagger lg) x y.
Proof.
  intros X Y. rewrite tagger_is, tagger_step by (exact emissions_small).
  pose proof core_in_rows as A. rewrite forallb_forall in A. specialize (A x X). apply existsb_exists in A.
  destruct A as (i & I & E). apply pstate_eqb_ok in E. pose proof core_rows as B. rewrite forallb_forall in B. pose proof (B i I) as R.
  exists i. split; [|split; [congruence|]].
  - apply in_map_iff in I. destruct I as (n & <- & I). apply in_seq in I. lia.
  - unfold core_row in R. rewrite E in R. assert (PX : p_in x core = true) by (apply p_in_In; exact X).
    rewrite PX in R. cbn [negb orb] in R. cbv zeta in R. rewrite forallb_forall in R. apply p_in_In, R, Y.
Qed.

Definition core_of (l : list N) : bool := existsb (fun i => p_in (pos_state i) core) l.
Lemma number_index c y me : In y core -> pos_emit_num y c = Some me -> exists i, (i < 256)%N /\ pos_state i = y.
Proof.
  intros Y _. pose proof core_in_rows as A. rewrite forallb_forall in A. specialize (A y Y). apply existsb_exists in A.
  destruct A as (i & I & E). apply pstate_eqb_ok in E. exists i. split; [|exact E].
  apply in_map_iff in I. destruct I as (n & <- & I). apply in_seq in I. lia.
Qed.

(** the odd characters *)
Definition odd_ok (c : N) : bool :=
  existsb (N.eqb c) [0x6e6e; 0x77fd; 0x8e60]%N ||
  match dget N.eqb pos_chars c with
  | None => true
  | Some l => existsb (fun i => p_in (pos_state i) core && match pos_emit_num (pos_state i) c with Some _ => true | None => false end) l
              || negb (existsb (fun y => match pos_emit_num y c with Some _ => true | None => false end) core)
  end.
Lemma odd_checked : forallb odd_ok odd_characters = true.
Proof. vm_compute. reflexivity. Qed.

Lemma common_state lg c : common c -> exists y, In y core /\ char_state (tagger lg) c y /\ has_number c y.
Proof.
  intros (NE & t & IT & me & EN). assert (YC : In (l_S, t) core) by (unfold core; apply in_map_iff; exists t; auto).
  destruct (dget N.eqb pos_chars c) as [l|] eqn:EC.
  - destruct (in_dec N.eq_dec c odd_characters) as [OD|OD].
    + pose proof odd_checked as O. rewrite forallb_forall in O. specialize (O c OD). unfold odd_ok in O. rewrite EC in O.
      apply orb_true_iff in O. destruct O as [O|O].
      { exfalso. apply NE. apply existsb_exists in O. destruct O as (d & I & E). apply N.eqb_eq in E. subst d. exact I. }
      apply orb_true_iff in O. destruct O as [O|O].
      * apply existsb_exists in O. destruct O as (i & I & E). apply andb_true_iff in E. destruct E as [E1 E2].
        exists (pos_state i). split; [apply p_in_In; exact E1|]. split.
        -- unfold char_state, tagger, tagger_tables, shipped. cbn [t_states]. rewrite EC. cbn [option_map]. apply in_map. exact I.
        -- unfold has_number. destruct (pos_emit_num (pos_state i) c) as [m|]; [eauto|discriminate E2].
      * exfalso. apply negb_true_iff in O. assert (X : existsb (fun y => match pos_emit_num y c with Some _ => true | None => false end) core = true).
        { apply existsb_exists. exists (l_S, t). split; [exact YC|]. rewrite EN. reflexivity. }
        congruence.
    + destruct (number_index c _ me YC EN) as (i & LI & EI).
      exists (l_S, t). split; [exact YC|]. split; [|exists me; exact EN].
      unfold char_state, tagger, tagger_tables, shipped. cbn [t_states]. rewrite EC. cbn [option_map]. rewrite <- EI.
      apply in_map. apply (C120_tables_agree c l EC OD i LI). exists me. rewrite EI. exact EN.
  - exists (l_S, t). split; [exact YC|]. split; [|exists me; exact EN].
    unfold char_state, tagger, tagger_tables, shipped. cbn [t_states]. rewrite EC. cbn [option_map].
    destruct (core_step lg _ _ YC YC) as (p & ST). unfold is_pstate.
    unfold step_p in ST. destruct ST as (l & E & _).
    apply in_map_iff. exists ((l_S, t), l). split; [reflexivity|exact E].
Qed.

(** ** C121

    A text of common characters has a tagging that needs no missing entry: single
    characters, each as it has been seen. *)
Lemma common_tagging lg s : Forall common s ->
  exists ys, Forall (fun y => In y core) ys /\ Forall2 (char_state (tagger lg)) s ys /\ Forall2 has_number s ys.
Proof.
  induction 1 as [|c s C _ (ys & A & B & D)]; [exists []; auto|].
  destruct (common_state lg c C) as (y & Y1 & Y2 & Y3). exists (y :: ys). auto.
Qed.
Lemma core_steps lg ys : Forall (fun y => In y core) ys -> steps (tagger lg) ys.
Proof.
  induction 1 as [|y ys Y F IH]; cbn [steps]; auto. split; auto. destruct ys as [|z ys]; auto.
  apply core_step; auto. inversion F; auto.
Qed.
Lemma lacking_zero lg s ys : Forall (fun y => In y pos_states) ys -> Forall2 has_number s ys -> p_lacking (tagger lg) s ys = 0.
Proof.
  intros F F2. revert F. induction F2 as [|c y s ys [me N] _ IH]; intros F; [reflexivity|]. inversion F; subst.
  cbn [p_lacking]. rewrite tagger_lacks by assumption. rewrite N, IH by assumption. reflexivity.
Qed.
Lemma core_pos y : In y core -> In y pos_states /\ exists me, pos_start_num y = Some me.
Proof.
  intros Y. pose proof core_known as K. rewrite forallb_forall in K. specialize (K y Y).
  apply andb_true_iff in K. destruct K as [K1 K2]. split; [apply p_in_In; exact K1|].
  destruct (pos_start_num y); [eauto|discriminate K2].
Qed.
Theorem C121_complete_tagging :
  forall (lg : Z -> b64) (s : str), Forall common s ->
    exists ys, considered (tagger lg) s ys /\ p_missing (tagger lg) s ys = 0 /\ Forall (fun y => fst y = l_S) ys.
Proof.
  intros lg s F. destruct (common_tagging lg s F) as (ys & A & B & D). exists ys.
  split; [apply considered_direct; auto; apply core_steps; exact A|]. split.
  - unfold p_missing. rewrite lacking_zero; auto.
    + rewrite Nat.add_0_r. destruct ys as [|y ys]; [reflexivity|]. inversion A as [|? ? Y _]; subst.
      destruct (core_pos y Y) as [P [me E]]. rewrite tagger_is, no_start_iff by (try exact emissions_small; exact P). rewrite E. reflexivity.
    + eapply Forall_impl; [|exact A]. intros y Y. apply core_pos. exact Y.
  - eapply Forall_impl; [|exact A]. intros y Y. unfold core in Y. apply in_map_iff in Y. destruct Y as (t & <- & _). reflexivity.
Qed.

(** *** What a tagging without missing entries is *)

Lemma lacks_number lg y c : p_lacks (tagger lg) y c = 0 -> has_number c y.
Proof.
  unfold p_lacks, has_number, tagger, tagger_tables, shipped. cbn [t_emit v_emit]. destruct (p_in y pos_states); [|discriminate].
  unfold emissions. destruct (pos_emit_num y c) as [me|]; [eauto|discriminate].
Qed.
Lemma lacking_numbers lg s : forall ys, length ys = length s -> p_lacking (tagger lg) s ys = 0 -> Forall2 has_number s ys.
Proof.
  induction s as [|c s IH]; intros [|y ys] L E; try discriminate L; constructor; cbn [p_lacking] in E.
  - apply (lacks_number lg). lia.
  - apply IH; [injection L as L; exact L|lia].
Qed.
Definition begins (y : pstate) : bool := match pos_start_num y with Some _ => (fst y =? l_B)%N || (fst y =? l_S)%N | None => true end.
Lemma begins_checked : forallb begins pos_states = true.
Proof. vm_compute. reflexivity. Qed.
Lemma start_letter lg y : In y pos_states -> p_no_start (tagger lg) y = false -> fst y = l_B \/ fst y = l_S.
Proof.
  intros I E. rewrite tagger_is, no_start_iff in E by (try exact emissions_small; exact I).
  pose proof begins_checked as B. rewrite forallb_forall in B. specialize (B y I). unfold begins in B.
  destruct (pos_start_num y); [|discriminate E]. apply orb_true_iff in B. destruct B as [B|B]; apply N.eqb_eq in B; auto.
Qed.
Lemma spelled_begins ws ys y : spelled true ws (y :: ys) -> fst y = l_B \/ fst y = l_S -> spelled false ws (y :: ys).
Proof.
  intros SP BE. remember (y :: ys) as l eqn:EL. remember true as b eqn:EB. destruct SP as [f|f c t ws ys' P|f w t n ws ys' L P|w t n ws ys' L P|f w t n L|w t n Z0 L].
  - constructor.
  - constructor. exact P.
  - apply sp_word; auto.
  - exfalso. destruct n as [|n]; cbn [repeat app] in EL; injection EL as EL _; subst y; cbn [fst] in BE; destruct BE; discriminate.
  - apply sp_last. exact L.
  - exfalso. destruct n as [|n]; [lia|]. cbn [repeat] in EL. injection EL as EL _; subst y; cbn [fst] in BE; destruct BE; discriminate.
Qed.
Lemma missing_zero lg s ws ys : s <> [] -> considered (tagger lg) s ys -> p_missing (tagger lg) s ys = 0 ->
  spelled true ws ys -> attested s ws.
Proof.
  intros NE (L & ST & KE) M SP. unfold p_missing in M. exists ys. split; [|apply (lacking_numbers lg); auto; lia].
  destruct ys as [|y ys]; [destruct s; [congruence|discriminate L]|]. apply spelled_begins; auto.
  apply (start_letter lg); [|destruct (p_no_start (tagger lg) y); [lia|reflexivity]].
  destruct s as [|c s]; [congruence|]. cbn [p_lacking] in M. assert (Z0 : p_lacks (tagger lg) y c = 0) by lia.
  unfold p_lacks, tagger, tagger_tables, shipped in Z0. cbn [t_emit v_emit] in Z0.
  destruct (p_in y pos_states) eqn:P; [apply p_in_In; exact P|discriminate Z0].
Qed.

(** The words that the tagger finds in such a text have been seen as they are tagged, and
    the tagging is the best up to rounding. *)
Theorem C121_run :
  forall (lg : Z -> b64) (ord : orders) (s : str),
    fair_order ord -> s <> [] -> length s <= 2 ^ 22 -> Forall common s ->
    exists ws ys,
      ps_cut_han (tagger lg) ord s = gof ws /\ concat (map fst ws) = s /\ attested s ws /\
      spelled true ws ys /\ considered (tagger lg) s ys /\
      forall other, considered (tagger lg) s other -> (tag_value (tagger lg) s other <= tag_value (tagger lg) s ys + cost (length s))%R.
Proof.
  intros lg ord s FO NE LN F. destruct (C119_tables lg) as (_ & BM & OT & SP & MT).
  destruct (C121_complete_tagging lg s F) as (o & CO & MO & _).
  destruct (C106_near_best lg (tagger lg) ord s MT FO NE LN) as (p & route & E & CR & MR & BEST); [eauto|].
  destruct (loop_words s route) as (ws & EW & PA & SPW).
  { destruct CR as (CL & _). exact CL. }
  { eapply considered_good; eauto. apply (mp_ok (tagger lg) MT). }
  exists ws, route. split; [unfold ps_cut_han; rewrite E; exact EW|]. split; [apply PA|].
  split; [apply (missing_zero lg s ws route); auto|]. auto.
Qed.

(** ** Whole texts

    [posseg.cut] in binary64 with the shipped tables: the text is cut as C107 says, and
    in every Han run (of at most 2^22 characters) that the HMM tags, if its characters are
    common, the words have been seen as they are tagged. *)
Theorem C121_texts :
  forall (lg : Z -> b64), log_ok lg -> log_close lg ->
  forall (ord : orders) (tab : sdict str) (fr : freqs) (total : Z) (s : str),
    fair_order ord -> healthy fr total -> (total <= 2 ^ 44)%Z -> (Z.of_nat (length s) <= 2 ^ 49)%Z ->
    exists (choice : str -> list str) (out : str -> list tagged),
      ps_cut (tagger lg) ord true tab fr total s =
        gof (flat_map (fun br : bool * str => if fst br then out (snd br)
                                 else map (fun w => (w, [120%N])) (chars_crlf (snd br)))
                      (runs pos_word_char s)) /\
      forall r, In (true, r) (runs pos_word_char s) ->
        candidate (sget fr) r (choice r) /\
        ((length r <= 2 ^ 21)%nat ->
         forall ws', candidate (sget fr) r ws' ->
           (prob (sget fr) total ws' <= prob (sget fr) total (choice r) * slack (length r))%R) /\
        tag_grouped (fun x ps => stage_tags (fun h ws => concat (map fst ws) = h /\
                                               (length h <= 2 ^ 22 -> Forall common h -> attested h ws))
                                            (runs han_char x) ps)
                    (sget fr) (fun w => tag_or_x (sget tab w)) (choice r) (out r).
Proof.
  intros lg LO LC ord tab fr total s FO HE LT LS. destruct (C119_tables lg) as (_ & BM & OT & SP & MT).
  destruct (C107_default_mode lg LO LC (tagger lg) ord tab fr total s MT BM OT FO HE LT LS) as (choice & out & E & G).
  exists choice, out. split; [exact E|]. intros r HI. destruct (G r HI) as (G1 & G2 & G3).
  split; [exact G1|]. split; [exact G2|].
  eapply tag_grouped_mono; [|exact G3]. intros x ps _ SX.
  eapply stage_tags_mono; [|exact SX]. intros h ws I (ys & CAT & SPW & CO & BEST).
  split; [exact CAT|]. intros LH F. destruct BEST as [M _]; [exact LH| |].
  - destruct (C121_complete_tagging lg h F) as (o & CO' & MO & _). exists o. auto.
  - apply (missing_zero lg h ws ys); auto. exact (run_nonempty _ _ _ _ I).
Qed.

Lemma cuo_states : dget N.eqb pos_chars 0x539d%N = Some [158; 93]%N.
Proof. vm_compute. reflexivity. Qed.
Lemma cuo_number : has_number 0x539d%N (pos_state 93).
Proof. unfold has_number. destruct (pos_emit_num (pos_state 93) 0x539d%N) as [me|] eqn:E; [eauto|lazy in E; discriminate E]. Qed.

(** It is not enough that char_state_tab.py and prob_emit.py know the characters: 厝 is
    never the beginning of a word there. *)
Theorem C121_known_refuted :
  exists (c : char) (states : list N), dget N.eqb pos_chars c = Some states /\ (exists y, has_number c y) /\
    forall (lg : Z -> b64) (ys : list pstate), considered (tagger lg) [c] ys -> 0 < p_missing (tagger lg) [c] ys.
Proof.
  exists 0x539d%N, [158; 93]%N. split; [exact cuo_states|]. split; [exists (pos_state 93); exact cuo_number|].
  intros lg ys (L & _ & KE). destruct ys as [|y [|z ys]]; try discriminate L. specialize (KE 0 y eq_refl).
  cbn [firstn rev app] in KE. assert (C : char_state (tagger lg) 0x539d%N y) by (exact KE).
  unfold char_state, tagger, tagger_tables, shipped in C. cbn [t_states] in C. rewrite cuo_states in C.
  cbn [option_map map In] in C. unfold p_missing.
  assert (P : In y pos_states /\ pos_start_num y = None) by (destruct C as [<-|[<-|[]]]; (split; [apply p_in_In|]; vm_compute; reflexivity)).
  destruct P as [P1 P2]. rewrite tagger_is, no_start_iff by (try exact emissions_small; exact P1). rewrite P2. lia.
Qed.

(** 杭 and 研 are common; the words found in 杭研 (PropsTagger) have been seen: 杭 as j, and
    研 as the beginning of a vn *)
Example C121_example : Forall common [0x676d; 0x7814]%N.
Proof.
  repeat (constructor; [split; [vm_compute; intros D; repeat (destruct D as [D|D]; [discriminate D|]); exact D|]|]); [| |constructor].
  - exists [106]%N. split; [vm_compute; tauto|]. unfold has_number. destruct (pos_emit_num (l_S, [106]%N) 0x676d%N) as [me|] eqn:E; [eauto|lazy in E; discriminate E].
  - exists [118]%N. split; [vm_compute; tauto|]. unfold has_number. destruct (pos_emit_num (l_S, [118]%N) 0x7814%N) as [me|] eqn:E; [eauto|lazy in E; discriminate E].
Qed.

Print Assumptions C121_complete_tagging.
Print Assumptions C121_run.
Print Assumptions C121_texts.
Print Assumptions C121_known_refuted.
