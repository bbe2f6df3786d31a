(** * Words kept whole, for any arithmetic *)
From Coq Require Import Reals Lra.
From Verif Require Import PyBase PyRegex PyNum ModelFinalseg ModelSeg ModelDict SpecBase SpecSeg SpecNum SpecScore
  SpecDict SpecHealth ProofsBase ProofsRegex ProofsSplit ProofsDag ProofsFinalseg ProofsSeg ProofsOpt ProofsNoHmm
  ProofsDict ProofsTotal ProofsSuggest.
Set Implicit Arguments.

Section Whole.
  Variable num : Num.
  Variable H : hmm num.
  Variable O : NumOrder num.

  Lemma whole_chosen fr T w :
    sane (sget fr) T -> prefix_closed (sget fr) -> w <> [] -> is_word (sget fr) w ->
    (forall ws, candidate (sget fr) w ws -> 2 <= length ws ->
       (o_val O (score num (sget fr) T ws) <= o_val O (score num (sget fr) T [w]))%R) ->
    chosen num fr T w = [w].
  Proof.
    intros SA PC NE W L. pose proof (chosen_candidate num w SA PC) as C.
    pose proof (candidate_partition _ _ _ C) as PA.
    destruct (chosen num fr T w) as [|x xs] eqn:E.
    - destruct PA as [PA _]. simpl in PA. congruence.
    - assert (LX : length w <= length x).
      { destruct xs as [|y xs].
        - destruct PA as [PA _]. simpl in PA. rewrite app_nil_r in PA. subst. auto.
        - eapply (@chosen_longest num O fr T w [] x (y :: xs) w []); auto.
          + destruct PA as [-> _]. apply candidate_one; auto.
          + apply L; auto. simpl. lia. }
      destruct (partition_head_long PA LX) as [-> ->]. reflexivity.
  Qed.

  Lemma whole_cut fr T force HMM w :
    sane (sget fr) T -> w <> [] -> Forall (fun c => word_char c = true) w ->
    chosen num fr T w = [w] -> cut num H (mode_of false HMM) fr T force w = gof [w].
  Proof.
    intros SA NE FW EC. destruct HMM.
    - simpl. rewrite cut_runs_accurate by reflexivity. rewrite (@runs_whole word_char w true NE FW). simpl.
      destruct SA as [P NN]. unfold ProofsNoHmm.chosen in EC.
      destruct (calc_total num fr T w P NN) as [route E]. rewrite E in EC.
      rewrite (cut_hmm_block_eq H fr T force w E), EC. simpl.
      unfold cut_buf. destruct (length w =? 1) eqn:E1; [|reflexivity].
      destruct w; [congruence|]. cbn [app flush_hmm]. unfold cut_buf. rewrite E1. reflexivity.
    - simpl mode_of. rewrite cut_nohmm_text by auto. rewrite (@runs_whole word_char w true NE FW). simpl. rewrite EC. simpl.
      rewrite eng1_single. destruct (single_alnum w); [|reflexivity].
      destruct w; [congruence|]. reflexivity.
  Qed.

  (** the segments that the suggestion multiplies are those of the route *)
  Lemma whole_segments fr T force w :
    sane (sget fr) T -> prefix_closed (sget fr) -> w <> [] ->
    Forall (fun c => word_char c = true /\ is_alnum c = false) w ->
    cut num H NoHMM fr T force w = gof (chosen num fr T w).
  Proof.
    intros SA PC NE FW. rewrite cut_nohmm_text by auto.
    assert (F1 : Forall (fun c => word_char c = true) w) by (eapply Forall_impl; [|exact FW]; intros ? [? ?]; auto).
    rewrite (@runs_whole word_char w true NE F1). simpl flat_map. rewrite app_nil_r. f_equal.
    pose proof (chosen_candidate num w SA PC) as C. apply candidate_partition in C.
    assert (NS : forall ws, Forall (fun c => is_alnum c = false) (concat ws) -> Forall (fun u => u <> []) ws -> merge_eng [] ws = ws).
    { induction ws as [|u ws IH]; auto. simpl. intros FA FE. apply Forall_app in FA. inversion FE; subst.
      rewrite eng1_single. assert (single_alnum u = false) as ->.
      { destruct u as [|c [|d u]]; auto. simpl. destruct FA as [FA _]. inversion FA; auto. }
      simpl. f_equal. apply IH; tauto. }
    destruct C as [C1 C2]. rewrite NS; auto.
    rewrite C1. eapply Forall_impl; [|exact FW]; intros ? [? ?]; auto.
  Qed.

  (** not more words than characters *)
  Lemma partition_length (w : str) ws : partition w ws -> length ws <= length w.
  Proof.
    intros [<- F]. induction F as [|u ws NE F IH]; simpl; auto. rewrite app_length.
    destruct u; [congruence|]. simpl. lia.
  Qed.
End Whole.
