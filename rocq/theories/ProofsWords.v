(** * What kinds of words the segmenter yields, whatever the dictionary *)
From Verif Require Import PyBase PyRegex PyNum ModelFinalseg ModelSeg ModelDict
  SpecBase SpecSeg SpecScore SpecFull ProofsBase ProofsRegex ProofsSplit ProofsDag ProofsFinalseg ProofsSeg
  ProofsOpt ProofsSearch ProofsNoHmm ProofsFull.
Set Implicit Arguments.

Definition no_han (w : str) : Prop := Forall (fun c => han_char c = false) w.

Lemma gfor_In {A B} (l : list A) (f : A -> gen B) y :
  In y (fst (gfor l f)) -> exists x, In x l /\ In y (fst (f x)).
Proof.
  induction l as [|x l IH]; simpl; [contradiction|]. unfold gapp.
  destruct (snd (f x)) eqn:E; simpl.
  - intros HI. eauto.
  - rewrite in_app_iff. intros [HI|HI]; eauto. destruct (IH HI) as [z [Z1 Z2]]. eauto.
Qed.

Lemma gapp_In {A} (g h : gen A) y : In y (fst (gapp g h)) -> In y (fst g) \/ In y (fst h).
Proof. unfold gapp. destruct (snd g); simpl; auto. rewrite in_app_iff. auto. Qed.

Lemma Forall_concat_In {A} (P : A -> Prop) (ws : list (list A)) w :
  In w ws -> Forall P (concat ws) -> Forall P w.
Proof.
  intros HI F. apply Forall_forall. intros c HC. rewrite Forall_forall in F. apply F.
  apply in_concat. eauto.
Qed.

Section Words.
  Variable num : Num.
  Variable H : hmm num.

  (** ** The HMM stage *)

  Definition fs_kind (force : list str) (w : str) : Prop :=
    length w = 1 \/ ~ In w force \/ no_han w.

  Lemma runs_class p s b r : In (b, r) (runs p s) -> r <> [] /\ Forall (fun c => p c = b) r.
  Proof.
    revert b r. induction s as [|c s IH]; intros b r; simpl; [contradiction|].
    destruct (runs p s) as [|[b0 r0] rest] eqn:ER.
    - intros [E|[]]. inversion E; subst. split; [discriminate|auto].
    - destruct (Bool.eqb b0 (p c)) eqn:EB.
      + apply eqb_prop in EB. subst b0. intros [E|HI].
        * inversion E; subst. split; [discriminate|]. constructor; auto. apply (IH (p c) r0). left; auto.
        * apply IH. right; auto.
      + intros [E|HI].
        * inversion E; subst. split; [discriminate|auto].
        * apply IH. auto.
  Qed.

  Lemma fs_cut_kind force s w : In w (fst (fs_cut num H force s)) -> fs_kind force w.
  Proof.
    unfold fs_cut, fs_re_han. rewrite gfor_split_class by reflexivity.
    rewrite gfor_map. intros HI. apply gfor_In in HI. destruct HI as [[b r] [HR HI]]. simpl in HI.
    apply runs_class in HR. destruct HR as [NR FR].
    destruct b.
    - unfold fs_cut_block, fs_re_han in HI. rewrite re_matches_plus in HI.
      destruct r as [|c r]; [congruence|]. inversion FR; subst. rewrite H2 in HI.
      unfold gbind in HI. apply gapp_In in HI. destruct HI as [HI|[]].
      apply gfor_In in HI. destruct HI as [x [_ HI]].
      destruct (str_in x force) eqn:EF; simpl in HI.
      + apply in_map_iff in HI. destruct HI as [z [<- _]]. left. reflexivity.
      + destruct HI as [<-|[]]. right. left. rewrite <- str_in_In. congruence.
    - destruct (@fs_cut_block_ok num H force r) as [ws [E [P _]]]. rewrite E in HI. simpl in HI.
      right. right. unfold no_han. apply (@Forall_concat_In _ _ _ _ HI). rewrite P. auto.
  Qed.

  (** ** Walks *)

  Lemma walk_words fr s x ws :
    walk fr s x ws -> Forall (fun w => is_word (sget fr) w \/ length w = 1) ws.
  Proof.
    revert x. induction ws as [|w ws IH]; intros x W; auto. simpl in W.
    destruct W as [L [[j [HJ ->]] W]]. constructor; eauto.
    rewrite dag_at_words in HJ. destruct (dag_words fr s x) as [|z l] eqn:EW.
    - destruct HJ as [<-|[]]. right. rewrite slice_length by lia. lia.
    - left. rewrite <- EW in HJ. apply dag_words_range in HJ. apply freq_true_word. tauto.
  Qed.

  Definition any_kind (fr : freqs) (force : list str) (w : str) : Prop :=
    is_word (sget fr) w \/ length w = 1 \/ ~ In w force \/ no_han w.

  Lemma cut_buf_kind fr force buf w :
    In w (fst (cut_buf num H fr force buf)) -> length w = 1 \/ ~ In w force \/ no_han w.
  Proof.
    unfold cut_buf. destruct (length buf =? 1) eqn:E1.
    - intros [<-|[]]. apply Nat.eqb_eq in E1. auto.
    - destruct (negb (freq_true fr buf)).
      + apply fs_cut_kind.
      + simpl. intros HI. apply in_map_iff in HI. destruct HI as [c [<- _]]. auto.
  Qed.

  Lemma group_hmm_kind fr force buf ws w :
    Forall (fun w => is_word (sget fr) w \/ length w = 1) ws ->
    In w (fst (group_hmm H fr force buf ws)) -> any_kind fr force w.
  Proof.
    assert (FL : forall buf w, In w (fst (flush_hmm H fr force buf)) -> any_kind fr force w).
    { intros b v. destruct b; simpl; [contradiction|]. intros HI. apply cut_buf_kind in HI. right. exact HI. }
    revert buf. induction ws as [|x ws IH]; intros buf F; simpl; [apply FL|].
    inversion F; subst. destruct (length x =? 1).
    - apply IH; auto.
    - intros HI. apply gapp_In in HI. destruct HI as [HI|HI]; [eauto|].
      simpl in HI. destruct HI as [<-|HI]; [|eauto]. unfold any_kind. tauto.
  Qed.

  Lemma cut_hmm_kind fr total force s w :
    In w (fst (cut num H WithHMM fr total force s)) -> any_kind fr force w.
  Proof.
    rewrite cut_runs_accurate by reflexivity. intros HI. apply gfor_In in HI.
    destruct HI as [[b r] [HR HI]]. simpl in HI. destruct b.
    - simpl in HI. destruct (calc num fr total r (get_DAG fr r)) as [route|e] eqn:E.
      + rewrite (cut_hmm_block_eq H fr total force r E) in HI. eapply group_hmm_kind; [|exact HI].
        eapply walk_words. apply (route_words_walk (fr := fr)); [eapply calc_ok; eauto|lia|lia].
      + unfold cut_hmm_block in HI. rewrite E in HI. contradiction.
    - simpl in HI. pose proof (chars_crlf_words r) as C. rewrite Forall_forall in C.
      destruct (C w HI) as [|E]; unfold any_kind; auto. subst. right. right. right. repeat constructor.
  Qed.

  Lemma cut_nohmm_kind fr total force s w :
    In w (fst (cut num H NoHMM fr total force s)) ->
    is_word (sget fr) w \/ length w = 1 \/ no_han w.
  Proof.
    rewrite cut_runs_accurate by reflexivity. intros HI. apply gfor_In in HI.
    destruct HI as [[b r] [HR HI]]. simpl in HI. destruct b.
    - simpl in HI. destruct (calc num fr total r (get_DAG fr r)) as [route|e] eqn:E.
      + rewrite (cut_nohmm_block_eq num fr total r E) in HI. simpl in HI.
        assert (W : Forall (fun w => is_word (sget fr) w \/ length w = 1) (route_words (S (length r)) r route 0)).
        { eapply walk_words. apply (route_words_walk (fr := fr)); [eapply calc_ok; eauto|lia|lia]. }
        pose proof (merged_words (fun w => is_word (sget fr) w \/ length w = 1 \/ no_han w)
           (merge_eng_merged _) W) as MW. cbn beta in MW.
        rewrite Forall_forall in MW. apply MW; auto.
        * tauto.
        * intros g NE FA. right. right. unfold no_han. apply concat_singles_alnum in FA.
          eapply Forall_impl; [|exact FA]. intros c A.
          unfold is_alnum, is_digit09, is_lower, is_upper, han_char, in_range in *.
          destruct (N.leb_spec 0x4E00 c); auto.
          exfalso. rewrite !orb_true_iff, !andb_true_iff, !N.leb_le in A. lia.
      + unfold cut_nohmm_block in HI. rewrite E in HI. contradiction.
    - simpl in HI. pose proof (chars_crlf_words r) as C. rewrite Forall_forall in C.
      destruct (C w HI) as [|E]; auto. subst. right. right. repeat constructor.
  Qed.

  Lemma cut_full_kind fr total force s w :
    In w (fst (cut num H Full fr total force s)) ->
    is_word (sget fr) w \/ length w = 1 \/ starts_alnum w \/ no_han w.
  Proof.
    intros HI. apply cut_full_sound in HI. destruct HI as [[r [_ FP]]|[r [HR [SB _]]]].
    - inversion FP; subst; auto. right. right. left.
      destruct ws as [|v ws]; [congruence|]. inversion H1; subst. destruct H4 as [SA _].
      destruct v; simpl in *; [contradiction|auto].
    - right. right. right. apply runs_class in HR. destruct HR as [_ FR].
      destruct SB as [k [a [b [-> _]]]]. apply Forall_app in FR. destruct FR as [_ FR]. apply Forall_app in FR.
      destruct FR as [FR _]. eapply Forall_impl; [|exact FR]. intros c NW. unfold word_char in NW.
      destruct (han_char c); auto.
  Qed.
End Words.
