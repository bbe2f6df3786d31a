(** * Accurate mode: the two cutters *)
From Verif Require Import PyBase PyRegex PyNum ModelFinalseg ModelSeg SpecBase SpecSeg
  ProofsBase ProofsRegex ProofsSplit ProofsDag ProofsFinalseg.
Set Implicit Arguments.

Lemma eng_match_eq w : eng_match w = match w with c :: _ => is_alnum c | [] => false end.
Proof.
  unfold eng_match, re_matches, re_match, re_eng. simpl.
  destruct w as [|c w]; simpl; auto. destruct (is_alnum c); reflexivity.
Qed.

Definition eng1 (w : str) : bool := eng_match w && (length w =? 1).

Lemma eng1_eq w : eng1 w = match w with [c] => is_alnum c | _ => false end.
Proof.
  unfold eng1. rewrite eng_match_eq. destruct w as [|c [|d w]]; simpl; auto.
  - apply andb_true_r.
  - apply andb_false_r.
Qed.

(** ** The words along a route *)

Section Walk.
  Context {S0 : Type}.   (* scores *)

  Fixpoint route_words (fuel : nat) (s : str) (route : list (S0 * nat)) (x : nat) : list str :=
    match fuel with
    | O => []
    | S fuel' =>
        if (x <? length s)%nat then
          match nth_error route x with
          | None => []
          | Some r => slice s x (snd r + 1) :: route_words fuel' s route (snd r + 1)
          end
        else []
    end.

  (** a word of a route: what the graph offers at [x] *)
  Definition step_ok (fr : freqs) (s : str) (x : nat) (w : str) : Prop :=
    exists j, In j (dag_at fr s x) /\ w = slice s x (j + 1).
End Walk.

(** [ws] is a walk through the word graph of [s] from [x] to the end *)
Fixpoint walk (fr : freqs) (s : str) (x : nat) (ws : list str) : Prop :=
  match ws with
  | [] => x = length s
  | w :: ws' => x < length s /\ step_ok fr s x w /\ walk fr s (x + length w) ws'
  end.

(** joining the words that are single letters or digits *)
Definition flush (buf : str) : list str := match buf with [] => [] | _ => [buf] end.
Fixpoint merge_eng (buf : str) (ws : list str) : list str :=
  match ws with
  | [] => flush buf
  | w :: ws' =>
      if eng1 w then merge_eng (buf ++ w) ws' else flush buf ++ w :: merge_eng [] ws'
  end.

Section Seg.
  Variable num : Num.
  Variable H : hmm num.

  (** sending the maximal groups of single-character words to the HMM stage *)
  Definition flush_hmm (fr : freqs) (force : list str) (buf : str) : gen str :=
    match buf with [] => gnil | _ => cut_buf num H fr force buf end.
  Fixpoint group_hmm (fr : freqs) (force : list str) (buf : str) (ws : list str) : gen str :=
    match ws with
    | [] => flush_hmm fr force buf
    | w :: ws' =>
        if (length w =? 1) then group_hmm fr force (buf ++ w) ws'
        else gapp (flush_hmm fr force buf) (gcons w (group_hmm fr force [] ws'))
    end.

  Lemma step_slice fr s (route : list (F num * nat)) x r :
    route_ok num fr s 0 route -> x < length s -> nth_error route x = Some r ->
    In (snd r) (dag_at fr s x) /\ x <= snd r < length s.
  Proof.
    intros [RL RI] L E. assert (In (snd r) (dag_at fr s x)) as HI.
    { apply RI; [lia|]. rewrite Nat.sub_0_r. auto. }
    split; auto. apply dag_at_range in HI; auto.
  Qed.

  Lemma route_some (route : list (F num * nat)) fr s x :
    route_ok num fr s 0 route -> x < length s -> exists r, nth_error route x = Some r.
  Proof.
    intros [RL _] L. destruct (nth_error route x) eqn:E; eauto.
    apply nth_error_None in E. lia.
  Qed.

  Lemma route_words_walk fr s (route : list (F num * nat)) fuel x :
    route_ok num fr s 0 route -> length s - x < fuel -> x <= length s ->
    walk fr s x (route_words fuel s route x).
  Proof.
    intros RO. revert x. induction fuel as [|fuel IH]; intros x L LX; [lia|].
    cbn [route_words]. destruct (x <? length s) eqn:E.
    - apply Nat.ltb_lt in E. destruct (route_some RO E) as [r ER]. rewrite ER.
      destruct (step_slice RO E ER) as [HI HR]. cbn [walk].
      rewrite slice_length by lia. split; auto. split.
      + exists (snd r). auto.
      + replace (x + (snd r + 1 - x)) with (snd r + 1) by lia. apply IH; lia.
    - apply Nat.ltb_ge in E. simpl. lia.
  Qed.

  Lemma cut_nohmm_loop_eq fr s route fuel x buf :
    route_ok num fr s 0 route -> length s - x < fuel -> x <= length s ->
    cut_nohmm_loop num fuel s route x buf = gof (merge_eng buf (route_words fuel s route x)).
  Proof.
    intros RO. revert x buf. induction fuel as [|fuel IH]; intros x buf L LX; [lia|].
    cbn [route_words cut_nohmm_loop]. destruct (x <? length s) eqn:E.
    - apply Nat.ltb_lt in E. destruct (route_some RO E) as [r ER]. rewrite ER.
      destruct (step_slice RO E ER) as [HI HR]. cbn [merge_eng].
      fold (eng1 (slice s x (snd r + 1))).
      destruct (eng1 (slice s x (snd r + 1))).
      + apply IH; lia.
      + rewrite IH by lia. destruct buf; reflexivity.
    - destruct buf; reflexivity.
  Qed.

  Lemma cut_hmm_loop_eq fr force s route fuel x buf :
    route_ok num fr s 0 route -> length s - x < fuel -> x <= length s ->
    cut_hmm_loop num H fuel fr force s route x buf
    = group_hmm fr force buf (route_words fuel s route x).
  Proof.
    intros RO. revert x buf. induction fuel as [|fuel IH]; intros x buf L LX; [lia|].
    cbn [route_words cut_hmm_loop]. destruct (x <? length s) eqn:E.
    - apply Nat.ltb_lt in E. destruct (route_some RO E) as [r ER]. rewrite ER.
      destruct (step_slice RO E ER) as [HI HR]. cbn [group_hmm].
      rewrite slice_length by lia.
      destruct (snd r + 1 - x =? 1).
      + apply IH; lia.
      + rewrite IH by lia. reflexivity.
    - reflexivity.
  Qed.

  (** ** Losslessness of the pieces *)

  Lemma walk_partition fr s x ws :
    walk fr s x ws -> x <= length s -> partition (skipn x s) ws.
  Proof.
    revert x. induction ws as [|w ws IH]; intros x W L; simpl in W.
    - subst x. rewrite skipn_all. apply partition_nil.
    - destruct W as [L1 [[j [HI ->]] W]]. apply dag_at_range in HI; auto.
      rewrite slice_length in W by lia.
      replace (x + (j + 1 - x)) with (j + 1) in W by lia.
      apply IH in W; [|lia]. destruct W as [W1 W2]. split.
      + simpl. rewrite W1. apply slice_app_skipn. lia.
      + constructor; auto. apply slice_nonempty; lia.
  Qed.

  Lemma flush_partition buf : partition buf (flush buf).
  Proof.
    destruct buf; split; simpl; auto.
    - rewrite app_nil_r. auto.
    - constructor; auto. discriminate.
  Qed.

  Lemma merge_eng_partition buf ws s :
    partition s ws -> partition (buf ++ s) (merge_eng buf ws).
  Proof.
    intros [<- P]. revert buf. induction ws as [|w ws IH]; intros buf; simpl.
    - rewrite app_nil_r. apply flush_partition.
    - inversion P; subst. destruct (eng1 w).
      + rewrite app_assoc. auto.
      + apply partition_app; [apply flush_partition|].
        destruct (IH H3 []) as [I1 I2]. split; simpl.
        * simpl in I1. rewrite I1. auto.
        * constructor; auto.
  Qed.

  Lemma cut_buf_ok fr force buf :
    buf <> [] -> exists ws, cut_buf num H fr force buf = gof ws /\ partition buf ws.
  Proof.
    intros NE. unfold cut_buf. destruct (length buf =? 1).
    - exists [buf]. split; auto. split; simpl; [apply app_nil_r|]. constructor; auto.
    - destruct (negb (freq_true fr buf)).
      + apply fs_cut_ok.
      + exists (map (fun c => [c]) buf). split; auto. apply partition_chars.
  Qed.

  Lemma flush_hmm_ok fr force buf : exists ws, flush_hmm fr force buf = gof ws /\ partition buf ws.
  Proof.
    destruct buf as [|c buf]; simpl.
    - exists []. split; auto using partition_nil.
    - apply cut_buf_ok. discriminate.
  Qed.

  Lemma group_hmm_ok fr force buf ws s :
    partition s ws ->
    exists ws', group_hmm fr force buf ws = gof ws' /\ partition (buf ++ s) ws'.
  Proof.
    intros [<- P]. revert buf. induction ws as [|w ws IH]; intros buf; simpl.
    - rewrite app_nil_r. apply flush_hmm_ok.
    - inversion P as [|? ? NE P']; subst. destruct (length w =? 1).
      + rewrite app_assoc. auto.
      + destruct (flush_hmm_ok fr force buf) as [wf [EF PF]].
        destruct (IH P' []) as [wr [ER PR]]. rewrite EF, ER.
        exists (wf ++ w :: wr). split; [reflexivity|].
        apply partition_app; auto. destruct PR as [PR1 PR2]. split; simpl.
        * simpl in PR1. rewrite PR1. auto.
        * constructor; auto.
  Qed.

  (** ** Blocks *)

  Lemma cut_nohmm_block_eq fr total blk route :
    calc num fr total blk (get_DAG fr blk) = Ok route ->
    cut_nohmm_block num fr total blk =
    gof (merge_eng [] (route_words (S (length blk)) blk route 0)).
  Proof.
    intros E. unfold cut_nohmm_block. rewrite E. apply cut_nohmm_loop_eq with (fr := fr); try lia.
    eapply calc_ok; eauto.
  Qed.

  Lemma cut_hmm_block_eq fr total force blk route :
    calc num fr total blk (get_DAG fr blk) = Ok route ->
    cut_hmm_block num H fr total force blk =
    group_hmm fr force [] (route_words (S (length blk)) blk route 0).
  Proof.
    intros E. unfold cut_hmm_block. rewrite E. apply cut_hmm_loop_eq; try lia.
    eapply calc_ok; eauto.
  Qed.

  Lemma cut_block_ok m fr total force blk :
    is_full m = false ->
    (exists e, cut_block num H m fr total force blk = gerr e) \/
    (exists ws, cut_block num H m fr total force blk = gof ws /\ partition blk ws).
  Proof.
    intros Hm. destruct (calc num fr total blk (get_DAG fr blk)) as [route|e] eqn:E.
    - right. pose proof (calc_ok _ _ _ _ _ E) as RO.
      assert (P : partition blk (route_words (S (length blk)) blk route 0)).
      { rewrite <- (skipn_O blk) at 1. eapply walk_partition; [|lia].
        apply (route_words_walk (fr := fr)); [exact RO|lia|lia]. }
      destruct m; try discriminate; simpl.
      + rewrite (cut_hmm_block_eq _ _ _ _ E). apply (@group_hmm_ok fr force []). auto.
      + rewrite (cut_nohmm_block_eq _ _ _ E).
        exists (merge_eng [] (route_words (S (length blk)) blk route 0)). split; auto.
        apply (@merge_eng_partition []). auto.
    - left. exists e. destruct m; try discriminate; simpl.
      + unfold cut_hmm_block. rewrite E. reflexivity.
      + unfold cut_nohmm_block. rewrite E. reflexivity.
  Qed.

  Lemma cut_block_total m fr total force blk :
    is_full m = false -> sane (sget fr) total ->
    exists ws, cut_block num H m fr total force blk = gof ws /\ partition blk ws.
  Proof.
    intros Hm [T P]. destruct (@cut_block_ok m fr total force blk Hm) as [[e E]|]; auto.
    exfalso. destruct (calc_total num fr total blk T P) as [route ER].
    destruct m; try discriminate; simpl in E.
    - unfold cut_hmm_block in E. rewrite ER in E.
      rewrite cut_hmm_loop_eq with (fr := fr) in E by (eauto using calc_ok; lia).
      destruct (@group_hmm_ok fr force [] (route_words (S (length blk)) blk route 0) (skipn 0 blk)) as [ws [EW _]].
      { eapply walk_partition; [|lia]. apply (route_words_walk (fr := fr)); [eapply calc_ok; eauto|lia|lia]. }
      rewrite EW in E. discriminate.
    - unfold cut_nohmm_block in E. rewrite ER in E.
      rewrite cut_nohmm_loop_eq with (fr := fr) in E by (eauto using calc_ok; lia). discriminate.
  Qed.

  (** ** Texts *)

  Lemma chars_crlf_partition s : partition s (chars_crlf s).
  Proof. destruct (chars_crlf_spec s). split; auto. Qed.

  Lemma cut_lossless m fr total force s :
    is_full m = false -> sane (sget fr) total ->
    exists ws, cut num H m fr total force s = gof ws /\ partition s ws.
  Proof.
    intros Hm SA. rewrite cut_runs_accurate by auto.
    destruct (@partition_gfor _ (runs word_char s) snd
      (fun br => if fst br then cut_block num H m fr total force (snd br)
                 else gof (chars_crlf (snd br)))) as [ws [E P]].
    - intros [b r] _. simpl. destruct b.
      + apply cut_block_total; auto.
      + exists (chars_crlf r). split; auto. apply chars_crlf_partition.
    - exists ws. rewrite runs_concat in P. auto.
  Qed.

  (** whatever the dictionary: the words yielded form a prefix of the text *)
  Definition partial_ok (s : str) (g : gen str) : Prop :=
    exists u, partition u (fst g) /\ prefix_of u s /\ (snd g = None -> u = s).

  Lemma partial_gfor {A} (l : list A) (h : A -> str) (f : A -> gen str) :
    (forall x, In x l -> partial_ok (h x) (f x)) -> partial_ok (concat (map h l)) (gfor l f).
  Proof.
    induction l as [|x l IH]; intros HF; simpl.
    - exists []. repeat split; simpl; auto. exists []. reflexivity.
    - destruct (HF x) as [u [P [PR N]]]; [left; auto|].
      destruct IH as [u' [P' [PR' N']]]; [intros; apply HF; right; auto|].
      unfold gapp. destruct (snd (f x)) as [e|] eqn:EX.
      + exists u. split; auto. split.
        * destruct PR as [t ->]. exists (t ++ concat (map h l)). rewrite app_assoc. auto.
        * rewrite EX. discriminate.
      + rewrite (N eq_refl) in P. exists (h x ++ u'). split; [|split].
        * simpl. apply partition_app; auto.
        * destruct PR' as [t ->]. exists t. rewrite app_assoc. auto.
        * simpl. intros E. rewrite N'; auto.
  Qed.

  Lemma cut_prefix m fr total force s :
    is_full m = false -> partial_ok s (cut num H m fr total force s).
  Proof.
    intros Hm. rewrite cut_runs_accurate by auto.
    rewrite <- (runs_concat word_char s) at 1. apply partial_gfor.
    intros [b r] _. simpl. destruct b.
    - destruct (@cut_block_ok m fr total force r Hm) as [[e ->]|[ws [-> P]]].
      + exists []. split; [apply partition_nil|]. split.
        * exists r. reflexivity.
        * discriminate.
      + exists r. split; [exact P|]. split; auto. exists []. rewrite app_nil_r. auto.
    - exists r. split; [apply chars_crlf_partition|]. split; auto.
      exists []. rewrite app_nil_r. auto.
  Qed.
End Seg.
