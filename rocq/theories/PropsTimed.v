(** * A half-consumed generator (C51) *)
From Coq Require Import Lia.
From Verif Require Import PyBase PyRegex PyNum InstQ ModelFinalseg ModelSeg ModelTimed SpecBase SpecSeg Demo
  ProofsBase ProofsRegex ProofsSplit ProofsDag ProofsFinalseg ProofsSeg ProofsDemo.

Section T.
  Variable num : Num.
  Variable H : hmm num.
  Variable D : nat -> moment.

  Definition tpartial (s : str) (g : tgen str) : Prop := forall n, partial_ok s (g n).
  Definition ttotal (s : str) (g : tgen str) : Prop := forall n, exists ws, g n = gof ws /\ partition s ws.

  Lemma total_partial s g : ttotal s g -> tpartial s g.
  Proof.
    intros T n. destruct (T n) as [ws [-> P]]. exists s. split; [exact P|]. split; auto.
    exists []. now rewrite app_nil_r.
  Qed.

  Lemma tapp_total a b g h : ttotal a g -> ttotal b h -> ttotal (a ++ b) (tapp g h).
  Proof.
    intros A B n. destruct (A n) as [wa [EA PA]]. unfold tapp. rewrite EA. simpl.
    destruct (B (n + length wa)) as [wb [EB PB]]. rewrite EB. simpl.
    exists (wa ++ wb). split; [reflexivity|]. now apply partition_app.
  Qed.

  Lemma tapp_partial a b g h : tpartial a g -> tpartial b h -> tpartial (a ++ b) (tapp g h).
  Proof.
    intros A B n. unfold tapp. destruct (A n) as [u [P [PR N]]]. destruct (snd (g n)) as [x|] eqn:E.
    - exists u. split; [exact P|]. split.
      + destruct PR as [t ->]. exists (t ++ b). now rewrite app_assoc.
      + rewrite E. discriminate.
    - rewrite (N eq_refl) in P. destruct (B (n + length (fst (g n)))) as [v [Q [QR M]]].
      exists (a ++ v). split; [apply partition_app; auto|]. split.
      + destruct QR as [t ->]. exists t. now rewrite app_assoc.
      + simpl. intros E'. now rewrite M.
  Qed.

  Lemma tnil_total : ttotal [] (tpure gnil).
  Proof. intros n. exists []. split; [reflexivity|apply partition_nil]. Qed.

  Lemma tfor_total {A} (l : list A) (h : A -> str) (f : A -> tgen str) :
    (forall x, In x l -> ttotal (h x) (f x)) -> ttotal (concat (map h l)) (tfor l f).
  Proof.
    induction l as [|x l IH]; intros F; simpl; [apply tnil_total|].
    apply tapp_total; [apply F; left; auto|apply IH; intros; apply F; right; auto].
  Qed.

  Lemma tfor_partial {A} (l : list A) (h : A -> str) (f : A -> tgen str) :
    (forall x, In x l -> tpartial (h x) (f x)) -> tpartial (concat (map h l)) (tfor l f).
  Proof.
    induction l as [|x l IH]; intros F; simpl; [apply total_partial, tnil_total|].
    apply tapp_partial; [apply F; left; auto|apply IH; intros; apply F; right; auto].
  Qed.

  Lemma tcons_total w s g : w <> [] -> ttotal s g -> ttotal (w ++ s) (tcons w g).
  Proof.
    intros N T n. unfold tcons. destruct (T (S n)) as [ws [-> [P1 P2]]]. exists (w :: ws). split; [reflexivity|].
    split; [simpl; now rewrite P1|]. constructor; auto.
  Qed.

  Lemma t_word_total w : w <> [] -> ttotal w (t_word D w).
  Proof.
    intros N n. unfold t_word. destruct (negb _).
    - exists [w]. split; [reflexivity|]. split; simpl; [apply app_nil_r|]. constructor; auto.
    - exists (map (fun c => [c]) w). split; [reflexivity|apply partition_chars].
  Qed.

  Lemma t_fs_block_total blk : ttotal blk (t_fs_block num H D blk).
  Proof.
    intros n. unfold t_fs_block. destruct (re_matches fs_re_han blk) eqn:E.
    - assert (NE : blk <> []).
      { intros ->. unfold fs_re_han in E. rewrite re_matches_plus in E. discriminate. }
      destruct (@fs_cut_han_ok num H blk NE) as [ls [ws [EW [[P1 P2] _]]]]. rewrite EW. cbn [fst snd gof].
      rewrite <- (app_nil_r blk). apply tapp_total.
      + rewrite <- P1. rewrite <- (map_id ws) at 1. apply tfor_total. intros w W. apply t_word_total.
        rewrite Forall_forall in P2. auto.
      + apply tnil_total.
    - destruct (@fs_cut_block_ok num H [] blk) as [ws [E' P]]. unfold fs_cut_block in E'. rewrite E in E'.
      unfold tpure. eauto.
  Qed.

  Lemma t_cut_buf_total buf : buf <> [] -> ttotal buf (t_cut_buf num H D buf).
  Proof.
    intros N n. unfold t_cut_buf. destruct (length buf =? 1).
    - exists [buf]. split; [reflexivity|]. split; simpl; [apply app_nil_r|]. constructor; auto.
    - destruct (negb _).
      + unfold t_fs_cut. assert (T := @tfor_total _ (re_split fs_re_han buf) (fun x => x) (t_fs_block num H D)).
        rewrite map_id, re_split_concat in T. apply T. intros x _. apply t_fs_block_total.
      + exists (map (fun c => [c]) buf). split; [reflexivity|apply partition_chars].
  Qed.

  Definition t_flush (buf : str) : tgen str := match buf with [] => tpure gnil | _ => t_cut_buf num H D buf end.
  Lemma t_flush_total buf : ttotal buf (t_flush buf).
  Proof. destruct buf; [apply tnil_total|apply t_cut_buf_total; discriminate]. Qed.

  Lemma t_hmm_loop_total fr s (route : list (F num * nat)) fuel x buf :
    route_ok num fr s 0 route -> length s - x < fuel -> x <= length s ->
    ttotal (buf ++ skipn x s) (t_hmm_loop num H D fuel s route x buf).
  Proof.
    intros RO. revert x buf. induction fuel as [|fuel IH]; intros x buf L LX; [lia|].
    cbn [t_hmm_loop]. destruct (x <? length s) eqn:E.
    - apply Nat.ltb_lt in E. destruct (route_some RO E) as [r ER]. rewrite ER. cbv zeta.
      destruct (step_slice RO E ER) as [HI HR].
      assert (SK : skipn x s = slice s x (snd r + 1) ++ skipn (snd r + 1) s).
      { symmetry. apply slice_app_skipn. lia. }
      rewrite SK. destruct (snd r + 1 - x =? 1).
      + rewrite app_assoc. apply IH; lia.
      + apply tapp_total; [apply t_flush_total|]. apply tcons_total; [apply slice_nonempty; lia|].
        apply (IH (snd r + 1) []); lia.
    - apply Nat.ltb_ge in E. rewrite skipn_all2 by lia. rewrite app_nil_r. apply t_flush_total.
  Qed.

  Lemma t_block_partial m blk : is_full m = false -> tpartial blk (t_block num H D m blk).
  Proof.
    intros Hm n. unfold t_block. cbv zeta.
    assert (G : forall x, partial_ok blk (gerr x)).
    { intros x. exists []. split; [apply partition_nil|]. split; [now exists blk|discriminate]. }
    destruct (mo_check (D n)); [apply G|]. destruct m; try discriminate.
    - destruct (calc _ _ _ _ _) as [route|x] eqn:E; [|apply G].
      apply (total_partial _ (t_hmm_loop num H D (S (length blk)) blk route 0 [])).
      apply (t_hmm_loop_total (mo_freq (D n)) blk route (S (length blk)) 0 []); try lia. eapply calc_ok; eauto.
    - destruct (@cut_block_ok num H NoHMM (mo_freq (D n)) (mo_total (D n)) [] blk eq_refl) as [[x E]|[ws [E P]]];
        simpl in E; rewrite E; [apply G|].
      exists blk. split; [exact P|]. split; auto. exists []. now rewrite app_nil_r.
  Qed.

  Lemma t_block_total m blk : is_full m = false ->
    (forall n, mo_check (D n) = None /\ sane (sget (mo_freq (D n))) (mo_total (D n))) ->
    ttotal blk (t_block num H D m blk).
  Proof.
    intros Hm SA n. unfold t_block. cbv zeta. destruct (SA n) as [-> S]. destruct m; try discriminate.
    - destruct S as [T P]. destruct (calc_total num (mo_freq (D n)) (mo_total (D n)) blk T P) as [route E].
      rewrite E. apply (t_hmm_loop_total (mo_freq (D n)) blk route (S (length blk)) 0 []); try lia. eapply calc_ok; eauto.
    - apply (@cut_block_total num H NoHMM (mo_freq (D n)) (mo_total (D n)) [] blk eq_refl S).
  Qed.

  Lemma t_cut_partial m s : is_full m = false -> tpartial s (t_cut num H D m s).
  Proof.
    intros Hm. unfold t_cut.
    match goal with |- tpartial s (tfor _ ?f) =>
      assert (T := @tfor_partial _ (re_split re_han_default s) (fun x => x) f) end.
    rewrite map_id, re_split_concat in T. apply T. intros [|c x] _; [apply total_partial, tnil_total|].
    destruct (re_matches _ _); [now apply t_block_partial|].
    rewrite Hm, cut_other_false. apply total_partial. intros n. eexists. split; [reflexivity|].
    apply chars_crlf_partition.
  Qed.

  Lemma t_cut_total m s : is_full m = false ->
    (forall n, mo_check (D n) = None /\ sane (sget (mo_freq (D n))) (mo_total (D n))) -> ttotal s (t_cut num H D m s).
  Proof.
    intros Hm SA. unfold t_cut.
    match goal with |- ttotal s (tfor _ ?f) =>
      assert (T := @tfor_total _ (re_split re_han_default s) (fun x => x) f) end.
    rewrite map_id, re_split_concat in T. apply T. intros [|c x] _; [apply tnil_total|].
    destruct (re_matches _ _); [now apply t_block_total|].
    rewrite Hm, cut_other_false. intros n. eexists. split; [reflexivity|]. apply chars_crlf_partition.
  Qed.
End T.

(** Whatever the dictionary is at each moment between two calls of next(): the words
    yielded are not empty and their concatenation is the text, or a prefix of it if
    an exception ends the generator. *)
Theorem C51_lossless_under_updates :
  forall num (H : hmm num) (D : nat -> moment) (HMM : bool) (s : str),
    let g := t_cut num H D (mode_of false HMM) s 0 in
    ~ In [] (fst g) /\ prefix_of (concat (fst g)) s /\ (snd g = None -> concat (fst g) = s).
Proof.
  intros num H D HMM s g.
  destruct (t_cut_partial num H D (mode_of false HMM) s ltac:(now destruct HMM) 0) as [u [[P1 P2] [PR N]]].
  fold g in P1, P2, N. split; [|rewrite P1; auto].
  intros I. rewrite Forall_forall in P2. now apply (P2 [] I).
Qed.
Print Assumptions C51_lossless_under_updates.

(** If the total is positive and no frequency negative at every moment, and the
    tokenizer can be initialised, there is no exception. *)
Theorem C51_no_exception :
  forall num (H : hmm num) (D : nat -> moment) (HMM : bool) (s : str),
    (forall n, mo_check (D n) = None /\ sane (sget (mo_freq (D n))) (mo_total (D n))) ->
    exists ws, t_cut num H D (mode_of false HMM) s 0 = gof ws /\ concat ws = s.
Proof.
  intros num H D HMM s SA.
  destruct (t_cut_total num H D (mode_of false HMM) s ltac:(now destruct HMM) SA 0) as [ws [E [P _]]]. eauto.
Qed.
Print Assumptions C51_no_exception.

(** If nothing changes it is [cut]. *)
Theorem C51_no_updates :
  forall num (H : hmm num) (m : mode) fr total force s,
    t_cut num H (fun _ => mkMoment None fr total force) m s 0 = cut num H m fr total force s.
Proof.
  intros num H m fr total force s.
  assert (TF : forall A (l : list A) (f : A -> tgen str) (g : A -> gen str),
             (forall x n, f x n = g x) -> forall n, tfor l f n = gfor l g).
  { intros A l f g E. induction l as [|x l IH]; intros n; [reflexivity|]. simpl. unfold tapp, gapp. rewrite E.
    destruct (snd (g x)); [reflexivity|]. now rewrite IH. }
  assert (FS : forall buf n, t_fs_cut num H (fun _ => mkMoment None fr total force) buf n = fs_cut num H force buf).
  { intros buf n. unfold t_fs_cut, fs_cut. apply TF. intros x k. unfold t_fs_block, fs_cut_block.
    destruct (re_matches _ _); [|reflexivity]. unfold tapp, gbind, gapp.
    rewrite (TF _ _ _ (fun word => if negb (str_in word force) then gone word else gof (map (fun c => [c]) word)))
      by reflexivity. destruct (snd (gfor _ _)); reflexivity. }
  assert (CB : forall buf n, t_cut_buf num H (fun _ => mkMoment None fr total force) buf n = cut_buf num H fr force buf).
  { intros buf n. unfold t_cut_buf, cut_buf. simpl. rewrite FS. reflexivity. }
  assert (HL : forall fuel blk route x buf n,
             t_hmm_loop num H (fun _ => mkMoment None fr total force) fuel blk route x buf n
             = cut_hmm_loop num H fuel fr force blk route x buf).
  { induction fuel as [|fuel IH]; intros blk route x buf n; [reflexivity|]. cbn [t_hmm_loop cut_hmm_loop].
    destruct (x <? length blk); [|destruct buf; [reflexivity|apply CB]].
    destruct (nth_error route x) as [r|]; [|reflexivity]. cbv zeta.
    destruct (snd r + 1 - x =? 1); [apply IH|]. unfold tapp, gapp, tcons.
    destruct buf as [|c buf]; simpl.
    - now rewrite IH.
    - rewrite !CB. destruct (snd (cut_buf _ _ _ _ _)); [reflexivity|]. now rewrite IH. }
  unfold t_cut, cut. apply TF. intros [|c x] n; [reflexivity|]. destruct (re_matches _ _); [|reflexivity].
  unfold t_block. cbn [mo_check mo_freq mo_total]. cbv zeta. destruct m; try reflexivity.
  cbn [cut_block]. unfold cut_hmm_block.
  destruct (calc _ _ _ _ _); [|reflexivity]. apply HL.
Qed.
Print Assumptions C51_no_updates.

(** 来到北京大学生，… : after two words the dictionary loses 大学生 and the route of
    the block is kept; the next block would use the new dictionary *)
Definition updates (n : nat) : moment :=
  mkMoment None (if (n <? 2)%nat then demo_fr else [([c_lai], 1%Z)]) demo_total (if (n <? 2)%nat then [] else [[c_lai]]).
Example C51_nonvacuous :
  (forall n, mo_check (updates n) = None /\ sane (sget (mo_freq (updates n))) (mo_total (updates n))) /\
  t_cut numQ demo_hmm updates WithHMM (demo_text ++ demo_text) 0
    <> cut numQ demo_hmm WithHMM demo_fr demo_total [] (demo_text ++ demo_text).
Proof.
  split.
  - intros n. split; [reflexivity|]. unfold updates. simpl. destruct (n <? 2); apply saneb_ok; reflexivity.
  - vm_compute. discriminate.
Qed.
