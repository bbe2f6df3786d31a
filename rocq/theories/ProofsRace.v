(** * cut with every read at its own moment *)
From Coq Require Import Lia.
From Verif Require Import PyBase PyRegex PyNum ModelFinalseg ModelSeg ModelTimed ModelRace SpecBase SpecSeg
  ProofsBase ProofsRegex ProofsSplit ProofsDag ProofsFinalseg ProofsSeg.

Section R.
  Variable num : Num.
  Variable H : hmm num.
  Variable D : nat -> moment.

  (** ** Generators *)
  Definition cpartial (s : str) (g : cgen str) : Prop := forall n, partial_ok s (fst (g n)).
  Definition ctotal (s : str) (g : cgen str) : Prop :=
    forall n, exists ws n', g n = (gof ws, n') /\ partition s ws.

  Lemma ctotal_partial s g : ctotal s g -> cpartial s g.
  Proof.
    intros T n. destruct (T n) as [ws [n' [-> P]]]. exists s. split; [exact P|]. split; auto.
    exists []. now rewrite app_nil_r.
  Qed.
  Lemma capp_total a b g h : ctotal a g -> ctotal b h -> ctotal (a ++ b) (capp g h).
  Proof.
    intros A B n. destruct (A n) as [wa [n1 [EA PA]]]. unfold capp. rewrite EA. unfold gof at 1.
    destruct (B n1) as [wb [n2 [EB PB]]]. rewrite EB. simpl.
    exists (wa ++ wb), n2. split; [reflexivity|]. now apply partition_app.
  Qed.
  Lemma capp_partial a b g h : cpartial a g -> cpartial b h -> cpartial (a ++ b) (capp g h).
  Proof.
    intros A B n. unfold capp. destruct (A n) as [u [P [PR N]]]. destruct (g n) as [[wa [x|]] n1] eqn:E; cbn [fst snd] in *.
    - exists u. split; [exact P|]. split; [|discriminate]. destruct PR as [t ->]. exists (t ++ b). now rewrite app_assoc.
    - rewrite (N eq_refl) in P. destruct (B n1) as [v [Q [QR M]]]. destruct (h n1) as [gb n2]. cbn [fst snd] in *.
      exists (a ++ v). split; [apply partition_app; auto|]. split.
      + destruct QR as [t ->]. exists t. now rewrite app_assoc.
      + intros E'. now rewrite M.
  Qed.
  Lemma cnil_total : ctotal [] (cpure gnil).
  Proof. intros n. exists [], n. split; [reflexivity|apply partition_nil]. Qed.
  Lemma cfor_total {A} (l : list A) (h : A -> str) (f : A -> cgen str) :
    (forall x, In x l -> ctotal (h x) (f x)) -> ctotal (concat (map h l)) (cfor l f).
  Proof.
    induction l as [|x l IH]; intros F; simpl; [apply cnil_total|].
    apply capp_total; [apply F; left; auto|apply IH; intros; apply F; right; auto].
  Qed.
  Lemma cfor_partial {A} (l : list A) (h : A -> str) (f : A -> cgen str) :
    (forall x, In x l -> cpartial (h x) (f x)) -> cpartial (concat (map h l)) (cfor l f).
  Proof.
    induction l as [|x l IH]; intros F; simpl; [apply ctotal_partial, cnil_total|].
    apply capp_partial; [apply F; left; auto|apply IH; intros; apply F; right; auto].
  Qed.
  Lemma ccons_total w s g : w <> [] -> ctotal s g -> ctotal (w ++ s) (ccons w g).
  Proof.
    intros N T n. unfold ccons. destruct (T n) as [ws [n' [-> [P1 P2]]]]. exists (w :: ws), n'. split; [reflexivity|].
    split; [simpl; now rewrite P1|]. constructor; auto.
  Qed.

  (** ** The HMM stage *)
  Lemma r_word_total w : w <> [] -> ctotal w (r_word D w).
  Proof.
    intros N n. unfold r_word. destruct (negb _).
    - exists [w], (S n). split; [reflexivity|]. split; simpl; [apply app_nil_r|]. constructor; auto.
    - exists (map (fun c => [c]) w), (S n). split; [reflexivity|apply partition_chars].
  Qed.
  Lemma r_fs_block_total blk : ctotal blk (r_fs_block num H D blk).
  Proof.
    unfold r_fs_block. destruct (re_matches fs_re_han blk) eqn:E.
    - assert (NE : blk <> []).
      { intros ->. unfold fs_re_han in E. rewrite re_matches_plus in E. discriminate. }
      destruct (@fs_cut_han_ok num H blk NE) as [ls [ws [EW [[P1 P2] _]]]]. rewrite EW. cbn [fst snd gof].
      rewrite <- (app_nil_r blk). apply capp_total.
      + rewrite <- P1. rewrite <- (map_id ws) at 1. apply cfor_total. intros w W. apply r_word_total.
        rewrite Forall_forall in P2. auto.
      + apply cnil_total.
    - intros n. destruct (@fs_cut_block_ok num H [] blk) as [ws [E' P]]. unfold fs_cut_block in E'. rewrite E in E'.
      unfold cpure. rewrite E'. eauto.
  Qed.
  Lemma r_cut_buf_total buf : buf <> [] -> ctotal buf (r_cut_buf num H D buf).
  Proof.
    intros N n. unfold r_cut_buf. destruct (length buf =? 1).
    - exists [buf], n. split; [reflexivity|]. split; simpl; [apply app_nil_r|]. constructor; auto.
    - destruct (negb _).
      + unfold r_fs_cut. assert (T := @cfor_total _ (re_split fs_re_han buf) (fun x => x) (r_fs_block num H D)).
        rewrite map_id, re_split_concat in T. apply T. intros x _. apply r_fs_block_total.
      + exists (map (fun c => [c]) buf), (S n). split; [reflexivity|apply partition_chars].
  Qed.
  Definition r_flush (buf : str) : cgen str := match buf with [] => cpure gnil | _ => r_cut_buf num H D buf end.
  Lemma r_flush_total buf : ctotal buf (r_flush buf).
  Proof. destruct buf; [apply cnil_total|apply r_cut_buf_total; discriminate]. Qed.

  (** ** The word graph *)
  (** [w] was in the dictionary with a frequency at some read *)
  Definition seen (w : str) : Prop := exists n z, sget (mo_freq (D n)) w = Some z /\ z <> 0%Z.

  Definition edge_ok (s : str) (k x : nat) : Prop :=
    k <= x < length s /\ (x = k \/ seen (slice s k (x + 1))).
  Definition dag_fine (s : str) (dag : list (list nat)) : Prop :=
    forall k, k < length s -> exists L, nth_error dag k = Some L /\ L <> [] /\ Forall (edge_ok s k) L.

  Lemma r_dag_scan_ok fuel s k i tmp n L n' :
    k <= i -> r_dag_scan D fuel s k i (slice s k (i + 1)) tmp n = (Ok L, n') ->
    Forall (edge_ok s k) tmp -> Forall (edge_ok s k) L.
  Proof.
    revert i tmp n. induction fuel as [|fuel IH]; intros i tmp n LK; cbn [r_dag_scan].
    - unfold rd_ret. intros E F. inversion E; subst. auto.
    - destruct (i <? length s) eqn:EI; [|unfold rd_ret; intros E F; inversion E; subst; auto].
      apply Nat.ltb_lt in EI. unfold rd_bind, rd_read.
      destruct (smem (mo_freq (D n)) (slice s k (i + 1))); [|unfold rd_ret; intros E F; inversion E; subst; auto].
      destruct (sget (mo_freq (D (S n))) (slice s k (i + 1))) as [z|] eqn:G; [|intros E; discriminate E].
      intros E F. apply IH in E; auto; [lia|]. destruct (z =? 0)%Z eqn:Z0; [exact F|].
      apply Z.eqb_neq in Z0. apply Forall_app. split; auto. constructor; auto. split; [lia|]. right. exists (S n), z. auto.
  Qed.

  Lemma r_dag_at_ok s k n L n' :
    k < length s -> r_dag_at D s k n = (Ok L, n') -> L <> [] /\ Forall (edge_ok s k) L.
  Proof.
    intros LK. unfold r_dag_at, rd_bind, rd_ret.
    destruct (r_dag_scan D (S (length s)) s k k (slice s k (k + 1)) [] n) as [[t|e] n1] eqn:E; [|discriminate].
    intros Q. apply r_dag_scan_ok in E; auto. destruct t as [|x t]; inversion Q; subst.
    - split; [discriminate|]. constructor; auto. split; auto; lia.
    - split; [discriminate|auto].
  Qed.

  Lemma r_dag_loop_ok s ks n Ls n' :
    (forall k, In k ks -> k < length s) -> r_dag_loop D s ks n = (Ok Ls, n') ->
    Forall2 (fun k L => L <> [] /\ Forall (edge_ok s k) L) ks Ls.
  Proof.
    revert n Ls. induction ks as [|k ks IH]; intros n Ls B; cbn [r_dag_loop].
    - unfold rd_ret. intros E; inversion E; subst. constructor.
    - unfold rd_bind. destruct (r_dag_at D s k n) as [[L|e] n1] eqn:E; [|discriminate].
      destruct (r_dag_loop D s ks n1) as [[Ls'|e] n2] eqn:E2; [|discriminate].
      unfold rd_ret. intros Q; inversion Q; subst. constructor.
      + eapply r_dag_at_ok; eauto. apply B. left; auto.
      + eapply IH; eauto. intros; apply B; right; auto.
  Qed.

  Lemma Forall2_nth {A B} (P : A -> B -> Prop) l l' i a :
    Forall2 P l l' -> nth_error l i = Some a -> exists b, nth_error l' i = Some b /\ P a b.
  Proof.
    intros F. revert i. induction F as [|x y l l' PXY F IH]; intros [|i]; simpl; try discriminate.
    - intros E; inversion E; subst. eauto.
    - apply IH.
  Qed.

  Lemma r_get_DAG_ok s n dag n' : r_get_DAG D s n = (Ok dag, n') -> dag_fine s dag.
  Proof.
    unfold r_get_DAG, rd_bind, rd_read. destruct (mo_check (D n)); [discriminate|]. intros E k L.
    apply r_dag_loop_ok in E; [|intros k' I; apply in_seq in I; lia].
    apply (Forall2_nth _ _ _ k k E).
    rewrite nth_error_nth' with (d := 0) by (rewrite seq_length; auto). now rewrite seq_nth.
  Qed.

  (** ** The route *)
  Definition route_from (s : str) (dag : list (list nat)) (n : nat) (route : list (F num * nat)) : Prop :=
    length route = length s - n + 1 /\
    forall i r, n <= i < length s -> nth_error route (i - n) = Some r ->
      exists L, nth_error dag i = Some L /\ In (snd r) L.

  Lemma r_calc_cands_snd lt s idx route xs n cs n' :
    r_calc_cands num D lt s idx route xs n = (Ok cs, n') -> map snd cs = xs.
  Proof.
    revert n cs n'. induction xs as [|x xs IH]; intros n cs n'; cbn [r_calc_cands].
    - unfold rd_ret. intros E; inversion E; auto.
    - unfold rd_bind, rd_read, rd_lift. destruct (py_log num _) as [lw|e]; [|discriminate].
      destruct (nth_error route (x - idx)) as [r|]; [|discriminate].
      destruct (r_calc_cands num D lt s idx route xs (S n)) as [[cs'|e] n1] eqn:E; [|discriminate].
      unfold rd_ret. intros Q; inversion Q; subst. simpl. f_equal. eapply IH; eauto.
  Qed.

  Lemma r_calc_loop_ok lt s dag m route n route' n' :
    m <= length s -> route_from s dag m route ->
    r_calc_loop num D lt s dag m route n = (Ok route', n') -> route_from s dag 0 route'.
  Proof.
    revert route n. induction m as [|idx IH]; intros route n L RO; cbn [r_calc_loop].
    - unfold rd_ret. intros E; inversion E; subst. exact RO.
    - destruct (nth_error dag idx) as [xs|] eqn:ED; [|discriminate]. unfold rd_bind.
      destruct (r_calc_cands num D lt s idx route xs n) as [[cs|e] n1] eqn:EC; [|discriminate].
      unfold rd_lift. destruct (py_max (route_gt num) cs) as [r|] eqn:EM; [|discriminate].
      apply IH; [lia|]. destruct RO as [RL RI]. split; [simpl; rewrite RL; lia|].
      intros i r0 LI. destruct (Nat.eq_dec i idx) as [->|NE].
      + rewrite Nat.sub_diag. simpl. intros Q; inversion Q; subst r0. exists xs. split; auto.
        apply r_calc_cands_snd in EC. rewrite <- EC. apply in_map.
        unfold py_max in EM. destruct cs as [|c cs]; [discriminate|]. injection EM as <-. apply max_from_In.
      + replace (i - idx) with (S (i - S idx)) by lia. simpl. apply RI. lia.
  Qed.

  Lemma r_calc_ok s dag n route n' : r_calc num D s dag n = (Ok route, n') -> route_from s dag 0 route.
  Proof.
    unfold r_calc, rd_bind, rd_read, rd_lift. destruct (py_log num _) as [lt|e]; [|discriminate].
    apply r_calc_loop_ok; auto. split; [simpl; rewrite Nat.sub_diag; reflexivity|]. intros i r LI. lia.
  Qed.

  Definition route_fine (s : str) (route : list (F num * nat)) : Prop :=
    forall x, x < length s -> exists r, nth_error route x = Some r /\ edge_ok s x (snd r).
  Lemma route_is_fine s dag route : dag_fine s dag -> route_from s dag 0 route -> route_fine s route.
  Proof.
    intros DF [RL RI] x L. destruct (nth_error route x) as [r|] eqn:E.
    - exists r. split; auto. destruct (RI x r) as [K [N I]]; [lia|rewrite Nat.sub_0_r; auto|].
      destruct (DF x L) as [K' [N' [_ F]]]. rewrite N in N'. inversion N'; subst. rewrite Forall_forall in F. auto.
    - apply nth_error_None in E. lia.
  Qed.

  (** ** The loops *)
  Definition good_word (w : str) : Prop := length w = 1 \/ Forall (fun c => is_alnum c = true) w \/ seen w.

  Lemma nohmm_loop_total s route fuel x buf :
    route_fine s route -> length s - x < fuel -> x <= length s -> Forall (fun c => is_alnum c = true) buf ->
    exists ws, cut_nohmm_loop num fuel s route x buf = gof ws /\ partition (buf ++ skipn x s) ws /\ Forall good_word ws.
  Proof.
    intros RF. revert x buf. induction fuel as [|fuel IH]; intros x buf L LX AB; [lia|].
    assert (FL : exists ws, (match buf with [] => @gnil str | _ => @gone str buf end) = gof ws /\ partition buf ws
                            /\ Forall good_word ws).
    { destruct buf as [|c b].
      - exists []. split; [reflexivity|]. split; [apply partition_nil|constructor].
      - exists [c :: b]. split; [reflexivity|]. split.
        + split; simpl; [now rewrite app_nil_r|]. constructor; auto. discriminate.
        + constructor; auto. right. left. auto. }
    cbn [cut_nohmm_loop]. destruct (x <? length s) eqn:E.
    - apply Nat.ltb_lt in E. destruct (RF x E) as [r [-> [HR SN]]]. cbv zeta.
      assert (SK : skipn x s = slice s x (snd r + 1) ++ skipn (snd r + 1) s).
      { symmetry. apply slice_app_skipn. lia. }
      rewrite SK.
      change (eng_match (slice s x (snd r + 1)) && (length (slice s x (snd r + 1)) =? 1))
        with (eng1 (slice s x (snd r + 1))).
      destruct (eng1 (slice s x (snd r + 1))) eqn:EN.
      + rewrite app_assoc. apply IH; try lia. apply Forall_app. split; auto.
        rewrite eng1_eq in EN. destruct (slice s x (snd r + 1)) as [|c [|c' l]]; try discriminate. constructor; auto.
      + destruct FL as [wf [EF [PF GF]]]. rewrite EF.
        destruct (IH (snd r + 1) []) as [wr [ER [[P1 P2] GR]]]; try lia; [constructor|]. rewrite ER.
        exists (wf ++ slice s x (snd r + 1) :: wr). split; [reflexivity|]. split.
        * apply partition_app; auto. split; [simpl in *; now rewrite P1|]. constructor; auto. apply slice_nonempty; lia.
        * apply Forall_app. split; auto. constructor; auto. destruct SN as [EQ|SN]; [left|right; right; auto].
          rewrite slice_length by lia. lia.
    - apply Nat.ltb_ge in E. rewrite skipn_all2 by lia. rewrite app_nil_r. auto.
  Qed.

  Lemma hmm_loop_total s route fuel x buf :
    route_fine s route -> length s - x < fuel -> x <= length s ->
    ctotal (buf ++ skipn x s) (r_hmm_loop num H D fuel s route x buf).
  Proof.
    intros RF. revert x buf. induction fuel as [|fuel IH]; intros x buf L LX; [lia|].
    cbn [r_hmm_loop]. destruct (x <? length s) eqn:E.
    - apply Nat.ltb_lt in E. destruct (RF x E) as [r [-> [HR _]]]. cbv zeta.
      assert (SK : skipn x s = slice s x (snd r + 1) ++ skipn (snd r + 1) s).
      { symmetry. apply slice_app_skipn. lia. }
      rewrite SK. destruct (snd r + 1 - x =? 1).
      + rewrite app_assoc. apply IH; lia.
      + apply capp_total; [apply r_flush_total|]. apply ccons_total; [apply slice_nonempty; lia|].
        apply (IH (snd r + 1) []); lia.
    - apply Nat.ltb_ge in E. rewrite skipn_all2 by lia. rewrite app_nil_r. apply r_flush_total.
  Qed.

  (** ** Blocks *)
  Lemma gerr_partial s e : partial_ok s (gerr e).
  Proof. exists []. split; [apply partition_nil|]. split; [now exists s|discriminate]. Qed.

  Lemma r_block_partial m blk : is_full m = false -> cpartial blk (r_block num H D m blk).
  Proof.
    intros Hm n. unfold r_block, rd_gen. destruct (r_get_DAG D blk n) as [[dag|e] n1] eqn:E; [|apply gerr_partial].
    apply r_get_DAG_ok in E. destruct m; try discriminate.
    - destruct (r_calc num D blk dag n1) as [[route|e] n2] eqn:C; [|apply gerr_partial].
      apply r_calc_ok in C. apply (route_is_fine _ _ _ E) in C.
      apply ctotal_partial. apply (hmm_loop_total blk route (S (length blk)) 0 []); auto; lia.
    - destruct (r_calc num D blk dag n1) as [[route|e] n2] eqn:C; [|apply gerr_partial].
      apply r_calc_ok in C. apply (route_is_fine _ _ _ E) in C.
      destruct (nohmm_loop_total blk route (S (length blk)) 0 [] C) as [ws [EW [P _]]]; try lia; [constructor|].
      unfold cpure. rewrite EW. exists blk. split; [exact P|]. split; auto. exists []. now rewrite app_nil_r.
  Qed.

  Lemma r_cut_partial m s : is_full m = false -> cpartial s (r_cut num H D m s).
  Proof.
    intros Hm. unfold r_cut.
    match goal with |- cpartial s (cfor _ ?f) =>
      assert (T := @cfor_partial _ (re_split re_han_default s) (fun x => x) f) end.
    rewrite map_id, re_split_concat in T. apply T. intros [|c x] _; [apply ctotal_partial, cnil_total|].
    destruct (re_matches _ _); [now apply r_block_partial|].
    rewrite Hm, cut_other_false. apply ctotal_partial. intros n. eexists; eexists. split; [reflexivity|].
    apply chars_crlf_partition.
  Qed.

  (** ** No exception *)
  Hypothesis OK : forall n, mo_check (D n) = None /\ sane (sget (mo_freq (D n))) (mo_total (D n)).
  Hypothesis KEEP : forall n w, sget (mo_freq (D n)) w <> None -> sget (mo_freq (D (S n))) w <> None.

  Lemma r_dag_scan_some fuel s k i frag tmp n :
    exists L n', r_dag_scan D fuel s k i frag tmp n = (Ok L, n').
  Proof.
    revert i frag tmp n. induction fuel as [|fuel IH]; intros i frag tmp n; cbn [r_dag_scan]; [unfold rd_ret; eauto|].
    destruct (i <? length s); [|unfold rd_ret; eauto]. unfold rd_bind, rd_read.
    destruct (smem (mo_freq (D n)) frag) eqn:M; [|unfold rd_ret; eauto].
    rewrite smem_sget in M. destruct (sget (mo_freq (D (S n))) frag) eqn:G; [apply IH|].
    exfalso. apply (KEEP n frag); auto. intros Z. rewrite Z in M. discriminate.
  Qed.
  Lemma r_dag_loop_some s ks n : exists Ls n', r_dag_loop D s ks n = (Ok Ls, n').
  Proof.
    revert n. induction ks as [|k ks IH]; intros n; cbn [r_dag_loop]; [unfold rd_ret; eauto|].
    unfold rd_bind, r_dag_at, rd_bind.
    destruct (r_dag_scan_some (S (length s)) s k k (slice s k (k + 1)) [] n) as [L [n1 ->]]. unfold rd_ret.
    destruct (IH n1) as [Ls [n2 ->]]. eauto.
  Qed.
  Lemma r_get_DAG_some s n : exists dag n', r_get_DAG D s n = (Ok dag, n').
  Proof. unfold r_get_DAG, rd_bind, rd_read. destruct (OK n) as [-> _]. apply r_dag_loop_some. Qed.

  Lemma r_calc_cands_some lt s idx route xs n :
    length route = length s - S idx + 1 -> Forall (edge_ok s idx) xs ->
    exists cs n', r_calc_cands num D lt s idx route xs n = (Ok cs, n').
  Proof.
    intros RL F. revert n. induction F as [|x xs [LX _] F IH]; intros n; cbn [r_calc_cands]; [unfold rd_ret; eauto|].
    unfold rd_bind, rd_read, rd_lift, py_log. destruct (OK n) as [_ [_ P]].
    pose proof (@freq_or1_pos (mo_freq (D n)) (slice s idx (x + 1)) P) as PF.
    replace (freq_or1 (mo_freq (D n)) (slice s idx (x + 1)) <=? 0)%Z with false by (symmetry; apply Z.leb_gt; lia).
    destruct (nth_error route (x - idx)) as [r|] eqn:E.
    - destruct (IH (S n)) as [cs [n' ->]]. unfold rd_ret. eauto.
    - apply nth_error_None in E. lia.
  Qed.
  Lemma r_calc_loop_some lt s dag m route n :
    dag_fine s dag -> m <= length s -> length route = length s - m + 1 ->
    exists route' n', r_calc_loop num D lt s dag m route n = (Ok route', n').
  Proof.
    intros DF. revert route n. induction m as [|idx IH]; intros route n L RL; cbn [r_calc_loop]; [unfold rd_ret; eauto|].
    destruct (DF idx) as [xs [-> [NE F]]]; [lia|]. unfold rd_bind.
    destruct (r_calc_cands_some lt s idx route xs n RL F) as [cs [n1 EC]]. rewrite EC. unfold rd_lift.
    pose proof (r_calc_cands_snd _ _ _ _ _ _ _ _ EC) as ES. destruct cs as [|c cs]; [destruct xs; [contradiction|discriminate]|].
    cbn [py_max]. apply IH; [lia|]. simpl. lia.
  Qed.
  Lemma r_calc_some s dag n : dag_fine s dag -> exists route n', r_calc num D s dag n = (Ok route, n').
  Proof.
    intros DF. unfold r_calc, rd_bind, rd_read, rd_lift, py_log. destruct (OK n) as [_ [T _]].
    replace (mo_total (D n) <=? 0)%Z with false by (symmetry; apply Z.leb_gt; lia).
    apply r_calc_loop_some; auto. simpl. lia.
  Qed.

  Lemma r_block_total m blk : is_full m = false -> ctotal blk (r_block num H D m blk).
  Proof.
    intros Hm n. unfold r_block, rd_gen. destruct (r_get_DAG_some blk n) as [dag [n1 E]]. rewrite E.
    apply r_get_DAG_ok in E. destruct (r_calc_some blk dag n1 E) as [route [n2 C]].
    destruct m; try discriminate; rewrite C; apply r_calc_ok in C; apply (route_is_fine _ _ _ E) in C.
    - apply (hmm_loop_total blk route (S (length blk)) 0 []); auto; lia.
    - destruct (nohmm_loop_total blk route (S (length blk)) 0 [] C) as [ws [EW [P _]]]; try lia; [constructor|].
      unfold cpure. rewrite EW. eauto.
  Qed.
  Lemma r_cut_total m s : is_full m = false -> ctotal s (r_cut num H D m s).
  Proof.
    intros Hm. unfold r_cut.
    match goal with |- ctotal s (cfor _ ?f) =>
      assert (T := @cfor_total _ (re_split re_han_default s) (fun x => x) f) end.
    rewrite map_id, re_split_concat in T. apply T. intros [|c x] _; [apply cnil_total|].
    destruct (re_matches _ _); [now apply r_block_total|].
    rewrite Hm, cut_other_false. intros n. eexists; eexists. split; [reflexivity|]. apply chars_crlf_partition.
  Qed.

  Lemma cfor_ok {A} (l : list A) (f : A -> cgen str) :
    (forall x n, In x l -> snd (fst (f x n)) = None) -> forall n, snd (fst (cfor l f n)) = None.
  Proof.
    induction l as [|x l IH]; intros F n; [reflexivity|]. cbn [cfor]. unfold capp.
    pose proof (F x n (or_introl eq_refl)) as E. destruct (f x n) as [[ws [e|]] n1]; [discriminate E|].
    pose proof (IH (fun y k I => F y k (or_intror I)) n1) as E'. destruct (cfor l f n1) as [b n2]. exact E'.
  Qed.
  Lemma r_full_ok s n : snd (fst (r_cut num H D Full s n)) = None.
  Proof.
    unfold r_cut. apply cfor_ok. intros [|c x] k _; [reflexivity|].
    destruct (re_matches _ _).
    - unfold r_block, rd_gen. destruct (r_get_DAG_some (c :: x) k) as [dag [n1 ->]]. reflexivity.
    - unfold cpure, cut_other. cbn [fst is_full negb].
      assert (G : forall l, snd (gfor l (fun y : str => if re_matches re_skip_default y then gone y else gone y)) = None).
      { induction l as [|y l IH]; [reflexivity|]. cbn [gfor]. unfold gapp. destruct (re_matches _ _); exact IH. }
      apply G.
  Qed.
End R.

(** ** Every word given out was there at some moment *)
Lemma cfor_words (P : str -> Prop) {A} (l : list A) (f : A -> cgen str) :
  (forall x n, In x l -> Forall P (fst (fst (f x n)))) -> forall n, Forall P (fst (fst (cfor l f n))).
Proof.
  induction l as [|x l IH]; intros F n; [constructor|]. cbn [cfor]. unfold capp.
  pose proof (F x n (or_introl eq_refl)) as E. destruct (f x n) as [[ws [e|]] n1]; [exact E|].
  pose proof (IH (fun y k I => F y k (or_intror I)) n1) as E'. destruct (cfor l f n1) as [b n2].
  cbn [fst] in *. apply Forall_app. auto.
Qed.

Lemma chars_crlf_words s : Forall (fun w => length w = 1 \/ w = [13; 10]%N) (chars_crlf s).
Proof.
  remember (length s) as n eqn:E. assert (L : length s <= n) by lia. clear E.
  revert s L. induction n as [|n IH]; intros [|c s] L; simpl in L; try lia; try constructor.
  destruct s as [|d s]; [cbn [chars_crlf]; repeat constructor|].
  cbn [chars_crlf]. simpl in L. destruct ((c =? 13) && (d =? 10))%N eqn:E.
  - apply andb_true_iff in E. destruct E as [E1 E2]. apply N.eqb_eq in E1, E2. subst.
    constructor; [auto|apply IH; lia].
  - constructor; [auto|]. apply (IH (d :: s)). simpl. lia.
Qed.

Lemma r_nohmm_words num (H : hmm num) D s n :
  Forall (fun w => good_word D w \/ w = [13; 10]%N) (fst (fst (r_cut num H D NoHMM s n))).
Proof.
  unfold r_cut. apply cfor_words. intros [|c x] k _; [constructor|]. destruct (re_matches _ _).
  - unfold r_block, rd_gen. destruct (r_get_DAG D (c :: x) k) as [[dag|e] n1] eqn:E; [|constructor].
    apply r_get_DAG_ok in E. destruct (r_calc num D (c :: x) dag n1) as [[route|e] n2] eqn:C; [|constructor].
    apply r_calc_ok in C. apply (route_is_fine num D _ _ _ E) in C.
    destruct (nohmm_loop_total num D (c :: x) route (S (length (c :: x))) 0 [] C) as [ws [EW [_ G]]]; try lia; [constructor|].
    unfold cpure. rewrite EW. cbn [fst gof]. eapply Forall_impl; [|exact G]. auto.
  - cbn [is_full]. rewrite cut_other_false. unfold cpure. cbn [fst gof].
    eapply Forall_impl; [|apply chars_crlf_words]. intros w [W|W]; [left; left; auto|auto].
Qed.

(** ** A dictionary that does not change *)
Section Still.
  Variable num : Num.
  Variable H : hmm num.
  Variables (fr : freqs) (total : Z) (force : list str).
  Let D : nat -> moment := fun _ => mkMoment None fr total force.

  Lemma still_scan fuel s k i frag tmp n :
    fst (r_dag_scan D fuel s k i frag tmp n) = Ok (dag_scan fuel fr s k i frag tmp).
  Proof.
    revert i frag tmp n. induction fuel as [|fuel IH]; intros i frag tmp n; [reflexivity|]. cbn [r_dag_scan dag_scan].
    destruct (i <? length s); [|reflexivity]. unfold rd_bind, rd_read. cbn [D mo_freq andb].
    rewrite smem_sget. unfold freq_true. destruct (sget fr frag) as [z|]; [|reflexivity]. apply IH.
  Qed.
  Lemma still_at s k n : fst (r_dag_at D s k n) = Ok (dag_at fr s k).
  Proof.
    unfold r_dag_at, rd_bind, dag_at. pose proof (still_scan (S (length s)) s k k (slice s k (k + 1)) [] n) as E.
    destruct (r_dag_scan D (S (length s)) s k k (slice s k (k + 1)) [] n) as [[t|e] n1]; cbn [fst] in E; [|discriminate].
    inversion E. reflexivity.
  Qed.
  Lemma still_loop s ks n : fst (r_dag_loop D s ks n) = Ok (map (dag_at fr s) ks).
  Proof.
    revert n. induction ks as [|k ks IH]; intros n; [reflexivity|]. cbn [r_dag_loop map]. unfold rd_bind.
    pose proof (still_at s k n) as E. destruct (r_dag_at D s k n) as [[L|e] n1]; cbn [fst] in E; [|discriminate].
    inversion E. specialize (IH n1). destruct (r_dag_loop D s ks n1) as [[Ls|e] n2]; cbn [fst] in IH; [|discriminate].
    inversion IH. reflexivity.
  Qed.
  Lemma still_DAG s n : fst (r_get_DAG D s n) = Ok (get_DAG fr s).
  Proof. unfold r_get_DAG, rd_bind, rd_read. cbn [D mo_check]. apply still_loop. Qed.

  Lemma still_cands lt s idx route xs n :
    fst (r_calc_cands num D lt s idx route xs n) = calc_cands num fr lt s idx route xs.
  Proof.
    revert n. induction xs as [|x xs IH]; intros n; [reflexivity|]. cbn [r_calc_cands calc_cands].
    unfold rd_bind, rd_read, rd_lift. cbn [D mo_freq]. destruct (py_log num _) as [lw|e]; cbn [rbind]; [|reflexivity].
    destruct (nth_error route (x - idx)); [|reflexivity]. specialize (IH (S n)). rewrite <- IH.
    destruct (r_calc_cands num D lt s idx route xs (S n)) as [[cs|e] n1]; reflexivity.
  Qed.
  Lemma still_calc_loop lt s dag m route n :
    fst (r_calc_loop num D lt s dag m route n) = calc_loop num fr lt s dag m route.
  Proof.
    revert route n. induction m as [|idx IH]; intros route n; [reflexivity|]. cbn [r_calc_loop calc_loop].
    destruct (nth_error dag idx) as [xs|]; [|reflexivity]. unfold rd_bind.
    rewrite <- (still_cands lt s idx route xs n).
    destruct (r_calc_cands num D lt s idx route xs n) as [[cs|e] n1]; [|reflexivity].
    unfold rd_lift. cbn [fst rbind]. destruct (py_max (route_gt num) cs); [|reflexivity]. apply IH.
  Qed.
  Lemma still_calc s dag n : fst (r_calc num D s dag n) = calc num fr total s dag.
  Proof.
    unfold r_calc, calc, rd_bind, rd_read, rd_lift. cbn [D mo_total]. destruct (py_log num total); [|reflexivity].
    apply still_calc_loop.
  Qed.

  Lemma still_for {A} (l : list A) (f : A -> cgen str) (g : A -> gen str) :
    (forall x n, fst (f x n) = g x) -> forall n, fst (cfor l f n) = gfor l g.
  Proof.
    intros E. induction l as [|x l IH]; intros n; [reflexivity|]. cbn [cfor gfor]. unfold capp, gapp.
    pose proof (E x n) as EX. destruct (f x n) as [[ws [e|]] n1]; cbn [fst] in EX; rewrite <- EX; [reflexivity|].
    cbn [snd fst]. specialize (IH n1). destruct (cfor l f n1) as [b n2]. cbn [fst] in *. now rewrite <- IH.
  Qed.
  Lemma still_fs buf n : fst (r_fs_cut num H D buf n) = fs_cut num H force buf.
  Proof.
    unfold r_fs_cut, fs_cut. apply still_for. intros x k. unfold r_fs_block, fs_cut_block.
    destruct (re_matches _ _); [|reflexivity]. unfold capp, gbind, gapp.
    set (g := fun word : str => if negb (str_in word force) then gone word else gof (map (fun c => [c]) word)).
    assert (E : fst (cfor (fst (fs_cut_han H x)) (r_word D) k) = gfor (fst (fs_cut_han H x)) g)
      by (apply still_for; reflexivity).
    rewrite <- E. destruct (cfor (fst (fs_cut_han H x)) (r_word D) k) as [[ws [e|]] n1]; reflexivity.
  Qed.
  Lemma still_buf buf n : fst (r_cut_buf num H D buf n) = cut_buf num H fr force buf.
  Proof.
    unfold r_cut_buf, cut_buf. destruct (length buf =? 1); [reflexivity|]. cbn [D mo_freq].
    destruct (negb _); [apply still_fs|reflexivity].
  Qed.
  Lemma still_hmm fuel s route x buf n :
    fst (r_hmm_loop num H D fuel s route x buf n) = cut_hmm_loop num H fuel fr force s route x buf.
  Proof.
    revert x buf n. induction fuel as [|fuel IH]; intros x buf n; [reflexivity|]. cbn [r_hmm_loop cut_hmm_loop].
    destruct (x <? length s); [|destruct buf; [reflexivity|apply still_buf]].
    destruct (nth_error route x) as [r|]; [|reflexivity]. cbv zeta.
    destruct (snd r + 1 - x =? 1); [apply IH|]. unfold capp, ccons.
    assert (E : fst (match buf with [] => cpure gnil | _ :: _ => r_cut_buf num H D buf end n)
                = match buf with [] => gnil | _ => cut_buf num H fr force buf end).
    { destruct buf; [reflexivity|apply still_buf]. }
    rewrite <- E. destruct (match buf with [] => cpure gnil | _ :: _ => r_cut_buf num H D buf end n) as [[ws [e|]] n1];
      [reflexivity|]. unfold gapp. cbn [fst snd]. specialize (IH (snd r + 1) [] n1). rewrite <- IH.
    destruct (r_hmm_loop num H D fuel s route (snd r + 1) [] n1). reflexivity.
  Qed.

  Lemma still_cut m s n : fst (r_cut num H D m s n) = cut num H m fr total force s.
  Proof.
    unfold r_cut, cut. apply still_for. intros [|c x] k; [reflexivity|]. destruct (re_matches _ _); [|reflexivity].
    unfold r_block, rd_gen. pose proof (still_DAG (c :: x) k) as E.
    destruct (r_get_DAG D (c :: x) k) as [[dag|e] n1]; cbn [fst] in E; [|discriminate]. inversion E; subst dag.
    destruct m; cbn [cut_block]; [reflexivity| |].
    - unfold cut_hmm_block. rewrite <- (still_calc (c :: x) (get_DAG fr (c :: x)) n1).
      destruct (r_calc num D (c :: x) (get_DAG fr (c :: x)) n1) as [[route|e] n2]; [apply still_hmm|reflexivity].
    - unfold cut_nohmm_block. rewrite <- (still_calc (c :: x) (get_DAG fr (c :: x)) n1).
      destruct (r_calc num D (c :: x) (get_DAG fr (c :: x)) n1) as [[route|e] n2]; reflexivity.
  Qed.
End Still.

(** ** Only the reads that are made count *)
Section Local.
  Variable num : Num.
  Variable H : hmm num.
  Variables D D' : nat -> moment.

  (** [a] goes forward, and [a'] does the same if the reads that [a] makes find the same *)
  Definition local {A} (a a' : nat -> A * nat) : Prop :=
    forall n, n <= snd (a n) /\ ((forall k, n <= k < snd (a n) -> D k = D' k) -> a' n = a n).

  Lemma l_pure {A} (x : A) : local (fun n => (x, n)) (fun n => (x, n)).
  Proof. intros n. cbn. split; auto. Qed.
  Lemma l_read {A} (f : moment -> A) : local (rd_read D f) (rd_read D' f).
  Proof. intros n. unfold rd_read. cbn. split; [lia|]. intros E. rewrite (E n) by lia. reflexivity. Qed.
  Lemma l_bind {A B} (a a' : rd A) (f f' : A -> rd B) :
    local a a' -> (forall x, local (f x) (f' x)) -> local (rd_bind a f) (rd_bind a' f').
  Proof.
    intros LA LF n. unfold rd_bind. destruct (LA n) as [MA EA]. destruct (a n) as [[x|e] n1]; cbn [snd] in *.
    - destruct (LF x n1) as [MF EF]. split; [lia|]. intros E. rewrite EA by (intros; apply E; lia).
      apply EF. intros. apply E. lia.
    - split; [lia|]. intros E. rewrite EA by auto. reflexivity.
  Qed.
  Lemma l_gen {A B} (a a' : rd A) (f f' : A -> cgen B) :
    local a a' -> (forall x, local (f x) (f' x)) -> local (rd_gen a f) (rd_gen a' f').
  Proof.
    intros LA LF n. unfold rd_gen. destruct (LA n) as [MA EA]. destruct (a n) as [[x|e] n1]; cbn [snd] in *.
    - destruct (LF x n1) as [MF EF]. split; [lia|]. intros E. rewrite EA by (intros; apply E; lia).
      apply EF. intros. apply E. lia.
    - split; [lia|]. intros E. rewrite EA by auto. reflexivity.
  Qed.
  Lemma l_app {A} (g g' h h' : cgen A) : local g g' -> local h h' -> local (capp g h) (capp g' h').
  Proof.
    intros LG LH n. unfold capp. destruct (LG n) as [MG EG]. destruct (g n) as [[ws [e|]] n1]; cbn [snd] in *.
    - split; [lia|]. intros E. rewrite EG by auto. reflexivity.
    - destruct (LH n1) as [MH EH]. destruct (h n1) as [b n2]. cbn [snd] in *. split; [lia|]. intros E.
      rewrite EG by (intros; apply E; lia). rewrite EH by (intros; apply E; lia). reflexivity.
  Qed.
  Lemma l_cons {A} (x : A) (g g' : cgen A) : local g g' -> local (ccons x g) (ccons x g').
  Proof.
    intros LG n. unfold ccons. destruct (LG n) as [MG EG]. destruct (g n) as [b n1]. cbn [snd] in *. split; [auto|].
    intros E. rewrite EG by auto. reflexivity.
  Qed.
  Lemma l_for {A B} (l : list A) (f f' : A -> cgen B) : (forall x, local (f x) (f' x)) -> local (cfor l f) (cfor l f').
  Proof. intros F. induction l as [|x l IH]; [apply l_pure|]. apply l_app; auto. Qed.

  Lemma l_scan fuel s k i frag tmp : local (r_dag_scan D fuel s k i frag tmp) (r_dag_scan D' fuel s k i frag tmp).
  Proof.
    revert i frag tmp. induction fuel as [|fuel IH]; intros; cbn [r_dag_scan]; [apply l_pure|].
    destruct (i <? length s); [|apply l_pure]. apply l_bind; [apply l_read|]. intros [|]; [|apply l_pure].
    apply l_bind; [apply l_read|]. intros [z|]; [apply IH|apply l_pure].
  Qed.
  Lemma l_dag_loop s ks : local (r_dag_loop D s ks) (r_dag_loop D' s ks).
  Proof.
    induction ks as [|k ks IH]; cbn [r_dag_loop]; [apply l_pure|].
    apply l_bind; [apply l_bind; [apply l_scan|intros; apply l_pure]|]. intros L. apply l_bind; auto. intros; apply l_pure.
  Qed.
  Lemma l_dag s : local (r_get_DAG D s) (r_get_DAG D' s).
  Proof. apply l_bind; [apply l_read|]. intros [x|]; [apply l_pure|apply l_dag_loop]. Qed.
  Lemma l_cands lt s idx route xs : local (r_calc_cands num D lt s idx route xs) (r_calc_cands num D' lt s idx route xs).
  Proof.
    induction xs as [|x xs IH]; cbn [r_calc_cands]; [apply l_pure|]. apply l_bind; [apply l_read|]. intros z.
    apply l_bind; [apply l_pure|]. intros lw. destruct (nth_error route (x - idx)); [|apply l_pure].
    apply l_bind; auto. intros; apply l_pure.
  Qed.
  Lemma l_calc_loop lt s dag m route : local (r_calc_loop num D lt s dag m route) (r_calc_loop num D' lt s dag m route).
  Proof.
    revert route. induction m as [|m IH]; intros; cbn [r_calc_loop]; [apply l_pure|].
    destruct (nth_error dag m); [|apply l_pure]. apply l_bind; [apply l_cands|]. intros cs.
    apply l_bind; [apply l_pure|]. auto.
  Qed.
  Lemma l_calc s dag : local (r_calc num D s dag) (r_calc num D' s dag).
  Proof. apply l_bind; [apply l_read|]. intros t. apply l_bind; [apply l_pure|]. intros; apply l_calc_loop. Qed.
  Lemma l_word w : local (r_word D w) (r_word D' w).
  Proof. intros n. unfold r_word. cbn [snd]. split; [lia|]. intros E. rewrite (E n) by lia. reflexivity. Qed.
  Lemma l_fs_cut s : local (r_fs_cut num H D s) (r_fs_cut num H D' s).
  Proof.
    apply l_for. intros b. unfold r_fs_block. destruct (re_matches fs_re_han b); [|apply l_pure].
    apply l_app; [apply l_for, l_word|apply l_pure].
  Qed.
  Lemma l_buf buf : local (r_flush num H D buf) (r_flush num H D' buf).
  Proof.
    destruct buf as [|c b]; [apply l_pure|]. cbn [r_flush]. intros n. unfold r_cut_buf.
    destruct (length (c :: b) =? 1); [cbn; split; auto|]. destruct (negb (freq_true (mo_freq (D n)) (c :: b))) eqn:F.
    - destruct (l_fs_cut (c :: b) (S n)) as [M E]. split; [lia|]. intros A. rewrite <- (A n), F by lia.
      apply E. intros. apply A. lia.
    - cbn [snd]. split; [lia|]. intros A. rewrite <- (A n), F by lia. reflexivity.
  Qed.
  Lemma l_hmm_loop fuel s route x buf : local (r_hmm_loop num H D fuel s route x buf) (r_hmm_loop num H D' fuel s route x buf).
  Proof.
    revert x buf. induction fuel as [|fuel IH]; intros; cbn [r_hmm_loop]; [apply l_pure|].
    destruct (x <? length s); [|apply l_buf]. destruct (nth_error route x) as [r|]; [|apply l_pure].
    destruct (snd r + 1 - x =? 1); [apply IH|]. apply l_app; [apply l_buf|]. apply l_cons, IH.
  Qed.
  Lemma l_cut m s : local (r_cut num H D m s) (r_cut num H D' m s).
  Proof.
    apply l_for. intros [|c b]; [apply l_pure|]. destruct (re_matches re_han_default (c :: b)); [|apply l_pure].
    unfold r_block. apply l_gen; [apply l_dag|]. intros dag. destruct m; [apply l_pure| |].
    - apply l_gen; [apply l_calc|]. intros route. apply l_hmm_loop.
    - apply l_gen; [apply l_calc|]. intros route. apply l_pure.
  Qed.
End Local.
