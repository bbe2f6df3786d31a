(** * C83: tagging while the dictionary changes *)
From Coq Require Import Lia.
From Verif Require ProofsWords.
From Verif Require Import PyBase PyRegex PyNum ModelFinalseg ModelSeg ModelTimed ModelDict ModelApi ModelPosseg
  ModelPosTimed SpecBase SpecSeg SpecNum SpecScore SpecHealth SpecPosseg SpecTagging InstExt InstQ
  ProofsBase ProofsRegex ProofsSplit ProofsDag ProofsFinalseg ProofsSeg ProofsPvit2 ProofsPosseg ProofsPosHmm2 ProofsExt
  PropsTimed PropsTimed2 PropsPosseg Demo ProofsDemo DemoPos.

(** ** Words of timed generators *)
Definition tw (g : tgen tagged) : tgen str := fun n => words_of (g n).

Lemma tw_app g h n : tw (tapp g h) n = tapp (tw g) (tw h) n.
Proof.
  unfold tw, tapp, words_of. cbn [fst snd]. destruct (snd (g n)) eqn:E; cbn [fst snd]; [now rewrite E|].
  now rewrite map_app, map_length.
Qed.
Lemma ttotal_ext s g h : (forall n, g n = h n) -> ttotal s g -> ttotal s h.
Proof. intros E T n. rewrite <- E. apply T. Qed.
Lemma tpartial_ext s g h : (forall n, g n = h n) -> tpartial s g -> tpartial s h.
Proof. intros E T n. rewrite <- E. apply T. Qed.
Lemma tw_app_total a b g h : ttotal a (tw g) -> ttotal b (tw h) -> ttotal (a ++ b) (tw (tapp g h)).
Proof. intros A B. eapply ttotal_ext; [intros n; symmetry; apply tw_app|]. now apply tapp_total. Qed.
Lemma tw_app_partial a b g h : tpartial a (tw g) -> tpartial b (tw h) -> tpartial (a ++ b) (tw (tapp g h)).
Proof. intros A B. eapply tpartial_ext; [intros n; symmetry; apply tw_app|]. now apply tapp_partial. Qed.
Lemma tw_nil_total : ttotal [] (tw (tpure gnil)).
Proof. exact tnil_total. Qed.
Lemma tw_for_total {A} (l : list A) (h : A -> str) (f : A -> tgen tagged) :
  (forall x, In x l -> ttotal (h x) (tw (f x))) -> ttotal (concat (map h l)) (tw (tfor l f)).
Proof.
  induction l as [|x l IH]; intros F; [apply tw_nil_total|]. cbn [tfor map concat].
  apply tw_app_total; [apply F; left; auto|apply IH; intros; apply F; right; auto].
Qed.
Lemma tw_for_partial {A} (l : list A) (h : A -> str) (f : A -> tgen tagged) :
  (forall x, In x l -> tpartial (h x) (tw (f x))) -> tpartial (concat (map h l)) (tw (tfor l f)).
Proof.
  induction l as [|x l IH]; intros F; [apply total_partial, tw_nil_total|]. cbn [tfor map concat].
  apply tw_app_partial; [apply F; left; auto|apply IH; intros; apply F; right; auto].
Qed.

(** ** What holds of every pair at its moment *)
Definition tall (Q : nat -> tagged -> Prop) (g : tgen tagged) : Prop :=
  forall n k p, nth_error (fst (g n)) k = Some p -> Q (n + k) p.
Lemma tall_app Q g h : tall Q g -> tall Q h -> tall Q (tapp g h).
Proof.
  intros A B n k p. unfold tapp. destruct (snd (g n)); [apply A|]. cbn [fst].
  destruct (lt_dec k (length (fst (g n)))) as [L|L].
  - rewrite nth_error_app1 by auto. apply A.
  - rewrite nth_error_app2 by lia. intros E. apply B in E. now replace (n + k) with (n + length (fst (g n)) + (k - length (fst (g n)))) by lia.
Qed.
Lemma tall_nil Q : tall Q (tpure gnil).
Proof. intros n [|k] p E; discriminate. Qed.
Lemma tall_err Q e : tall Q (tpure (gerr e)).
Proof. intros n [|k] p E; discriminate. Qed.
Lemma tall_for {A} Q (l : list A) f : (forall x, In x l -> tall Q (f x)) -> tall Q (tfor l f).
Proof.
  induction l as [|x l IH]; intros F; [apply tall_nil|]. cbn [tfor].
  apply tall_app; [apply F; left; auto|apply IH; intros; apply F; right; auto].
Qed.
Lemma tall_in (Q : nat -> tagged -> Prop) (g : gen tagged) : (forall n p, In p (fst g) -> Q n p) -> tall Q (tpure g).
Proof. intros A n k p E. apply A. eapply nth_error_In; eauto. Qed.

Section P.
  Variable num : Num.
  Variable NI : NumInf num.
  Variable T : ptables num.
  Variable ord : orders.
  Variable D : nat -> pmoment.

  Lemma tp_one_total w : w <> [] -> ttotal w (tw (tp_one D w)).
  Proof.
    intros N n. exists [w]. split; [reflexivity|]. split; [apply app_nil_r|]. constructor; auto.
  Qed.

  Lemma eng_total (buf : str) : ttotal buf (tw (tpure (match buf with [] => gnil | _ => gone (buf, tag_eng) end))).
  Proof.
    destruct buf as [|c buf]; [apply tw_nil_total|]. intros n. exists [c :: buf]. split; [reflexivity|].
    split; [apply app_nil_r|]. constructor; auto. discriminate.
  Qed.

  Section Tables.
    Hypothesis OK : tables_ok NI T.
    Hypothesis BM : bmes T.
    Hypothesis ST : one_tag T.
    Hypothesis FO : fair_order ord.

    Lemma tp_buf_total buf : buf <> [] -> i_lim NI (2 * length buf) -> ttotal buf (tw (tp_buf num T ord D buf)).
    Proof.
      intros N LIM n. unfold tw, tp_buf. destruct (length buf =? 1); [apply tp_one_total; auto|].
      destruct (negb _).
      - destruct (@detail_ok num NI T OK BM ST ord FO buf LIM) as [ws [E [_ P]]]. rewrite E. exists (map fst ws).
        split; auto.
      - assert (X := @tw_for_total char buf (fun c => [c]) (fun c => tp_one D [c])).
        assert (EB : concat (@map char str (fun c : char => [c]) buf) = buf)
          by (clear; induction buf; simpl; congruence).
        rewrite EB in X.
        refine (X _ n). intros c _. apply tp_one_total. discriminate.
    Qed.

    Lemma tp_flush_total buf : i_lim NI (2 * length buf) ->
      ttotal buf (tw (match buf with [] => tpure gnil | _ => tp_buf num T ord D buf end)).
    Proof. intros L. destruct buf; [apply tw_nil_total|apply tp_buf_total; auto; discriminate]. Qed.

    Lemma tp_hmm_loop_total fr s (route : list (F num * nat)) fuel x buf :
      route_ok num fr s 0 route -> length s - x < fuel -> x <= length s -> i_lim NI (2 * (length buf + (length s - x))) ->
      ttotal (buf ++ skipn x s) (tw (tp_hmm_loop num T ord D fuel s route x buf)).
    Proof.
      intros RO. revert x buf. induction fuel as [|fuel IH]; intros x buf L LX LIM; [lia|].
      cbn [tp_hmm_loop]. destruct (x <? length s) eqn:E.
      - apply Nat.ltb_lt in E. destruct (route_some RO E) as [r ER]. rewrite ER. cbv zeta.
        destruct (step_slice RO E ER) as [HI HR].
        assert (SK : skipn x s = slice s x (snd r + 1) ++ skipn (snd r + 1) s).
        { symmetry. apply slice_app_skipn. lia. }
        rewrite SK. destruct (snd r + 1 - x =? 1).
        + rewrite app_assoc. apply IH; try lia. eapply i_lim_down; [|exact LIM]. rewrite app_length, slice_length by lia. lia.
        + apply tw_app_total; [apply tp_flush_total; eapply i_lim_down; [|exact LIM]; lia|].
          apply tw_app_total; [apply tp_one_total, slice_nonempty; lia|].
          apply (IH (snd r + 1) []); try lia. eapply i_lim_down; [|exact LIM]. simpl. lia.
      - apply Nat.ltb_ge in E. rewrite skipn_all2 by lia. rewrite app_nil_r. apply tp_flush_total.
        eapply i_lim_down; [|exact LIM]. lia.
    Qed.
  End Tables.

  Lemma tp_nohmm_loop_total fr s (route : list (F num * nat)) fuel x buf :
    route_ok num fr s 0 route -> length s - x < fuel -> x <= length s ->
    ttotal (buf ++ skipn x s) (tw (tp_nohmm_loop num D fuel s route x buf)).
  Proof.
    intros RO. revert x buf. induction fuel as [|fuel IH]; intros x buf L LX; [lia|].
    cbn [tp_nohmm_loop]. destruct (x <? length s) eqn:E.
    - apply Nat.ltb_lt in E. destruct (route_some RO E) as [r ER]. rewrite ER. cbv zeta.
      destruct (step_slice RO E ER) as [HI HR].
      assert (SK : skipn x s = slice s x (snd r + 1) ++ skipn (snd r + 1) s).
      { symmetry. apply slice_app_skipn. lia. }
      rewrite SK. destruct (re_matches _ _).
      + rewrite app_assoc. apply IH; lia.
      + apply tw_app_total; [apply eng_total|].
        apply tw_app_total; [apply tp_one_total, slice_nonempty; lia|]. apply (IH (snd r + 1) []); lia.
    - apply Nat.ltb_ge in E. rewrite skipn_all2 by lia. rewrite app_nil_r. apply eng_total.
  Qed.
End P.

(** pieces of the text *)
Lemma ps_split_cases s blk : In blk (re_split ps_re_han_internal s) ->
  (length blk <= length s) /\
  (blk = [] \/ (re_matches ps_re_han_internal blk = true /\ Forall (fun c => pos_word_char c = true) blk) \/
   (re_matches ps_re_han_internal blk = false /\ Forall (fun c => pos_word_char c = false) blk)).
Proof.
  intros I. split; [apply substring_split in I; destruct I as (k & a & b & E & _); subst; rewrite !app_length; lia|].
  destruct blk as [|c blk]; auto. right.
  assert (I' : In (c :: blk) (filter nonempty (re_split ps_re_han_internal s))) by (apply filter_In; auto).
  unfold ps_re_han_internal in *. rewrite split_runs, (runs_ext _ _ s is_pos_char_ok) in I'.
  apply in_map_iff in I'. destruct I' as [[b r] [E HI]]. cbn [snd] in E. subst r.
  pose proof (runs_class pos_word_char s) as RC. rewrite Forall_forall in RC. destruct (RC _ HI) as [_ FA].
  cbn [fst snd] in FA. rewrite re_matches_plus, is_pos_char_ok. inversion FA as [|? ? FC _]; subst.
  destruct (pos_word_char c) eqn:E; auto.
Qed.

Section Q.
  Variable num : Num.
  Variable NI : NumInf num.
  Variable T : ptables num.
  Variable ord : orders.
  Hypothesis OK : tables_ok NI T.
  Hypothesis BM : bmes T.
  Hypothesis ST : one_tag T.
  Hypothesis FO : fair_order ord.
  Variable D : nat -> pmoment.

  Lemma err_partial blk e : partial_ok blk (words_of (gerr e)).
  Proof. exists []. split; [apply partition_nil|]. split; [now exists blk|discriminate]. Qed.

  Lemma tp_block_partial HMM blk : i_lim NI (2 * length blk) -> tpartial blk (tw (tp_block num T ord D HMM blk)).
  Proof.
    intros LIM n. unfold tw, tp_block. cbv zeta. destruct (pm_check (D n)); [apply err_partial|].
    destruct (calc _ _ _ _ _) as [route|x] eqn:E; [|apply err_partial].
    assert (RO : route_ok num (pm_freq (D n)) blk 0 route) by (eapply calc_ok; eauto).
    destruct HMM.
    - apply (total_partial _ (tw (tp_hmm_loop num T ord D (S (length blk)) blk route 0 []))).
      apply (tp_hmm_loop_total num NI T ord D OK BM ST FO (pm_freq (D n)) blk route (S (length blk)) 0 []); auto; try lia.
      eapply i_lim_down; [|exact LIM]. simpl. lia.
    - apply (total_partial _ (tw (tp_nohmm_loop num D (S (length blk)) blk route 0 []))).
      apply (tp_nohmm_loop_total num D (pm_freq (D n)) blk route (S (length blk)) 0 []); auto; lia.
  Qed.

  Lemma tp_block_total HMM blk : i_lim NI (2 * length blk) ->
    (forall n, pm_check (D n) = None /\ sane (sget (pm_freq (D n))) (pm_total (D n))) ->
    ttotal blk (tw (tp_block num T ord D HMM blk)).
  Proof.
    intros LIM SA n. unfold tw, tp_block. cbv zeta. destruct (SA n) as [-> [S P]].
    destruct (calc_total num (pm_freq (D n)) (pm_total (D n)) blk S P) as [route E]. rewrite E.
    assert (RO : route_ok num (pm_freq (D n)) blk 0 route) by (eapply calc_ok; eauto).
    destruct HMM.
    - apply (tp_hmm_loop_total num NI T ord D OK BM ST FO (pm_freq (D n)) blk route (Datatypes.S (length blk)) 0 []); auto; try lia.
      eapply i_lim_down; [|exact LIM]. simpl. lia.
    - apply (tp_nohmm_loop_total num D (pm_freq (D n)) blk route (Datatypes.S (length blk)) 0 []); auto; lia.
  Qed.

  Lemma tp_other_total blk : Forall (fun c => pos_word_char c = false) blk -> ttotal blk (tw (tpure (ps_other blk))).
  Proof.
    intros F n. unfold tw, tpure. rewrite ps_other_eq by auto. rewrite words_gof, map_map. cbn [fst]. rewrite map_id.
    eexists. split; [reflexivity|]. apply chars_crlf_partition.
  Qed.

  Lemma tp_cut_partial HMM s : i_lim NI (2 * length s) -> tpartial s (tw (tp_cut num T ord D HMM s)).
  Proof.
    intros LIM. unfold tp_cut.
    match goal with |- tpartial s (tw (tfor _ ?f)) =>
      assert (X := @tw_for_partial _ (re_split ps_re_han_internal s) (fun x => x) f) end.
    rewrite map_id, re_split_concat in X. apply X. intros blk I. destruct (ps_split_cases s blk I) as [L [->|[[-> F]|[-> F]]]].
    - apply total_partial, tw_nil_total.
    - apply tp_block_partial. eapply i_lim_down; [|exact LIM]. lia.
    - apply total_partial. now apply tp_other_total.
  Qed.

  Lemma tp_cut_total HMM s : i_lim NI (2 * length s) ->
    (forall n, pm_check (D n) = None /\ sane (sget (pm_freq (D n))) (pm_total (D n))) ->
    ttotal s (tw (tp_cut num T ord D HMM s)).
  Proof.
    intros LIM SA. unfold tp_cut.
    match goal with |- ttotal s (tw (tfor _ ?f)) =>
      assert (X := @tw_for_total _ (re_split ps_re_han_internal s) (fun x => x) f) end.
    rewrite map_id, re_split_concat in X. apply X. intros blk I. destruct (ps_split_cases s blk I) as [L [->|[[-> F]|[-> F]]]].
    - apply tw_nil_total.
    - apply tp_block_total; auto. eapply i_lim_down; [|exact LIM]. lia.
    - now apply tp_other_total.
  Qed.
End Q.

(** Whatever is called between two calls of next(): the words of the pairs are not empty,
    and their concatenation is the text, or a prefix of it if an exception ends the
    generator. *)
Theorem C83_lossless_under_updates :
  forall (num : Num) (NI : NumInf num) (T : ptables num) (ord : orders) (D : nat -> pmoment) (HMM : bool) (s : str),
    tables_ok NI T -> bmes T -> one_tag T -> fair_order ord -> i_lim NI (2 * length s) ->
    let g := tp_cut num T ord D HMM s 0 in
    let ws := map fst (fst g) in
    ~ In [] ws /\ prefix_of (concat ws) s /\ (snd g = None -> concat ws = s).
Proof.
  intros num NI T ord D HMM s OK BM ST FO LIM g ws.
  destruct (tp_cut_partial num NI T ord OK BM ST FO D HMM s LIM 0) as [u [[P1 P2] [PR N]]].
  change (fst (tw (tp_cut num T ord D HMM s) 0)) with ws in *. split; [|rewrite P1; auto].
  intros I. rewrite Forall_forall in P2. now apply (P2 [] I).
Qed.

(** ... and there is no exception if the numbers are in order at every moment. *)
Theorem C83_no_exception :
  forall (num : Num) (NI : NumInf num) (T : ptables num) (ord : orders) (D : nat -> pmoment) (HMM : bool) (s : str),
    tables_ok NI T -> bmes T -> one_tag T -> fair_order ord -> i_lim NI (2 * length s) ->
    (forall n, pm_check (D n) = None /\ sane (sget (pm_freq (D n))) (pm_total (D n))) ->
    snd (tp_cut num T ord D HMM s 0) = None /\ concat (map fst (fst (tp_cut num T ord D HMM s 0))) = s.
Proof.
  intros num NI T ord D HMM s OK BM ST FO LIM SA.
  destruct (tp_cut_total num NI T ord OK BM ST FO D HMM s LIM SA 0) as [ws [E [P _]]].
  unfold tw, words_of, gof in E. injection E as E1 E2. split; [exact E2|]. rewrite E1. exact P.
Qed.

(** If nothing changes it is [cut]. *)
Theorem C83_no_updates :
  forall (num : Num) (T : ptables num) (ord : orders) (HMM : bool) (tab : sdict str) (fr : freqs) (total : Z) (s : str),
    tp_cut num T ord (fun _ => mkPM None fr total tab) HMM s 0 = ps_cut T ord HMM tab fr total s.
Proof.
  intros num T ord HMM tab fr total s. set (D := fun _ : nat => mkPM None fr total tab).
  assert (TF : forall A (l : list A) (f : A -> tgen tagged) (g : A -> gen tagged),
             (forall x n, f x n = g x) -> forall n, tfor l f n = gfor l g).
  { intros A l f g E. induction l as [|x l IH]; intros n; [reflexivity|]. simpl. unfold tapp, gapp. rewrite E.
    destruct (snd (g x)); [reflexivity|]. now rewrite IH. }
  assert (ON : forall (l : str) n, tfor l (fun c => tp_one D [c]) n = gof (map (fun c => ([c], tag_get tab [c])) l)).
  { induction l as [|c l IH]; intros n; [reflexivity|]. cbn [tfor]. unfold tapp. cbn [tp_one gone fst snd]. rewrite IH. reflexivity. }
  assert (TB : forall buf n, tp_buf num T ord D buf n = ps_buf T ord tab fr buf).
  { intros buf n. unfold tp_buf, ps_buf. destruct (length buf =? 1); [reflexivity|]. cbn [D pm_freq].
    destruct (negb _); [reflexivity|]. apply ON. }
  assert (HL : forall fuel blk route x buf n,
             tp_hmm_loop num T ord D fuel blk route x buf n = ps_hmm_loop T ord fuel tab fr blk route x buf).
  { induction fuel as [|fuel IH]; intros blk route x buf n; [reflexivity|]. cbn [tp_hmm_loop ps_hmm_loop].
    destruct (x <? length blk); [|destruct buf; [reflexivity|apply TB]].
    destruct (nth_error route x) as [r|]; [|reflexivity]. cbv zeta.
    destruct (snd r + 1 - x =? 1); [apply IH|]. unfold tapp, gapp.
    destruct buf as [|c buf]; cbn [tpure gnil fst snd tp_one gone].
    - rewrite IH. reflexivity.
    - rewrite !TB. destruct (snd (ps_buf _ _ _ _ _)); [reflexivity|]. now rewrite IH. }
  assert (NL : forall fuel blk route x buf n,
             tp_nohmm_loop num D fuel blk route x buf n = ps_nohmm_loop num fuel tab blk route x buf).
  { induction fuel as [|fuel IH]; intros blk route x buf n; [reflexivity|]. cbn [tp_nohmm_loop ps_nohmm_loop].
    destruct (x <? length blk); [|destruct buf; reflexivity].
    destruct (nth_error route x) as [r|]; [|reflexivity]. cbv zeta.
    destruct (re_matches _ _); [apply IH|]. unfold tapp, gapp.
    destruct buf as [|c buf]; cbn [tpure gnil fst snd tp_one gone]; rewrite IH; reflexivity. }
  unfold tp_cut, ps_cut. apply TF. intros blk n. destruct (re_matches _ _); [|reflexivity].
  unfold tp_block, ps_hmm_block, ps_nohmm_block. cbn [D pm_check pm_freq pm_total]. cbv zeta.
  destruct (calc _ _ _ _ _); [|destruct HMM; reflexivity]. destruct HMM; [apply HL|apply NL].
Qed.

(** ** The tags *)

(** what the pair yielded after [n] others may be *)
Definition tag_at (num : Num) (T : ptables num) (ord : orders) (D : nat -> pmoment) (HMM : bool) (s : str)
  (n : nat) (p : tagged) : Prop :=
  snd p = tag_or_x (sget (pm_tab (D n)) (fst p)) \/
  (snd p = [120]%N /\ Forall (fun c => pos_word_char c = false) (fst p)) \/
  (HMM = false /\ snd p = [101; 110; 103]%N /\ Forall (fun c => alnum_char c = true) (fst p)) \/
  (HMM = true /\ exists buf m k, n = m + k /\ 2 <= length buf /\ substring buf s /\
     ~ is_word (sget (pm_freq (D m))) buf /\ nth_error (fst (ps_cut_detail T ord buf)) k = Some p).

Section Tags.
  Variable num : Num.
  Variable T : ptables num.
  Variable ord : orders.
  Variable D : nat -> pmoment.
  Variable s : str.

  Lemma one_tall HMM w : tall (tag_at num T ord D HMM s) (tp_one D w).
  Proof.
    intros n [|[|k]] p E; try discriminate. cbn in E. inversion E; subst. left. rewrite Nat.add_0_r. reflexivity.
  Qed.

  Lemma eng_tall (buf : str) : Forall (fun c => alnum_char c = true) buf ->
    tall (tag_at num T ord D false s) (tpure (match buf with [] => gnil | _ => gone (buf, tag_eng) end)).
  Proof.
    intros F. destruct buf as [|c buf]; [apply tall_nil|]. apply tall_in. intros n p [<-|[]]. right. right. left. auto.
  Qed.

  Lemma nohmm_tall blk route fuel x buf :
    Forall (fun c => pos_word_char c = true) blk -> Forall (fun c => alnum_char c = true) buf ->
    tall (tag_at num T ord D false s) (tp_nohmm_loop num D fuel blk route x buf).
  Proof.
    intros FB. revert x buf. induction fuel as [|fuel IH]; intros x buf FA; [apply tall_err|].
    cbn [tp_nohmm_loop]. destruct (x <? length blk); [|now apply eng_tall].
    destruct (nth_error route x) as [r|]; [|apply tall_err]. cbv zeta.
    destruct (re_matches ps_re_eng1 _) eqn:E.
    - apply IH. apply Forall_app. split; auto. rewrite eng1_re in E.
      + rewrite eng1_eq in E. destruct (slice blk x (snd r + 1)) as [|c [|]]; try discriminate. repeat constructor. exact E.
      + intros HN. apply in_slice in HN. rewrite Forall_forall in FB. apply FB in HN. discriminate.
    - apply tall_app; [now apply eng_tall|]. apply tall_app; [apply one_tall|]. apply IH. constructor.
  Qed.

  Lemma buf_tall buf : substring buf s -> buf <> [] -> tall (tag_at num T ord D true s) (tp_buf num T ord D buf).
  Proof.
    intros SB NE n. unfold tp_buf. destruct (length buf =? 1) eqn:E; [apply one_tall|].
    assert (L : 2 <= length buf) by (apply Nat.eqb_neq in E; destruct buf as [|? [|]]; simpl in *; try congruence; lia).
    destruct (freq_true (pm_freq (D n)) buf) eqn:FT; cbn [negb].
    2:{ intros k p E'. right. right. right. split; auto. exists buf, n, k. split; auto. split; auto. split; auto. split; auto.
        intros W. apply freq_true_word in W. congruence. }
    - apply tall_for. intros c _. apply one_tall.
  Qed.

  Lemma hmm_tall blk fr (route : list (F num * nat)) fuel x b :
    substring blk s -> route_ok num fr blk 0 route -> b <= x -> x <= length blk ->
    tall (tag_at num T ord D true s) (tp_hmm_loop num T ord D fuel blk route x (slice blk b x)).
  Proof.
    intros SB RO. revert x b. induction fuel as [|fuel IH]; intros x b L LX; [apply tall_err|].
    assert (FL : tall (tag_at num T ord D true s)
               (match slice blk b x with [] => tpure gnil | _ => tp_buf num T ord D (slice blk b x) end)).
    { destruct (slice blk b x) as [|c l] eqn:ES; [apply tall_nil|]. rewrite <- ES. apply buf_tall; [|rewrite ES; discriminate].
      eapply substring_trans; [apply substring_slice|exact SB]. }
    cbn [tp_hmm_loop]. destruct (x <? length blk) eqn:E; [|exact FL].
    apply Nat.ltb_lt in E. destruct (route_some RO E) as [r ER]. rewrite ER. cbv zeta.
    destruct (step_slice RO E ER) as [HI HR].
    destruct (snd r + 1 - x =? 1) eqn:E1.
    - apply Nat.eqb_eq in E1. assert (snd r + 1 = x + 1) as -> by lia. rewrite slice_grow by lia. apply IH; lia.
    - apply tall_app; [exact FL|]. apply tall_app; [apply one_tall|].
      replace (@nil char) with (slice blk (snd r + 1) (snd r + 1)); [apply IH; lia|].
      unfold slice. rewrite Nat.sub_diag. reflexivity.
  Qed.
End Tags.

(** The tag of a pair is the one the table has for the word at the moment the pair is
    made; the exceptions are what no table is asked for: characters outside words, runs
    of letters and digits (without the HMM), and words guessed by the HMM stage from a
    group that was not in the dictionary at the moment its first pair was made. *)
Theorem C83_tags_of_the_moment :
  forall (num : Num) (T : ptables num) (ord : orders) (D : nat -> pmoment) (HMM : bool) (s : str) (n : nat) (p : tagged),
    nth_error (fst (tp_cut num T ord D HMM s 0)) n = Some p -> tag_at num T ord D HMM s n p.
Proof.
  intros num T ord D HMM s. assert (X : tall (tag_at num T ord D HMM s) (tp_cut num T ord D HMM s)).
  { unfold tp_cut. apply tall_for. intros blk I.
    pose proof (substring_split _ _ _ I) as SB.
    destruct (ps_split_cases s blk I) as [L [->|[[-> F]|[-> F]]]].
    - apply tall_nil.
    - intros n. unfold tp_block. cbv zeta. destruct (pm_check (D n)); [apply tall_err|].
      destruct (calc _ _ _ _ _) as [route|x] eqn:E; [|apply tall_err].
      destruct HMM; [|apply nohmm_tall; auto].
      apply (hmm_tall num T ord D s blk (pm_freq (D n)) route (S (length blk)) 0 0); auto; try lia. eapply calc_ok; eauto.
    - apply tall_in. intros n p HI. rewrite ps_other_eq in HI by auto. cbn [fst gof] in HI. apply in_map_iff in HI.
      destruct HI as [w [<- HW]]. right. left. split; auto.
      destruct (chars_crlf_partition blk) as [P _]. rewrite <- P in F. eapply ProofsWords.Forall_concat_In; eauto. }
  intros n p E. apply (X 0 n p E).
Qed.

(** Calls on the Tokenizer (add_word, del_word, suggest_freq, load_userdict, cut ...)
    while a tagging generator is consumed change no tag it yields: their tags are merged
    into the table only when another tagging call begins. *)
Theorem C83_new_tags_wait :
  forall (num : Num) (H : hmm num) (T : ptables num) (ord : orders) (w : pworld) (i : nat)
         (during : nat -> list pop) (HMM : bool) (s : str) (n : nat) (p : tagged),
    (forall k o, In o (during k) -> exists c, o = PTok c) ->
    nth_error (fst (ps_cut_during num H T ord w i during HMM s)) n = Some p ->
    let tab := nth i (pw_tabs (makesure_userdict_loaded w i)) [] in
    tag_at num T ord (fun k => mkPM None (d_freq (pw_d (world_at num H T ord w i during k))) 0 tab) HMM s n p.
Proof.
  intros num H T ord w i during HMM s n p PT E tab.
  assert (TB : forall k, pw_tabs (world_at num H T ord w i during k) = pw_tabs (makesure_userdict_loaded w i)).
  { induction k as [|k IH]; [reflexivity|]. cbn [world_at]. rewrite <- IH. clear IH.
    specialize (PT k). generalize (world_at num H T ord w i during k) as w0. induction (during k) as [|o os IO]; intros w0; [reflexivity|].
    unfold do_pops. cbn [fold_left].
    change (fold_left (fun w o => fst (do_pop num H T ord w o)) os ?x) with (do_pops num H T ord x os).
    rewrite IO by (intros o' I; apply PT; right; auto).
    destruct (PT o (or_introl eq_refl)) as [c ->]. cbn [do_pop]. destruct (do_op num H (pw_d w0) c). reflexivity. }
  apply C83_tags_of_the_moment in E. unfold tag_at in *. cbn [pm_tab] in *.
  unfold pmoment_at in E. cbn [pm_tab] in E. rewrite TB in E. exact E.
Qed.

(** 生大 is added with the tag zz after the first pair of 来到，生大: it comes out as a word
    (its frequency is read later), with the tag x; the next call gives zz. *)
Theorem C83_added_tag_refuted :
  let w := mkPW (mkD demo_fr demo_total [] []) [demo_tab] in
  let s := [c_lai; c_dao; 65292; c_sheng; c_da]%N in
  let add := PTok (OpAddWord [c_sheng; c_da] (Some 50%Z) (Some [122; 122]%N)) in
  fst (ps_cut_during numE no_hmm demo_T demo_ord w 0 (fun k => if k =? 0 then [add] else []) false s) =
    [([c_lai; c_dao], [118]%N); ([65292]%N, [120]%N); ([c_sheng; c_da], [120]%N)] /\
  snd (do_pop numE no_hmm demo_T demo_ord (do_pops numE no_hmm demo_T demo_ord w [add]) (PCut 0 false s)) =
    PWords (gof [([c_lai; c_dao], [118]%N); ([65292]%N, [120]%N); ([c_sheng; c_da], [122; 122]%N)]).
Proof. split; vm_compute; reflexivity. Qed.

(** the changes of the example above meet the conditions *)
Example C83_nonvacuous :
  let w := mkPW (mkD demo_fr demo_total [] []) [demo_tab] in
  let add := PTok (OpAddWord [c_sheng; c_da] (Some 50%Z) (Some [122; 122]%N)) in
  let D := pmoment_at numE no_hmm demo_T demo_ord w 0 (fun k => if k =? 0 then [add] else []) in
  (forall n, pm_check (D n) = None /\ sane (sget (pm_freq (D n))) (pm_total (D n))) /\
  D 0 <> D 1 /\ tables_ok infQ demo_T /\ bmes demo_T /\ one_tag demo_T.
Proof.
  intros w add D. split.
  - assert (W : forall n, D (S n) = D 1).
    { intros n. unfold D, pmoment_at. f_equal; induction n as [|n IH]; auto. }
    intros n. split; [reflexivity|]. destruct n as [|n]; [apply saneb_ok; vm_compute; reflexivity|].
    rewrite W. apply saneb_ok. vm_compute. reflexivity.
  - split.
    + intros E. apply (f_equal pm_total) in E. vm_compute in E. discriminate.
    + destruct (shipped_fine _ _ _ demo_v_ok) as (A & B & C). auto.
Qed.

Print Assumptions C83_lossless_under_updates.
Print Assumptions C83_no_exception.
Print Assumptions C83_no_updates.
Print Assumptions C83_tags_of_the_moment.
Print Assumptions C83_new_tags_wait.
Print Assumptions C83_added_tag_refuted.
