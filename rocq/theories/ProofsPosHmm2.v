(** * The tagger as a specification *)
From Verif Require Import PyBase PyRegex PyNum ModelFinalseg ModelSeg ModelDict ModelApi ModelPosseg
  SpecBase SpecSeg SpecMode SpecPosseg SpecTagging ProofsBase ProofsRegex ProofsSplit ProofsDag ProofsFinalseg
  ProofsSeg ProofsNoHmm ProofsMode ProofsPosseg ProofsPvit ProofsPvit2 ProofsPosHmm.

Lemma skip_detail_hd n0 c s :
  hd_error (rmatch n0 ps_re_skip_detail (c :: s) []) =
  if is_numdot c then Some (drop_while is_numdot (c :: s), [(1, take_while is_numdot (c :: s))])
  else if is_alnum c then Some (drop_while is_alnum (c :: s), [(1, take_while is_alnum (c :: s))])
  else None.
Proof.
  pose proof (plus_grp_hd n0 is_numdot 1 (c :: s) []) as P1. cbv beta iota in P1.
  pose proof (plus_grp_hd n0 is_alnum 1 (c :: s) []) as P2. cbv beta iota in P2.
  unfold ps_re_skip_detail.
  change (rmatch n0 (RGrp 1 (RAlt (RPlus is_numdot) (RPlus is_alnum))) (c :: s) []) with
    (map (fun m => (fst m, (1, firstn (length (c :: s) - length (fst m)) (c :: s)) :: snd m))
         (rmatch n0 (RPlus is_numdot) (c :: s) [] ++ rmatch n0 (RPlus is_alnum) (c :: s) [])).
  rewrite map_app.
  change (map (fun m => (fst m, (1, firstn (length (c :: s) - length (fst m)) (c :: s)) :: snd m))
         (rmatch n0 (RPlus is_numdot) (c :: s) [])) with (rmatch n0 (RGrp 1 (RPlus is_numdot)) (c :: s) []).
  change (map (fun m => (fst m, (1, firstn (length (c :: s) - length (fst m)) (c :: s)) :: snd m))
         (rmatch n0 (RPlus is_alnum) (c :: s) [])) with (rmatch n0 (RGrp 1 (RPlus is_alnum)) (c :: s) []).
  destruct (rmatch n0 (RGrp 1 (RPlus is_numdot)) (c :: s) []) as [|m l].
  - destruct (is_numdot c); [discriminate|]. exact P2.
  - cbn [app hd_error] in *. destruct (is_numdot c); [exact P1|discriminate].
Qed.

Definition detail (x : str) : gen tagged :=
  match x with
  | [] => gnil
  | _ => if re_matches ps_re_num x then gone (x, tag_m)
         else if re_matches ps_re_eng x then gone (x, tag_eng)
         else gone (x, tag_x)
  end.

Lemma detail_cons c x :
  detail (c :: x) = gone (c :: x, if is_numdot c then tag_m else if is_alnum c then tag_eng else tag_x).
Proof.
  unfold detail, ps_re_num, ps_re_eng. rewrite !re_plus_matches.
  destruct (is_numdot c); auto. destruct (is_alnum c); auto.
Qed.

Lemma tag_pieces_go n0 fuel acc s :
  length s < fuel -> Forall (fun c => is_numdot c = false /\ is_alnum c = false) acc ->
  exists ws, gfor (re_split_go fuel n0 ps_re_skip_detail acc s) detail = gof ws /\ tag_pieces (rev acc ++ s) ws.
Proof.
  revert acc s. induction fuel as [|fuel IH]; intros acc s L FA; [lia|].
  assert (FR : Forall (fun c => is_numdot c = false /\ is_alnum c = false) (rev acc)).
  { rewrite Forall_forall in *. intros x HX. apply FA. apply in_rev. auto. }
  assert (GAP : forall t ws, match t with c :: _ => numdot_char c || alnum_char c = true | [] => True end ->
    tag_pieces t ws -> exists ws', gapp (detail (rev acc)) (gof ws) = gof ws' /\ tag_pieces (rev acc ++ t) ws').
  { intros t ws HT TP. destruct (rev acc) as [|a l] eqn:E.
    - exists ws. auto.
    - exists ((a :: l, tag_x) :: ws). rewrite detail_cons.
      inversion FR as [|? ? [A1 A2] _]; subst. rewrite A1, A2. split; [reflexivity|].
      apply tg_gap; auto. discriminate. }
  cbn [re_split_go]. destruct s as [|c s].
  - destruct (GAP [] []) as [ws [E TP]]; auto; [constructor|]. exists ws. cbn [gfor].
    split; auto.
  - rewrite skip_detail_hd.
    assert (TOK : forall p t, (p = is_numdot /\ t = tag_m /\ is_numdot c = true) \/
                            (p = is_alnum /\ t = tag_eng /\ is_numdot c = false /\ is_alnum c = true) ->
      exists ws, gfor (if length (drop_while p (c :: s)) <? length (c :: s) then
                 rev acc :: firstn (length (c :: s) - length (drop_while p (c :: s))) (c :: s)
                        :: re_split_go fuel n0 ps_re_skip_detail [] (drop_while p (c :: s))
              else re_split_go fuel n0 ps_re_skip_detail (c :: acc) s) detail = gof ws
              /\ tag_pieces (rev acc ++ c :: s) ws).
    { intros p t HP.
      assert (PC : p c = true) by (destruct HP as [(-> & _ & E)|(-> & _ & _ & E)]; exact E).
      assert (LD : length (drop_while p (c :: s)) < length (c :: s)).
      { pose proof (take_drop p (c :: s)) as TD. rewrite <- TD at 2. rewrite app_length. simpl take_while.
        rewrite PC. simpl. lia. }
      replace (length (drop_while p (c :: s)) <? length (c :: s)) with true
        by (symmetry; apply Nat.ltb_lt; exact LD).
      rewrite (firstn_minus_app (c :: s) (take_while p (c :: s)) (drop_while p (c :: s)))
        by (symmetry; apply take_drop).
      destruct (IH [] (drop_while p (c :: s))) as [ws [E TP]]; [simpl in *; lia|constructor|].
      simpl rev in TP. cbn [app] in TP. cbn [gfor].
      unfold str, char in *. rewrite E.
      assert (DT : detail (take_while p (c :: s)) = gone (take_while p (c :: s), t)).
      { simpl take_while. rewrite PC. rewrite detail_cons.
        destruct HP as [(-> & -> & E1)|(-> & -> & E1 & E2)]; rewrite E1; [|rewrite E2]; reflexivity. }
      rewrite DT. apply (GAP (c :: s) ((take_while p (c :: s), t) :: ws)).
      - change (is_numdot c || is_alnum c = true).
        destruct HP as [(-> & -> & E1)|(-> & -> & E1 & E2)]; rewrite E1; [|rewrite E2]; reflexivity.
      - destruct HP as [(-> & -> & E1)|(-> & -> & E1 & E2)].
        + eapply tg_num; eauto. rewrite span_eq. reflexivity.
        + eapply tg_eng; eauto. rewrite span_eq. reflexivity. }
    destruct (is_numdot c) eqn:E1; [apply (TOK is_numdot tag_m); auto|].
    destruct (is_alnum c) eqn:E2; [apply (TOK is_alnum tag_eng); auto 6|].
    destruct (IH (c :: acc) s) as [ws [E TP]]; [simpl in L; lia|constructor; auto|].
    exists ws. split; auto. simpl in TP. rewrite <- app_assoc in TP. exact TP.
Qed.

Lemma detail_other_ok blk : exists ws, ps_detail_other blk = gof ws /\ tag_pieces blk ws.
Proof. apply (tag_pieces_go (length blk) (S (length blk)) [] blk); auto. Qed.

Lemma span_app p s : fst (span p s) ++ snd (span p s) = s.
Proof. rewrite span_eq. apply take_drop. Qed.

Lemma tag_pieces_partition s ws : tag_pieces s ws -> partition s (map fst ws).
Proof.
  assert (SP : forall p c s u r, p c = true -> span p (c :: s) = (u, r) -> u ++ r = c :: s /\ u <> []).
  { intros p c s0 u r E ES. split.
    - pose proof (span_app p (c :: s0)) as A. rewrite ES in A. exact A.
    - cbn [span] in ES. rewrite E in ES. destruct (span p s0). injection ES as <- _. discriminate. }
  induction 1 as [|c s u r ws E ES TP IH|c s u r ws E1 E ES TP IH|u s ws NE FA HS TP IH].
  - apply partition_nil.
  - destruct (SP _ _ _ _ _ E ES) as [A B]. destruct IH as [P1 P2]. split; simpl; [now rewrite P1|constructor; auto].
  - destruct (SP _ _ _ _ _ E ES) as [A B]. destruct IH as [P1 P2]. split; simpl; [now rewrite P1|constructor; auto].
  - destruct IH as [P1 P2]. split; simpl; [now rewrite P1|constructor; auto].
Qed.

Section H.
  Variable num : Num.
  Variable NI : NumInf num.
  Variable T : ptables num.
  Hypothesis OK : tables_ok NI T.
  Hypothesis BM : bmes T.
  Hypothesis ST : forall x y, step T x y -> fst x = l_B \/ fst x = l_M -> snd x = snd y.

  Lemma steps_good ys :
    Forall (is_pstate T) ys -> steps T ys ->
    forall prev, match prev, ys with Some x, y :: _ => step T x y | _, _ => True end -> good_from prev ys.
  Proof.
    intros FA. induction ys as [|y ys IH]; intros SS prev HP; simpl; auto.
    inversion FA; subst. destruct SS as [S1 S2]. split; [apply BM; auto|]. split.
    - destruct prev as [x|]; auto. split; [apply BM; auto|]. apply ST. auto.
    - apply IH; auto.
  Qed.

  Lemma kept_pstate cs y : kept T cs y -> is_pstate T y.
  Proof.
    destruct cs as [|c cs]; [intros []|]. cbn [kept]. destruct cs as [|c' cs].
    - unfold char_state. destruct (t_states T c) as [l|] eqn:E; auto.
      destruct (tk_char OK c l E) as [FA _]. rewrite Forall_forall in FA. apply FA.
    - intros [[x [_ SX]] _]. destruct (tk_trans OK x y SX) as [z [p [l [A B]]]].
      unfold is_pstate. apply in_map_iff. exists (y, l). auto.
  Qed.

  Lemma considered_good cs ys : considered T cs ys -> good_from None ys.
  Proof.
    intros [L [SS K]]. apply steps_good; auto. apply Forall_forall. intros y HI.
    apply In_nth_error in HI. destruct HI as [i E]. eapply kept_pstate. eapply K. exact E.
  Qed.

  Variable ord : orders.
  Hypothesis FO : fair_order ord.

  Lemma han_ok r :
    r <> [] -> i_lim NI (2 * length r) ->
    exists ws, ps_cut_han T ord r = gof ws /\ hmm_finds T r ws /\ partition r (map fst ws).
  Proof.
    intros NE LIM. destruct (pviterbi_ok OK FO NE LIM) as [p [ys [E [C [SC B]]]]].
    unfold ps_cut_han. rewrite E.
    destruct (loop_words r ys) as [ws [EW [P SP]]].
    - apply C.
    - eapply considered_good; eauto.
    - exists ws. split; auto. split; auto. exists ys. split; auto. rewrite SC. split; auto. split; auto.
      apply P.
  Qed.

  Lemma runs_lim p s br : i_lim NI (2 * length s) -> In br (runs p s) -> i_lim NI (2 * length (snd br)).
  Proof.
    intros LIM HI. eapply i_lim_down; [|exact LIM].
    assert (length (snd br) <= length s); [|lia].
    rewrite <- (runs_concat p s). apply in_split in HI. destruct HI as [a [b ->]].
    rewrite map_app, concat_app, app_length. simpl. rewrite app_length. lia.
  Qed.

  Lemma ps_cut_detail_runs s :
    ps_cut_detail T ord s =
    gfor (runs han_char s) (fun br => if fst br then ps_cut_han T ord (snd br) else ps_detail_other (snd br)).
  Proof.
    unfold ps_cut_detail, ps_re_han_detail. rewrite gfor_split_class by reflexivity. rewrite gfor_map.
    rewrite (runs_ext is_han han_char s) by reflexivity.
    apply gfor_ext. intros [b r] HI.
    pose proof (runs_class han_char s) as RC. rewrite Forall_forall in RC.
    destruct (RC _ HI) as [NE FA]. cbn [fst snd] in *. destruct r as [|c r]; [congruence|].
    rewrite re_matches_plus. change (is_han c) with (han_char c).
    inversion FA as [|? ? HC _]; subst. destruct (han_char c); reflexivity.
  Qed.

  Lemma detail_ok s :
    i_lim NI (2 * length s) ->
    exists ws, ps_cut_detail T ord s = gof ws /\ stage_tags (hmm_finds T) (runs han_char s) ws
               /\ partition s (map fst ws).
  Proof.
    intros LIM. rewrite ps_cut_detail_runs.
    assert (G : forall rs : list (bool * str), (forall br, In br rs -> snd br <> [] /\ i_lim NI (2 * length (snd br))) ->
      exists ws, gfor rs (fun br => if fst br then ps_cut_han T ord (snd br) else ps_detail_other (snd br)) = gof ws
        /\ stage_tags (hmm_finds T) rs ws /\ partition (concat (map snd rs)) (map fst ws)).
    { induction rs as [|[b r] rs IH]; intros HR.
      - exists []. split; [reflexivity|]. split; [constructor|apply partition_nil].
      - destruct IH as [ws [E [SG P]]]; [intros; apply HR; right; auto|].
        destruct (HR (b, r)) as [NE LR]; [left; auto|]. cbn [gfor fst snd map concat] in *. rewrite E.
        destruct b.
        + destruct (han_ok r NE LR) as [w1 [E1 [F1 P1]]]. rewrite E1. exists (w1 ++ ws).
          split; [reflexivity|]. split; [constructor; auto|]. rewrite map_app. apply partition_app; auto.
        + destruct (detail_other_ok r) as [w1 [E1 F1]]. rewrite E1. exists (w1 ++ ws).
          split; [reflexivity|]. split; [constructor; auto|]. rewrite map_app. apply partition_app; auto.
          apply tag_pieces_partition. auto. }
    destruct (G (runs han_char s)) as [ws [E [SG P]]].
    - intros br HI. split; [|eapply runs_lim; eauto].
      pose proof (runs_class han_char s) as RC. rewrite Forall_forall in RC. apply RC. auto.
    - exists ws. rewrite runs_concat in P. auto.
  Qed.

  (** ** Groups *)

  Definition stage (x : str) (ps : list tagged) : Prop := stage_tags (hmm_finds T) (runs han_char x) ps.

  Definition flush_p tab fr (buf : str) : gen tagged :=
    match buf with [] => gnil | _ => ps_buf T ord tab fr buf end.
  Fixpoint group_p (tab : sdict str) (fr : freqs) (buf : str) (ws : list str) : gen tagged :=
    match ws with
    | [] => flush_p tab fr buf
    | w :: ws' =>
        if (length w =? 1) then group_p tab fr (buf ++ w) ws'
        else gapp (flush_p tab fr buf) (gcons (w, tag_get tab w) (group_p tab fr [] ws'))
    end.

  Lemma ps_hmm_loop_eq tab fr (s : str) route fuel x buf :
    route_ok num fr s 0 route -> length s - x < fuel -> x <= length s ->
    ps_hmm_loop T ord fuel tab fr s route x buf = group_p tab fr buf (route_words fuel s route x).
  Proof.
    intros RO. revert x buf. induction fuel as [|fuel IH]; intros x buf L LX; [lia|].
    cbn [route_words ps_hmm_loop]. destruct (x <? length s) eqn:E.
    - apply Nat.ltb_lt in E. destruct (route_some RO E) as [r ER]. rewrite ER.
      destruct (step_slice RO E ER) as [HI HR]. cbn [group_p].
      rewrite slice_length by lia.
      destruct (snd r + 1 - x =? 1).
      + apply IH; lia.
      + rewrite IH by lia. reflexivity.
    - reflexivity.
  Qed.

  Lemma ps_buf_spec tab fr g :
    g <> [] -> Forall (fun w => length w = 1) g -> i_lim NI (2 * length (concat g)) ->
    exists ps, ps_buf T ord tab fr (concat g) = gof ps /\
      (length g = 1 \/ is_word (sget fr) (concat g) -> ps = map (fun w => (w, tag_get tab w)) g) /\
      (length g <> 1 -> ~ is_word (sget fr) (concat g) -> stage (concat g) ps) /\
      partition (concat g) (map fst ps).
  Proof.
    intros NE FA LIM.
    assert (LC : length (concat g) = length g).
    { clear NE LIM. induction FA as [|w g LW _ IH]; simpl; auto. rewrite app_length, LW, IH. reflexivity. }
    assert (MC : map (fun c => [c]) (concat g) = g).
    { clear NE LC LIM. induction FA as [|w g LW _ IH]; simpl; auto.
      destruct w as [|c [|d w]]; simpl in LW; try lia. simpl. rewrite IH. reflexivity. }
    assert (FT : freq_true fr (concat g) = true <-> is_word (sget fr) (concat g)).
    { unfold freq_true, is_word. destruct (sget fr (concat g)) as [n|].
      - rewrite negb_true_iff, Z.eqb_neq. split; [intros; exists n; auto|intros [m [[= ->] ?]]; auto].
      - split; [discriminate|intros [m [? _]]; discriminate]. }
    assert (PG : partition (concat g) (map fst (map (fun w => (w, tag_get tab w)) g))).
    { rewrite map_map. cbn [fst]. rewrite map_id. split; auto.
      eapply Forall_impl; [|exact FA]. intros [|] LW; [discriminate|discriminate]. }
    unfold ps_buf. rewrite LC. destruct (length g =? 1) eqn:E1.
    - apply Nat.eqb_eq in E1. exists (map (fun w => (w, tag_get tab w)) g).
      split; [|split; [auto|split; [intros; contradiction|exact PG]]].
      destruct g as [|w [|v g]]; simpl in E1; try lia. simpl. rewrite app_nil_r. reflexivity.
    - apply Nat.eqb_neq in E1. destruct (freq_true fr (concat g)) eqn:EF; simpl.
      + exists (map (fun w => (w, tag_get tab w)) g).
        split; [|split; [auto|split; [|exact PG]]].
        * rewrite <- MC at 2. rewrite map_map. reflexivity.
        * intros _ NW. exfalso. apply NW. apply FT. auto.
      + destruct (detail_ok (concat g) LIM) as [ps [E [SG P]]]. exists ps. split; auto. split; [|split]; auto.
        intros [?|W]; [contradiction|]. apply FT in W. congruence.
  Qed.

  Lemma group_p_app tab fr g buf rest :
    Forall (fun w : str => length w = 1) g ->
    group_p tab fr buf (g ++ rest) = group_p tab fr (buf ++ concat g) rest.
  Proof.
    intros F. revert buf. induction F as [|w g E _ IH]; intros buf; simpl.
    - rewrite app_nil_r. reflexivity.
    - rewrite E. simpl. rewrite IH, <- app_assoc. reflexivity.
  Qed.

  Lemma group_p_grouped tab fr ws :
    Forall (fun w => w <> []) ws -> i_lim NI (2 * length (concat ws)) ->
    exists out, group_p tab fr [] ws = gof out /\
      tag_grouped stage (sget fr) (tag_get tab) ws out /\ partition (concat ws) (map fst out).
  Proof.
    remember (length ws) as n eqn:EN. assert (L : length ws <= n) by lia. clear EN.
    revert ws L. induction n as [|n IH]; intros ws L FA LIM.
    - destruct ws; [|simpl in L; lia]. exists []. split; [reflexivity|]. split; [constructor|apply partition_nil].
    - destruct (split_single ws) as (g & rest & -> & F & M).
      rewrite group_p_app by auto. cbn [app].
      apply Forall_app in FA. destruct FA as [_ FA]. rewrite concat_app in LIM.
      assert (LIMr : i_lim NI (2 * length (concat rest))).
      { eapply i_lim_down; [|exact LIM]. rewrite app_length. lia. }
      assert (LIMg : i_lim NI (2 * length (concat g))).
      { eapply i_lim_down; [|exact LIM]. rewrite app_length. lia. }
      assert (REST : exists out, match rest with
                                 | [] => @gnil tagged
                                 | w :: rest' => gcons (w, tag_get tab w) (group_p tab fr [] rest')
                                 end = gof out /\ tag_grouped stage (sget fr) (tag_get tab) rest out
                                 /\ partition (concat rest) (map fst out)).
      { destruct rest as [|w rest'].
        - exists []. split; [reflexivity|]. split; [constructor|apply partition_nil].
        - rewrite app_length in L. inversion FA; subst.
          destruct (IH rest') as [out [E [HG P]]]; auto.
          + unfold str, char in *. simpl in L. lia.
          + eapply i_lim_down; [|exact LIMr]. simpl. rewrite app_length. lia.
          + exists ((w, tag_get tab w) :: out). rewrite E. split; auto. split; [constructor; auto|].
            destruct P as [P1 P2]. split; simpl; [now rewrite P1|constructor; auto]. }
      assert (GH : forall buf, group_p tab fr buf rest =
                   gapp (flush_p tab fr buf)
                        (match rest with [] => gnil | w :: rest' => gcons (w, tag_get tab w) (group_p tab fr [] rest') end)).
      { intros buf. destruct rest as [|w rest'].
        - cbn [group_p]. rewrite gapp_nil_r. reflexivity.
        - cbn [group_p]. destruct (length w =? 1) eqn:E; [apply Nat.eqb_eq in E; contradiction|]. reflexivity. }
      destruct REST as [out [ER [HG P]]]. rewrite GH, ER.
      destruct g as [|w g].
      + exists out. split; auto.
      + destruct (ps_buf_spec tab fr (w :: g)) as [ps [EP [P1 [P2 P3]]]]; auto; [discriminate|].
        exists (ps ++ out).
        assert (EF : flush_p tab fr (concat (w :: g)) = gof ps).
        { inversion F as [|? ? LW _]; subst. destruct w as [|c w]; [simpl in LW; lia|]. exact EP. }
        rewrite EF. split; [reflexivity|]. split.
        * apply gt_group; auto. discriminate.
        * rewrite concat_app, map_app. apply partition_app; auto.
  Qed.

  Lemma chosen_partition fr total r :
    sane (sget fr) total -> partition r (chosen num fr total r).
  Proof.
    intros [TT P]. unfold chosen. destruct (calc_total num fr total r TT P) as [route E]. rewrite E.
    apply (@walk_partition fr r 0 (route_words (S (length r)) r route 0)); [|lia].
    apply (route_words_walk (fr := fr)); [eapply calc_ok; eauto|lia|lia].
  Qed.

  Lemma hmm_block_ok tab fr total r :
    sane (sget fr) total -> i_lim NI (2 * length r) ->
    exists out, ps_hmm_block T ord tab fr total r = gof out /\
      tag_grouped stage (sget fr) (tag_get tab) (chosen num fr total r) out /\ partition r (map fst out).
  Proof.
    intros SA LIM. destruct (chosen_partition fr total r SA) as [C1 C2].
    destruct (group_p_grouped tab fr (chosen num fr total r)) as [out [E [G P]]]; auto.
    - rewrite C1. exact LIM.
    - exists out. rewrite C1 in P. split; auto. rewrite <- E.
      destruct SA as [TT PP]. unfold chosen. destruct (calc_total num fr total r TT PP) as [route ER].
      unfold ps_hmm_block. rewrite ER. apply ps_hmm_loop_eq; try lia. eapply calc_ok; eauto.
  Qed.

  Lemma merge_tagged tab ws :
    Forall (fun w => w <> []) ws -> tag_merged (tag_get tab) ws (merge_eng_t tab [] ws).
  Proof.
    assert (AW : forall w, eng1 w = true <-> alnum_word w).
    { intros w. rewrite eng1_eq. unfold alnum_word. split.
      - destruct w as [|c [|]]; try discriminate. intros E. exists c. auto.
      - intros [c [-> E]]. exact E. }
    assert (MA : forall g buf rest, Forall alnum_word g ->
      merge_eng_t tab buf (g ++ rest) = merge_eng_t tab (buf ++ concat g) rest).
    { intros g buf rest F. revert buf. induction F as [|w g E _ IH]; intros buf; simpl.
      - rewrite app_nil_r. reflexivity.
      - apply AW in E. rewrite E, IH, <- app_assoc. reflexivity. }
    assert (SPL : forall ws, exists g rest, ws = g ++ rest /\ Forall alnum_word g /\
      match rest with w :: _ => ~ alnum_word w | [] => True end).
    { clear ws. induction ws as [|w ws (g & rest & -> & F & M)].
      - exists [], []. auto.
      - destruct (eng1 w) eqn:E.
        + exists (w :: g), rest. split; auto. split; auto. constructor; auto. apply AW. auto.
        + exists [], (w :: g ++ rest). split; auto. split; auto. rewrite <- AW. congruence. }
    remember (length ws) as n eqn:EN. assert (L : length ws <= n) by lia. clear EN.
    revert ws L. induction n as [|n IH]; intros ws L FA.
    - destruct ws; [|simpl in L; lia]. constructor.
    - destruct (SPL ws) as (g & rest & -> & F & M). rewrite MA by auto. cbn [app].
      apply Forall_app in FA. destruct FA as [_ FA].
      pose (tl := match rest with
                  | [] => []
                  | w :: rest' => (w, tag_get tab w) :: merge_eng_t tab [] rest'
                  end : list tagged).
      assert (HG : tag_merged (tag_get tab) rest tl).
      { destruct rest as [|w rest']; [constructor|].
        constructor; auto. apply IH.
        - rewrite app_length in L. unfold str, char in *. simpl in L. lia.
        - inversion FA; auto. }
      assert (GH : forall buf, merge_eng_t tab buf rest = flush_t buf ++ tl).
      { intros buf. destruct rest as [|w rest']; simpl; [unfold tl; now rewrite app_nil_r|].
        destruct (eng1 w) eqn:E; auto. apply AW in E. contradiction. }
      rewrite GH.
      destruct g as [|w g]; [exact HG|].
      assert (EF : flush_t (concat (w :: g)) = [(concat (w :: g), tag_eng)]).
      { inversion F as [|? ? [c [-> _]] _]; subst. reflexivity. }
      rewrite EF. apply (tm_group _ (w :: g)); auto. discriminate.
  Qed.

  Lemma nohmm_block_ok tab fr total (r : str) :
    sane (sget fr) total -> ~ In 10%N r ->
    exists out, ps_nohmm_block num tab fr total r = gof out /\
      tag_merged (tag_get tab) (chosen num fr total r) out /\ partition r (map fst out).
  Proof.
    intros SA NL. destruct (chosen_partition fr total r SA) as [C1 C2].
    exists (merge_eng_t tab [] (chosen num fr total r)). split; [|split].
    - destruct SA as [TT PP]. rewrite ps_nohmm_block_eq by auto. unfold chosen.
      destruct (calc_total num fr total r TT PP) as [route ER]. rewrite ER. reflexivity.
    - apply merge_tagged. auto.
    - rewrite merge_eng_t_words. apply (@merge_eng_partition [] (chosen num fr total r) r). split; auto.
  Qed.

  (** ** Texts *)

  Definition block_spec (HMM : bool) (tab : sdict str) (fr : freqs) (total : Z) (r : str) (out : list tagged) : Prop :=
    if HMM then tag_grouped stage (sget fr) (tag_get tab) (chosen num fr total r) out
    else tag_merged (tag_get tab) (chosen num fr total r) out.

  Lemma ps_cut_text HMM tab fr total s :
    sane (sget fr) total -> (HMM = true -> i_lim NI (2 * length s)) ->
    exists out : str -> list tagged,
      ps_cut T ord HMM tab fr total s =
        gof (flat_map (fun br : bool * str => if fst br then out (snd br)
                                 else map (fun w => (w, tag_x)) (chars_crlf (snd br)))
                      (runs pos_word_char s)) /\
      forall r, In (true, r) (runs pos_word_char s) ->
        block_spec HMM tab fr total r (out r) /\ partition r (map fst (out r)).
  Proof.
    intros SA LIM.
    set (f := fun r => if HMM then ps_hmm_block T ord tab fr total r else ps_nohmm_block num tab fr total r).
    assert (G : forall r, In (true, r) (runs pos_word_char s) ->
      f r = gof (fst (f r)) /\ block_spec HMM tab fr total r (fst (f r)) /\ partition r (map fst (fst (f r)))).
    { intros r HI. unfold f, block_spec. destruct HMM.
      - destruct (hmm_block_ok tab fr total r SA) as [out [E [G P]]].
        + apply (runs_lim pos_word_char s (true, r)); auto.
        + rewrite E. auto.
      - destruct (nohmm_block_ok tab fr total r SA) as [out [E [G P]]].
        + apply (run_no_newline s (true, r)); auto.
        + rewrite E. auto. }
    exists (fun r => fst (f r)). split.
    - rewrite ps_cut_runs. apply gdone_gfor. intros [b r] HI. cbn [fst snd]. destruct b; auto.
      destruct (G r HI) as [E _]. exact E.
    - intros r HI. apply G. auto.
  Qed.

  Lemma ps_cut_lossless HMM tab fr total s :
    sane (sget fr) total -> (HMM = true -> i_lim NI (2 * length s)) ->
    exists ws, ps_cut T ord HMM tab fr total s = gof ws /\ partition s (map fst ws).
  Proof.
    intros SA LIM. destruct (ps_cut_text HMM tab fr total s SA LIM) as [out [E B]].
    eexists. split; [exact E|]. clear E.
    rewrite <- (runs_concat pos_word_char s) at 1.
    revert B. generalize (runs pos_word_char s) as rs.
    induction rs as [|[b r] rs IH]; intros B; [apply partition_nil|].
    cbn [map concat flat_map fst snd]. rewrite map_app. apply partition_app.
    - destruct b.
      + apply B. left. auto.
      + rewrite map_map. cbn [fst]. rewrite map_id. apply chars_crlf_partition.
    - apply IH. intros r' HI. apply B. right. auto.
  Qed.
End H.

(** ** The order of iteration over sets does not matter *)
Section Ord.
  Variable num : Num.
  Variable NI : NumInf num.
  Variable T : ptables num.
  Hypothesis OK : tables_ok NI T.
  Variables ord1 ord2 : orders.
  Hypothesis F1 : fair_order ord1.
  Hypothesis F2 : fair_order ord2.

  Lemma detail_order s : i_lim NI (2 * length s) -> ps_cut_detail T ord1 s = ps_cut_detail T ord2 s.
  Proof.
    intros LIM. rewrite !ps_cut_detail_runs. apply gfor_ext. intros [b r] HI. cbn [fst snd].
    destruct b; auto. unfold ps_cut_han. rewrite (pviterbi_order OK r F1 F2); auto.
    apply (runs_lim num NI han_char s (true, r)); auto.
  Qed.

  Lemma buf_order tab fr buf : i_lim NI (2 * length buf) -> ps_buf T ord1 tab fr buf = ps_buf T ord2 tab fr buf.
  Proof.
    intros LIM. unfold ps_buf. destruct (length buf =? 1); auto.
    destruct (negb (freq_true fr buf)); auto. apply detail_order. auto.
  Qed.

  Lemma group_order tab fr ws : forall buf,
    i_lim NI (2 * (length buf + length (concat ws))) ->
    group_p num T ord1 tab fr buf ws = group_p num T ord2 tab fr buf ws.
  Proof.
    assert (FL : forall buf, i_lim NI (2 * length buf) -> flush_p num T ord1 tab fr buf = flush_p num T ord2 tab fr buf).
    { intros [|c buf] L; [reflexivity|]. apply buf_order. exact L. }
    induction ws as [|w ws IH]; intros buf LIM; cbn [group_p].
    - apply FL. eapply i_lim_down; [|exact LIM]. lia.
    - simpl in LIM. rewrite app_length in LIM. destruct (length w =? 1).
      + apply IH. eapply i_lim_down; [|exact LIM]. rewrite app_length. lia.
      + rewrite FL by (eapply i_lim_down; [|exact LIM]; lia). do 2 f_equal. apply IH.
        eapply i_lim_down; [|exact LIM]. simpl. lia.
  Qed.

  Lemma block_order tab fr total (r : str) :
    i_lim NI (2 * length r) -> ps_hmm_block T ord1 tab fr total r = ps_hmm_block T ord2 tab fr total r.
  Proof.
    intros LIM. unfold ps_hmm_block.
    destruct (calc num fr total r (get_DAG fr r)) as [route|e] eqn:E; auto.
    pose proof (calc_ok _ _ _ _ _ E) as RO. rewrite !ps_hmm_loop_eq by (auto; lia).
    apply group_order.
    destruct (@walk_partition fr r 0 (route_words (S (length r)) r route 0)) as [C _]; [|lia|].
    - apply (route_words_walk (fr := fr)); [exact RO|lia|lia].
    - rewrite C. exact LIM.
  Qed.

  Lemma ps_cut_order HMM tab fr total s :
    i_lim NI (2 * length s) -> ps_cut T ord1 HMM tab fr total s = ps_cut T ord2 HMM tab fr total s.
  Proof.
    intros LIM. rewrite !ps_cut_runs. apply gfor_ext. intros [b r] HI. cbn [fst snd].
    destruct b; auto. destruct HMM; auto. apply block_order.
    apply (runs_lim num NI pos_word_char s (true, r)); auto.
  Qed.
End Ord.
