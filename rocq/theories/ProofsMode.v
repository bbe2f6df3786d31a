(** * The accurate mode with HMM, as a specification *)
From Verif Require Import PyBase PyRegex PyNum ModelFinalseg ModelSeg
  SpecBase SpecSeg SpecHmm SpecNum SpecScore SpecMode
  ProofsBase ProofsRegex ProofsSplit ProofsDag ProofsFinalseg ProofsSeg ProofsOpt ProofsNoHmm.
Set Implicit Arguments.

Lemma span_eq p s : span p s = (take_while p s, drop_while p s).
Proof. induction s as [|c s IH]; simpl; auto. destruct (p c); auto. rewrite IH. reflexivity. Qed.

(** ** The pattern of numbers *)

Lemma hd_flat_map {A B} (f : A -> list B) l a :
  hd_error l = Some a -> f a <> [] -> hd_error (flat_map f l) = hd_error (f a).
Proof.
  destruct l as [|x l]; simpl; [discriminate|]. intros [= ->] NE. destruct (f a); [congruence|reflexivity].
Qed.

Lemma ropt_ne n0 a s g : rmatch n0 (ROpt a) s g <> [].
Proof. simpl. intros E. apply app_eq_nil in E. destruct E; discriminate. Qed.

Definition re_fraction : re := ROpt (RSeq (RStr [46%N]) (RPlus is_decimal)).
Definition re_percent : re := ROpt (RStr [37%N]).

Lemma fraction_hd n0 s g : hd_error (rmatch n0 re_fraction s g) = Some (snd (fraction s), g).
Proof.
  unfold re_fraction. destruct s as [|c s]; [reflexivity|].
  cbn [rmatch strip_prefix fraction]. rewrite (N.eqb_sym 46 c).
  destruct (c =? 46)%N; [|reflexivity]. cbn [flat_map fst snd]. rewrite app_nil_r, span_eq.
  pose proof (plus_rests_hd is_decimal s) as HP. destruct (plus_rests is_decimal s) as [|t l]; simpl in *.
  - destruct s as [|d s]; simpl; auto. destruct (is_decimal d); [discriminate|]. reflexivity.
  - destruct s as [|d s]; [discriminate|]. simpl. destruct (is_decimal d) eqn:E; [|discriminate].
    injection HP as ->. simpl. rewrite ?E. reflexivity.
Qed.

Lemma percent_hd n0 s g : hd_error (rmatch n0 re_percent s g) = Some (snd (percent s), g).
Proof.
  unfold re_percent. destruct s as [|c s]; [reflexivity|].
  cbn [rmatch strip_prefix percent]. rewrite (N.eqb_sym 37 c).
  destruct (c =? 37)%N; reflexivity.
Qed.

Lemma rseq_hd n0 a b s g m :
  hd_error (rmatch n0 a s g) = Some m -> rmatch n0 b (fst m) (snd m) <> [] ->
  hd_error (rmatch n0 (RSeq a b) s g) = hd_error (rmatch n0 b (fst m) (snd m)).
Proof. intros E NE. apply (@hd_flat_map _ _ (fun m => rmatch n0 b (fst m) (snd m)) _ _ E NE). Qed.

Lemma fraction_app s : fst (fraction s) ++ snd (fraction s) = s.
Proof.
  destruct s as [|c s]; auto. cbn [fraction]. destruct (c =? 46)%N; auto. rewrite span_eq.
  destruct (take_while is_decimal s) as [|d l] eqn:E; auto. simpl.
  change (d :: l ++ drop_while is_decimal s) with ((d :: l) ++ drop_while is_decimal s).
  rewrite <- E, take_drop. reflexivity.
Qed.
Lemma percent_app s : fst (percent s) ++ snd (percent s) = s.
Proof. destruct s as [|c s]; auto. cbn [percent]. destruct (c =? 37)%N; auto. Qed.
Lemma number_token_app s : fst (number_token s) ++ snd (number_token s) = s.
Proof.
  unfold number_token. rewrite span_eq.
  pose proof (fraction_app (drop_while is_alnum s)) as F.
  destruct (fraction (drop_while is_alnum s)) as [f r2].
  pose proof (percent_app r2) as P. destruct (percent r2) as [p r3]. cbn [fst snd] in *.
  rewrite <- !app_assoc, P, F. apply take_drop.
Qed.

Lemma skip_token n0 c s :
  hd_error (rmatch n0 fs_re_skip (c :: s) []) =
  if is_alnum c then Some (snd (number_token (c :: s)), [(1, fst (number_token (c :: s)))]) else None.
Proof.
  pose proof (number_token_app (c :: s)) as NT.
  unfold fs_re_skip. fold re_fraction re_percent. set (body := RSeq (RPlus is_alnum) (RSeq re_fraction re_percent)).
  assert (HB : hd_error (rmatch n0 body (c :: s) []) =
               if is_alnum c then Some (snd (number_token (c :: s)), []) else None).
  { destruct (is_alnum c) eqn:EC.
    - unfold body. pose proof (plus_rests_hd is_alnum (c :: s)) as HP. cbv beta iota in HP. rewrite EC in HP.
      assert (EP : hd_error (rmatch n0 (RPlus is_alnum) (c :: s) []) = Some (drop_while is_alnum (c :: s), [])).
      { change (rmatch n0 (RPlus is_alnum) (c :: s) []) with
          (map (fun t => (t, @nil (nat * str))) (plus_rests is_alnum (c :: s))).
        destruct (plus_rests is_alnum (c :: s)); [discriminate|]. cbn [hd_error map] in *. injection HP as ->. reflexivity. }
      assert (EF : forall t g, hd_error (rmatch n0 (RSeq re_fraction re_percent) t g) =
                               Some (snd (percent (snd (fraction t))), g)).
      { intros t g. rewrite (@rseq_hd n0 re_fraction re_percent t g _ (fraction_hd n0 t g)) by apply ropt_ne.
        apply percent_hd. }
      rewrite (@rseq_hd n0 _ _ _ _ _ EP).
      + cbn [fst snd]. rewrite EF. unfold number_token. rewrite span_eq.
        destruct (fraction (drop_while is_alnum (c :: s))) as [f r2]. cbn [snd].
        destruct (percent r2). reflexivity.
      + intros EE. specialize (EF (drop_while is_alnum (c :: s)) (@nil (nat * str))). cbn [fst snd] in EE. rewrite EE in EF. discriminate.
    - unfold body. simpl. rewrite EC. reflexivity. }
  change (rmatch n0 (RGrp 1 body) (c :: s) []) with
    (map (fun m => (fst m, (1, firstn (length (c :: s) - length (fst m)) (c :: s)) :: snd m))
         (rmatch n0 body (c :: s) [])).
  destruct (rmatch n0 body (c :: s) []) as [|m l].
  - destruct (is_alnum c); [discriminate|reflexivity].
  - destruct (is_alnum c); [|discriminate]. cbn [hd_error map] in *. injection HB as ->. cbn [fst snd].
    do 4 f_equal. apply firstn_minus_app. symmetry. exact NT.
Qed.

Definition keep (x : str) : gen str := match x with [] => gnil | _ => gone x end.

Lemma number_token_ne c s : is_alnum c = true -> fst (number_token (c :: s)) <> [].
Proof.
  intros E. unfold number_token. rewrite span_eq. simpl. rewrite E.
  destruct (fraction (drop_while is_alnum s)) as [f r]. destruct (percent r). discriminate.
Qed.

Lemma skip_split_go n0 fuel acc s :
  length s < fuel -> Forall (fun c => is_alnum c = false) acc ->
  exists ws, gfor (re_split_go fuel n0 fs_re_skip acc s) keep = gof ws /\ token_pieces (rev acc ++ s) ws.
Proof.
  revert acc s. induction fuel as [|fuel IH]; intros acc s L FA; [lia|].
  assert (FR : Forall (fun c => is_alnum c = false) (rev acc)).
  { rewrite Forall_forall in *. intros x HX. apply FA. apply in_rev. auto. }
  cbn [re_split_go]. destruct s as [|c s].
  - rewrite app_nil_r. destruct (rev acc) as [|a l] eqn:E.
    + exists []. split; auto. constructor.
    + exists [a :: l]. split; auto. rewrite <- (app_nil_r (a :: l)) at 1. constructor; auto; [discriminate|constructor].
  - rewrite skip_token. destruct (is_alnum c) eqn:EC.
    + pose proof (number_token_app (c :: s)) as NT. pose proof (@number_token_ne c s EC) as NE.
      destruct (number_token (c :: s)) as [t r] eqn:ET. cbn [fst snd] in *.
      assert (LR : length r < length (c :: s)).
      { rewrite <- NT, app_length. destruct t; [congruence|]. simpl. lia. }
      replace (length r <? length (c :: s)) with true by (symmetry; apply Nat.ltb_lt; exact LR).
      rewrite (firstn_minus_app (c :: s) t r) by auto.
      destruct (IH [] r) as [ws [E TP]]; [simpl in *; lia|constructor|]. simpl rev in TP. cbn [app] in TP.
      cbn [gfor]. rewrite E.
      assert (TT : token_pieces (c :: s) (t :: ws)) by (econstructor; eauto).
      assert (KT : keep t = gone t) by (destruct t; [congruence|reflexivity]). rewrite KT.
      destruct (rev acc) as [|a l] eqn:EA.
      * exists (t :: ws). split; auto.
      * exists ((a :: l) :: t :: ws). split; [reflexivity|]. apply tp_gap; auto. discriminate.
    + destruct (IH (c :: acc) s) as [ws [E TP]]; [simpl in L; lia|constructor; auto|].
      exists ws. split; auto. simpl in TP. rewrite <- app_assoc in TP. exact TP.
Qed.

Section Mode.
  Variable num : Num.
  Variable H : hmm num.

  Lemma str_in_dec w force :
    (if negb (str_in w force) then gone w else gof (map (fun c => [c]) w)) = gof (forced force w).
  Proof.
    unfold forced. destruct (str_in w force) eqn:E; destruct (in_dec (list_eq_dec N.eq_dec) w force) as [I|I]; simpl; auto.
    - apply str_in_In in E. contradiction.
    - rewrite <- str_in_In in I. congruence.
  Qed.

  Lemma stage_ok force s :
    exists out, fs_cut num H force s = gof out /\
      stage_text (fun r ws => fs_cut_han H r = gof ws) force (runs han_char s) out.
  Proof.
    unfold fs_cut, fs_re_han. rewrite gfor_split_class by reflexivity. rewrite gfor_map.
    rewrite (runs_ext is_han han_char s) by reflexivity.
    pose proof (runs_class han_char s) as RC. induction (runs han_char s) as [|[b r] rs IH].
    - exists []. split; auto. constructor.
    - inversion RC as [|? ? [NE FA] RC']; subst. cbn [fst snd] in *.
      destruct (IH RC') as [out [E ST]]. cbn [gfor fst snd].
      destruct r as [|c r]; [congruence|].
      unfold fs_cut_block at 1, fs_re_han. rewrite re_matches_plus. change (is_han c) with (han_char c).
      inversion FA as [|? ? HC FA']; subst. destruct (han_char c).
      + destruct (@fs_cut_han_ok num H (c :: r)) as [ls [ws [EW _]]]; [discriminate|].
        rewrite EW. unfold gbind. cbn [fst snd gof].
        exists (flat_map (forced force) ws ++ out).
        assert (EG : gfor ws (fun word => if negb (str_in word force) then gone word
                                          else gof (map (fun c => [c]) word))
                     = gof (flat_map (forced force) ws)).
        { apply gdone_gfor. intros w _. apply str_in_dec. }
        rewrite EG, E. split.
        * unfold gapp, gof. cbn [fst snd]. rewrite app_nil_r. reflexivity.
        * constructor; auto.
      + destruct (@skip_split_go (length (c :: r)) (S (length (c :: r))) [] (c :: r)) as [ws [EW TP]]; [lia|constructor|].
        exists (ws ++ out). unfold re_split. unfold keep in EW. rewrite EW, E. split; [reflexivity|]. constructor; auto.
  Qed.

  (** ** Groups of single characters *)

  Definition stage_of (force : list str) (x : str) (ps : list str) : Prop := fs_cut num H force x = gof ps.

  Lemma cut_buf_spec fr force g :
    g <> [] -> Forall (fun w => length w = 1) g ->
    exists ps, cut_buf num H fr force (concat g) = gof ps /\
      (length g = 1 \/ is_word (sget fr) (concat g) -> ps = g) /\
      (length g <> 1 -> ~ is_word (sget fr) (concat g) -> stage_of force (concat g) ps).
  Proof.
    intros NE FA.
    assert (LC : length (concat g) = length g).
    { clear NE. induction FA as [|w g LW _ IH]; simpl; auto. rewrite app_length, LW, IH. reflexivity. }
    assert (MC : map (fun c => [c]) (concat g) = g).
    { clear NE LC. induction FA as [|w g LW _ IH]; simpl; auto.
      destruct w as [|c [|d w]]; simpl in LW; try lia. simpl. rewrite IH. reflexivity. }
    assert (FT : freq_true fr (concat g) = true <-> is_word (sget fr) (concat g)).
    { unfold freq_true, is_word. destruct (sget fr (concat g)) as [n|].
      - rewrite negb_true_iff, Z.eqb_neq. split; [intros; exists n; auto|intros [m [[= ->] ?]]; auto].
      - split; [discriminate|intros [m [? _]]; discriminate]. }
    unfold cut_buf. rewrite LC. destruct (length g =? 1) eqn:E1.
    - apply Nat.eqb_eq in E1. exists [concat g]. split; auto. split.
      + intros _. destruct g as [|w [|v g]]; simpl in E1; try lia. simpl. rewrite app_nil_r. reflexivity.
      + intros; contradiction.
    - apply Nat.eqb_neq in E1. destruct (freq_true fr (concat g)) eqn:EF; simpl.
      + exists g. rewrite MC. split; auto. split; auto. intros _ NW. exfalso. apply NW. apply FT. auto.
      + destruct (@fs_cut_ok num H force (concat g)) as [ps [E _]]. exists ps. split; auto. split.
        * intros [?|W]; [contradiction|]. apply FT in W. congruence.
        * intros _ _. exact E.
  Qed.

  Lemma split_single ws :
    exists g rest, ws = g ++ rest /\ Forall (fun w : str => length w = 1) g /\
      match rest with w :: _ => length w <> 1 | [] => True end.
  Proof.
    induction ws as [|w ws IH].
    - exists [], []. auto.
    - destruct (Nat.eq_dec (length w) 1) as [E|E].
      + destruct IH as (g & rest & -> & F & M). exists (w :: g), rest. auto.
      + exists [], (w :: ws). auto.
  Qed.

  Lemma group_hmm_app fr force g buf rest :
    Forall (fun w : str => length w = 1) g ->
    group_hmm H fr force buf (g ++ rest) = group_hmm H fr force (buf ++ concat g) rest.
  Proof.
    intros F. revert buf. induction F as [|w g E _ IH]; intros buf; simpl.
    - rewrite app_nil_r. reflexivity.
    - rewrite E. simpl. rewrite IH, <- app_assoc. reflexivity.
  Qed.

  Lemma group_hmm_grouped fr force ws :
    Forall (fun w => w <> []) ws ->
    exists out, group_hmm H fr force [] ws = gof out /\
      hmm_grouped (stage_of force) (sget fr) ws out.
  Proof.
    remember (length ws) as n eqn:EN. assert (L : length ws <= n) by lia. clear EN.
    revert ws L. induction n as [|n IH]; intros ws L FA.
    - destruct ws; [|simpl in L; lia]. exists []. split; auto. constructor.
    - destruct (split_single ws) as (g & rest & -> & F & M).
      rewrite group_hmm_app by auto. cbn [app].
      apply Forall_app in FA. destruct FA as [_ FA].
      assert (REST : exists out, match rest with
                                 | [] => @gnil str
                                 | w :: rest' => gcons w (group_hmm H fr force [] rest')
                                 end = gof out /\ hmm_grouped (stage_of force) (sget fr) rest out).
      { destruct rest as [|w rest']; [exists []; split; auto; constructor|].
        rewrite app_length in L. inversion FA; subst.
        destruct (IH rest') as [out [E HG]]; auto; [unfold str, char in *; simpl in L; lia|].
        exists (w :: out). rewrite E. split; auto. constructor; auto. }
      assert (GH : forall buf, group_hmm H fr force buf rest =
                   gapp (flush_hmm H fr force buf)
                        (match rest with [] => gnil | w :: rest' => gcons w (group_hmm H fr force [] rest') end)).
      { intros buf. destruct rest as [|w rest'].
        - simpl. unfold gapp, gnil. simpl. destruct (flush_hmm H fr force buf) as [l [e|]]; simpl; auto.
          rewrite app_nil_r. reflexivity.
        - simpl. destruct (length w =? 1) eqn:E; [apply Nat.eqb_eq in E; contradiction|]. reflexivity. }
      destruct REST as [out [ER HG]]. rewrite GH, ER.
      destruct g as [|w g].
      + exists out. split; auto.
      + destruct (@cut_buf_spec fr force (w :: g)) as [ps [EP [P1 P2]]]; auto; [discriminate|].
        exists (ps ++ out).
        assert (EF : flush_hmm H fr force (concat (w :: g)) = gof ps).
        { inversion F as [|? ? LW _]; subst. destruct w as [|c w]; [simpl in LW; lia|]. exact EP. }
        rewrite EF. split; [reflexivity|]. apply hg_group; auto. discriminate.
  Qed.

  Lemma cut_hmm_text fr total force s :
    sane (sget fr) total ->
    exists out, (forall r, hmm_grouped (stage_of force) (sget fr) (chosen num fr total r) (out r)) /\
      cut num H WithHMM fr total force s =
      gof (flat_map (fun br : bool * str => if fst br then out (snd br) else chars_crlf (snd br)) (runs word_char s)).
  Proof.
    intros [T P].
    assert (G : forall r, exists out, group_hmm H fr force [] (chosen num fr total r) = gof out /\
                hmm_grouped (stage_of force) (sget fr) (chosen num fr total r) out).
    { intros r. apply group_hmm_grouped. unfold chosen.
      destruct (calc_total num fr total r T P) as [route E]. rewrite E.
      destruct (@walk_partition fr r 0 (route_words (S (length r)) r route 0)) as [_ PN]; auto; [|lia].
      apply (route_words_walk (fr := fr)); [eapply calc_ok; eauto|lia|lia]. }
    exists (fun r => fst (group_hmm H fr force [] (chosen num fr total r))). split.
    - intros r. destruct (G r) as [out [E HG]]. rewrite E. exact HG.
    - rewrite cut_runs_accurate by auto. apply gdone_gfor. intros [b r] _. simpl. destruct b; auto.
      destruct (G r) as [out [E _]]. rewrite E. transitivity (gof out); [|reflexivity]. rewrite <- E.
      unfold chosen. destruct (calc_total num fr total r T P) as [route ER]. rewrite ER.
      apply cut_hmm_block_eq; auto.
  Qed.
End Mode.
