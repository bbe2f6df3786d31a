(** * C114: the rest of the words is the segmentation of the rest of the text *)
From Coq Require Import Reals Lra Lia.
From Verif Require Import PyBase PyRegex PyNum ModelFinalseg ModelSeg ModelDict ModelPosseg
  SpecBase SpecSeg SpecNum SpecScore SpecDict SpecHealth SpecPosseg SpecTagging InstR InstQ InstExt
  ProofsBase ProofsRegex ProofsSplit ProofsDag ProofsSeg ProofsOpt ProofsNoHmm ProofsSuggest ProofsStable ProofsHealth
  ProofsPosseg ProofsPosHmm2 ProofsRest ProofsPick Demo ProofsDemo DemoPos.

Lemma chosen_parts num fr total r : sane (sget fr) total ->
  concat (chosen num fr total r) = r /\ Forall (fun w => w <> []) (chosen num fr total r).
Proof.
  intros [T P]. unfold chosen. destruct (calc_total num fr total r T P) as [route E]. rewrite E.
  apply (@walk_partition fr r 0 (route_words (S (length r)) r route 0)); [|lia].
  apply (route_words_walk (fr := fr)); [eapply calc_ok; eauto|lia|lia].
Qed.

Definition words_at num fr total (br : bool * str) : list str :=
  if fst br then merge_eng [] (chosen num fr total (snd br)) else chars_crlf (snd br).

Lemma words_at_parts num fr total br : sane (sget fr) total ->
  concat (words_at num fr total br) = snd br /\ Forall (fun w => w <> []) (words_at num fr total br).
Proof.
  intros SA. destruct br as [[|] r]; unfold words_at; cbn [fst snd].
  - destruct (chosen_parts num fr total r SA) as [C N].
    apply (@merge_eng_partition [] (chosen num fr total r) r). split; auto.
  - apply chars_crlf_spec.
Qed.

Lemma words_at_rest num fr total b r us vs : sane (sget fr) total ->
  words_at num fr total (b, r) = us ++ vs -> words_at num fr total (b, concat vs) = vs.
Proof.
  intros SA. unfold words_at. cbn [fst snd]. destruct b; [|apply chars_crlf_rest].
  intros E. pose proof (merge_eng_merged (chosen num fr total r)) as M.
  destruct (merged_rest M us vs E) as (w1 & w2 & EC & M1 & M2).
  destruct (chosen_parts num fr total r SA) as [C N].
  pose proof (@chosen_rest num fr total r w1 w2 SA EC C) as R.
  assert (CV : concat vs = concat w2).
  { clear - M2. induction M2 as [|w ws out _ _ IH|g ws out _ _ _ _ IH]; [reflexivity| |]; cbn [concat].
    - rewrite IH. reflexivity.
    - rewrite IH, concat_app. reflexivity. }
  rewrite CV, R. apply merged_eng. exact M2.
Qed.

(** ** [cut(s, HMM=False)], any arithmetic

    After the first words, the rest of the words is what [cut] gives for the rest of the
    text. *)
Theorem C114_rest :
  forall (num : Num) (H : hmm num) (fr : freqs) (total : Z) (force : list str) (s : str) (us vs : list str),
    sane (sget fr) total ->
    cut num H (mode_of false false) fr total force s = gof (us ++ vs) ->
    cut num H (mode_of false false) fr total force (concat vs) = gof vs.
Proof.
  intros num H fr total force s us vs SA E. change (mode_of false false) with NoHMM in *.
  rewrite cut_nohmm_text in * by auto. f_equal. apply (f_equal fst) in E. cbn [fst gof] in E.
  pose proof (@text_rest str (fun w => w) word_char (words_at num fr total)) as K.
  assert (W : forall xs : list str, whole (fun w => w) xs = concat xs) by (intros; unfold whole; rewrite map_id; reflexivity).
  rewrite <- (W vs). eapply K; [| | |exact E].
  - intros br. rewrite W. apply words_at_parts; auto.
  - intros br. apply words_at_parts; auto.
  - intros b r u v ws _ E2. rewrite W. eapply words_at_rest; eauto.
Qed.

(** ** The tagger without HMM, with the tags *)
Lemma merge_eng_t_rest tab ws : forall buf us vs, merge_eng_t tab buf ws = us ++ vs ->
  us = [] \/ exists w1 w2, ws = w1 ++ w2 /\ merge_eng_t tab [] w2 = vs.
Proof.
  induction ws as [|w ws IH]; intros buf us vs E.
  - destruct us as [|u us]; [left; reflexivity|]. right. exists [], []. split; auto. cbn in E |- *.
    destruct buf as [|c buf]; [discriminate|]. cbn in E. injection E as _ E. symmetry in E. apply app_eq_nil in E. symmetry. apply E.
  - cbn [merge_eng_t] in E. destruct (eng1 w) eqn:EW.
    + destruct (IH _ _ _ E) as [L | (w1 & w2 & -> & R)]; [left; auto|]. right. exists (w :: w1), w2. auto.
    + destruct us as [|u us]; [left; reflexivity|]. right.
      assert (AFTER : forall us', merge_eng_t tab [] ws = us' ++ vs -> exists w1 w2, w :: ws = w1 ++ w2 /\ merge_eng_t tab [] w2 = vs).
      { intros us' E2. destruct (IH _ _ _ E2) as [-> | (w1 & w2 & -> & R)].
        - exists [w], ws. auto.
        - exists (w :: w1), w2. auto. }
      destruct buf as [|c buf]; cbn [flush_t app] in E.
      * injection E as _ E. eauto.
      * injection E as _ E. destruct us as [|u2 us]; cbn [app] in E.
        { exists [], (w :: ws). split; auto. cbn [merge_eng_t]. rewrite EW. cbn. exact E. }
        injection E as _ E. eauto.
Qed.

Definition tagged_at num tab fr total (br : bool * str) : list tagged :=
  if fst br then merge_eng_t tab [] (chosen num fr total (snd br)) else map (fun w => (w, tag_x)) (chars_crlf (snd br)).

Lemma tagged_words num tab fr total br : map fst (tagged_at num tab fr total br) = words_at num fr total br.
Proof.
  destruct br as [[|] r]; unfold tagged_at, words_at; cbn [fst snd]; [apply merge_eng_t_words|].
  rewrite map_map. apply map_id.
Qed.

Lemma tagged_at_rest num tab fr total b r us vs : sane (sget fr) total ->
  tagged_at num tab fr total (b, r) = us ++ vs -> tagged_at num tab fr total (b, concat (map fst vs)) = vs.
Proof.
  intros SA E. destruct us as [|u us].
  { cbn [app] in E. rewrite <- E at 1. rewrite tagged_words.
    destruct (words_at_parts num fr total (b, r) SA) as [C _]. cbn [snd] in C. rewrite C. exact E. }
  unfold tagged_at in *. cbn [fst snd] in *. destruct b.
  - destruct (merge_eng_t_rest tab _ _ _ _ E) as [L | (w1 & w2 & EC & M)]; [discriminate|].
    destruct (chosen_parts num fr total r SA) as [C N].
    pose proof (@chosen_rest num fr total r w1 w2 SA EC C) as R.
    rewrite <- M at 1. rewrite merge_eng_t_words.
    assert (CV : concat (merge_eng [] w2) = concat w2).
    { apply (@merge_eng_partition [] w2 (concat w2)). split; auto. rewrite EC in N. apply Forall_app in N. apply N. }
    rewrite CV, R. exact M.
  - assert (EV : vs = map (fun w => (w, tag_x)) (map fst vs)).
    { assert (F : Forall (fun x : tagged => snd x = tag_x) vs).
      { assert (F : Forall (fun x : tagged => snd x = tag_x) ((u :: us) ++ vs)) by (rewrite <- E; apply Forall_map, Forall_forall; auto).
        apply Forall_app in F. apply F. }
      clear E. induction F as [|[w t] l S0 F IH]; [reflexivity|]. cbn in S0. subst t. cbn [map fst]. f_equal. exact IH. }
    rewrite EV at 2. f_equal. apply (chars_crlf_rest r (map fst (u :: us))).
    apply (f_equal (map fst)) in E. rewrite map_map, map_id, map_app in E. exact E.
Qed.

Theorem C114_tagger :
  forall (num : Num) (T : ptables num) (ord : orders) (tab : sdict str) (fr : freqs) (total : Z) (s : str) (us vs : list tagged),
    sane (sget fr) total ->
    ps_cut T ord false tab fr total s = gof (us ++ vs) ->
    ps_cut T ord false tab fr total (concat (map fst vs)) = gof vs.
Proof.
  intros num T ord tab fr total s us vs SA.
  assert (PS : forall t, ps_cut T ord false tab fr total t = gof (flat_map (tagged_at num tab fr total) (runs pos_word_char t))).
  { intros t. rewrite ps_cut_runs. apply gdone_gfor. intros [b r] HI. unfold tagged_at. cbn [fst snd]. destruct b; [|reflexivity].
    pose proof (@ProofsRegex.runs_class pos_word_char t) as RC. rewrite Forall_forall in RC. destruct (RC _ HI) as [_ FA]. cbn [fst snd] in FA.
    rewrite ps_nohmm_block_eq.
    - unfold chosen. destruct SA as [TT P]. destruct (calc_total num fr total r TT P) as [route E]. rewrite E. reflexivity.
    - intros I10. rewrite Forall_forall in FA. apply FA in I10. discriminate I10. }
  rewrite !PS. intros E. f_equal. apply (f_equal fst) in E. cbn [fst gof] in E.
  eapply (@text_rest tagged fst pos_word_char (tagged_at num tab fr total)); [| | |exact E].
  - intros br. unfold whole. rewrite tagged_words. apply words_at_parts; auto.
  - intros br. apply (proj1 (Forall_map fst (fun w => w <> []) _)). rewrite tagged_words. apply words_at_parts; auto.
  - intros b r u v ws _ E2. eapply tagged_at_rest; eauto.
Qed.

(** ** Any stretch of words, in exact arithmetic, if every character of a word is itself in
    the dictionary *)
Section R.
  Variables (fr : freqs) (T : Z).
  Hypothesis HE : healthy fr T.
  Notation D := (sget fr).
  Notation ch := (chosen numR fr T).
  Let SA : sane D T := healthy_sane HE.
  Let PC : prefix_closed D := proj1 HE.

  Definition known (s : str) : Prop := forall c, In c s -> word_char c = true -> is_word D [c].

  Lemma candidate_known s ws : (forall c, In c s -> is_word D [c]) -> candidate D s ws -> Forall (is_word D) ws.
  Proof.
    intros K C. pose proof (candidate_words _ _ _ C) as W. destruct (candidate_partition _ _ _ C) as [E _].
    rewrite Forall_forall in W |- *. intros w WI. destruct (W w WI) as [|L]; auto.
    destruct w as [|c [|d w]]; try discriminate L. apply K. rewrite <- E. apply in_concat. exists [c]. cbn; auto.
  Qed.

  Lemma chosen_begin r b : (forall c, In c r -> is_word D [c]) ->
    forall a a0, ch r = a0 ++ a ++ b -> ch (concat a) = a.
  Proof.
    intros K. induction a as [|x a IH]; intros a0 E.
    { unfold chosen. cbn [concat]. destruct (calc numR fr T [] (get_DAG fr [])); reflexivity. }
    pose proof (chosen_candidate numR r SA PC) as C. pose proof (candidate_partition _ _ _ C) as [CP CN].
    pose proof (candidate_known _ _ K C) as CW. rewrite E in C, CP, CN, CW.
    apply Forall_app in CW. destruct CW as [_ CW]. apply Forall_app in CW. destruct CW as [CW _].
    apply Forall_app in CN. destruct CN as [_ CN]. apply Forall_app in CN. destruct CN as [CN _].
    assert (CA : candidate D (concat (x :: a)) (x :: a)).
    { pose proof (@candidate_words_app D (x :: a) [] [] CW CN eq_refl) as Q. rewrite !app_nil_r in Q. exact Q. }
    destruct (@candidate_split _ _ _ _ C) as (s2 & ES & C2 & KK).
    destruct (@candidate_split _ _ _ _ C2) as (s3 & ES3 & C3 & _).
    pose proof (chosen_candidate numR (concat (x :: a)) SA PC) as CH.
    assert (KA : forall c, In c (concat (x :: a)) -> is_word D [c]).
    { intros c I. apply K. rewrite <- CP. rewrite !concat_app. apply in_or_app. right. apply in_or_app. left. exact I. }
    pose proof (candidate_known _ _ KA CH) as WH. pose proof (candidate_partition _ _ _ CH) as [HP HN].
    assert (CJ : candidate D s2 (ch (concat (x :: a)) ++ b)).
    { pose proof (@candidate_words_app D _ s3 b WH HN C3) as Q. rewrite HP in Q. rewrite ES3. exact Q. }
    assert (EQ : prob D T (ch (concat (x :: a))) = prob D T (x :: a)).
    { pose proof (chosen_prob _ _ SA PC (KK _ CJ)) as L. rewrite E in L. rewrite !prob_app in L.
      pose proof (prob_le1 HE a0) as [PA _]. pose proof (prob_le1 HE b) as [PB _].
      apply Rmult_le_reg_l in L; auto. apply Rmult_le_reg_r in L; auto.
      pose proof (chosen_prob _ _ SA PC CA) as L2. lra. }
    destruct (ch (concat (x :: a))) as [|y ws] eqn:EH.
    { cbn in HP. inversion CN; subst. destruct x; [congruence|discriminate HP]. }
    assert (L1 : length y <= length x).
    { eapply (@chosen_longest numR orderR fr T r a0 x (a ++ b) y (ws ++ b)); auto.
      - apply candidate_partition in C2. destruct C2 as [C2 _]. cbn [app concat] in *. rewrite C2. exact CJ.
      - apply (proj2 (score_le_prob (x :: a ++ b) (y :: ws ++ b) SA)).
        change (x :: a ++ b) with ((x :: a) ++ b). change (y :: ws ++ b) with ((y :: ws) ++ b).
        rewrite !prob_app, EQ. apply Rle_refl. }
    assert (L2 : length x <= length y).
    { eapply (@chosen_longest numR orderR fr T (concat (x :: a)) [] y ws x a); auto.
      - rewrite HP. exact CA.
      - apply (proj2 (score_le_prob (y :: ws) (x :: a) SA)). rewrite EQ. apply Rle_refl. }
    assert (EX : y = x /\ concat ws = concat a).
    { cbn [concat] in HP. clear - HP L1 L2. revert x HP L1 L2.
      induction y as [|c y IH]; intros [|d x] HP L1 L2; cbn in L1, L2; try lia; [split; auto|].
      cbn [app] in HP. injection HP as -> HP. destruct (IH x HP ltac:(lia) ltac:(lia)) as [-> ->]. auto. }
    destruct EX as [-> EX]. f_equal.
    assert (CC : concat (ch (concat (x :: a))) = concat (x :: a)) by (rewrite EH; exact HP).
    pose proof (@chosen_rest numR fr T (concat (x :: a)) [x] ws SA EH CC) as R.
    rewrite EX in R. rewrite <- R. apply (IH (a0 ++ [x])). rewrite <- app_assoc. exact E.
  Qed.
End R.

Theorem C114_stretch :
  forall (H : hmm numR) (fr : freqs) (total : Z) (force : list str) (s : str) (us vs ws : list str),
    healthy fr total ->
    (forall c, In c s -> word_char c = true -> is_word (sget fr) [c]) ->
    cut numR H (mode_of false false) fr total force s = gof (us ++ vs ++ ws) ->
    cut numR H (mode_of false false) fr total force (concat vs) = gof vs.
Proof.
  intros H fr total force s us vs ws HE K E.
  pose proof (healthy_sane HE) as SA.
  assert (W : forall xs : list str, whole (fun w => w) xs = concat xs) by (intros; unfold whole; rewrite map_id; reflexivity).
  rewrite app_assoc in E.
  assert (B : cut numR H (mode_of false false) fr total force (concat (us ++ vs)) = gof (us ++ vs)).
  { change (mode_of false false) with NoHMM in *. rewrite cut_nohmm_text in * by auto. f_equal.
    apply (f_equal fst) in E. cbn [fst gof] in E. rewrite <- (W (us ++ vs)).
    eapply (@text_begin str (fun w => w) word_char (words_at numR fr total)) with (good := known fr); [| | | |exact K|exact E].
    - intros br. rewrite W. apply words_at_parts; auto.
    - intros br. apply words_at_parts; auto.
    - intros s0 L1 b r L2 G ER c CI. apply G. rewrite <- (runs_concat word_char s0), ER.
      apply in_concat. exists r. split; auto. apply in_map_iff. exists (b, r). split; auto. apply in_or_app. right. left. reflexivity.
    - intros b r u v vs0 G FA E2. rewrite W. unfold words_at in *. cbn [fst snd] in *.
      change (u ++ v :: vs0) with (u ++ [v] ++ vs0) in E2. rewrite app_assoc in E2.
      destruct b; [|eapply chars_crlf_begin; exact E2].
      destruct (merged_rest (merge_eng_merged (chosen numR fr total r)) _ _ E2) as (w1 & w2 & EC & M1 & M2).
      assert (CV : concat (u ++ [v]) = concat w1).
      { clear - M1. induction M1 as [|w ws out _ _ IH|g ws out _ _ _ _ IH]; [reflexivity| |]; cbn [concat].
        - rewrite IH. reflexivity.
        - rewrite IH, concat_app. reflexivity. }
      rewrite CV. rewrite (@chosen_begin fr total HE r w2) with (a0 := []); [apply merged_eng; exact M1| |exact EC].
      intros c CI. rewrite Forall_forall in FA. apply G; auto. }
  eapply C114_rest; eauto.
Qed.

(** ** Without that condition the beginning can change

    北京来到生 is 北/京来/到生; of 北京来 alone the most probable segmentation is 北京/来,
    because now the 来 without an entry of its own may stand alone. *)
Definition rs : dstate :=
  build [([c_bei], 1%Z); ([c_bei; c_jing], 5%Z); ([c_jing; c_lai], 1%Z); ([c_lai; c_dao], 1%Z); ([c_dao; c_sheng], 1000%Z)].
Lemma rs_long H : cut numR H (mode_of false false) (d_freq rs) (d_total rs) (d_force rs) [c_bei; c_jing; c_lai; c_dao; c_sheng] =
  gof [[c_bei]; [c_jing; c_lai]; [c_dao; c_sheng]].
Proof.
  apply (@pick_cut H _ _ _ _ [[c_bei]; [c_jing; c_lai]; [c_dao; c_sheng]]); [|discriminate| | |]; try (vm_compute; reflexivity).
  - apply healthyb_ok. vm_compute. reflexivity.
  - repeat constructor.
Qed.
Lemma rs_short H : cut numR H (mode_of false false) (d_freq rs) (d_total rs) (d_force rs) [c_bei; c_jing; c_lai] =
  gof [[c_bei; c_jing]; [c_lai]].
Proof.
  apply (@pick_cut H _ _ _ _ [[c_bei; c_jing]; [c_lai]]); [|discriminate| | |]; try (vm_compute; reflexivity).
  - apply healthyb_ok. vm_compute. reflexivity.
  - repeat constructor.
Qed.
Theorem C114_beginning_refuted :
  exists (d : dstate) (s : str) (us vs : list str),
    healthy (d_freq d) (d_total d) /\
    forall H : hmm numR,
      cut numR H (mode_of false false) (d_freq d) (d_total d) (d_force d) s = gof (us ++ vs) /\
      cut numR H (mode_of false false) (d_freq d) (d_total d) (d_force d) (concat us) <> gof us.
Proof.
  exists rs, [c_bei; c_jing; c_lai; c_dao; c_sheng], [[c_bei]; [c_jing; c_lai]], [[c_dao; c_sheng]].
  split; [apply healthyb_ok; vm_compute; reflexivity|]. intros H. split; [apply rs_long|].
  cbn [concat app]. rewrite rs_short. discriminate.
Qed.

(** ** With HMM the rest can change: 北京大 is 北/京/大, but 京大 alone is one word *)
Definition rs_hmm : hmm numQ :=
  mkHmm numQ
    (fun y => QArith_base.inject_Z (match y with LB | LS => 0 | _ => -1000 end)%Z : F numQ)
    (fun a b => Some (QArith_base.inject_Z (match a, b with LS, LS => -2 | LB, LE => -1 | _, _ => -10 end)%Z : F numQ))
    (fun _ _ => Some (QArith_base.inject_Z 0 : F numQ)).
Theorem C114_hmm_refuted :
  exists (H : hmm numQ) (d : dstate) (s : str) (us vs : list str),
    healthy (d_freq d) (d_total d) /\
    cut numQ H (mode_of false true) (d_freq d) (d_total d) (d_force d) s = gof (us ++ vs) /\
    cut numQ H (mode_of false true) (d_freq d) (d_total d) (d_force d) (concat vs) <> gof vs.
Proof.
  exists rs_hmm, (build [([c_lai; c_dao], 10%Z)]), [c_bei; c_jing; c_da], [[c_bei]], [[c_jing]; [c_da]].
  split; [apply healthyb_ok; vm_compute; reflexivity|]. split; [vm_compute; reflexivity|]. vm_compute. discriminate.
Qed.

(** ** Cases: the rest of a text with letters, CR LF and two runs, in the middle of a run *)
Example C114_nonvacuous :
  sane (sget demo_fr) demo_total /\
  cut numQ demo_hmm (mode_of false false) demo_fr demo_total [] [c_lai; c_dao; c_bei; c_jing; 97; 49; 13; 10; c_da; c_xue]%N =
    gof ([[c_lai; c_dao]; [c_bei; c_jing]] ++ [[97; 49]; [13; 10]; [c_da; c_xue]])%N /\
  ps_cut demo_T demo_ord false [] demo_fr demo_total [c_lai; c_dao; 97; 49; 13; 10; c_da; c_xue]%N =
    gof ([([c_lai; c_dao], tag_x)] ++ [([97; 49], [101; 110; 103]); ([13; 10], tag_x); ([c_da; c_xue], tag_x)])%N.
Proof.
  split; [apply saneb_ok; vm_compute; reflexivity|]. split; vm_compute; reflexivity.
Qed.
Definition rs3 : dstate :=
  build [([c_bei], 1%Z); ([c_jing], 2%Z); ([c_bei; c_jing], 50%Z); ([c_da], 3%Z); ([c_xue], 4%Z); ([c_da; c_xue], 40%Z); ([c_jing; c_da], 1%Z)].
Example C114_stretch_nonvacuous :
  healthy (d_freq rs3) (d_total rs3) /\
  (forall c, In c [c_bei; c_jing; c_da; c_xue; c_da] -> word_char c = true -> is_word (sget (d_freq rs3)) [c]) /\
  forall H : hmm numR,
    cut numR H (mode_of false false) (d_freq rs3) (d_total rs3) (d_force rs3) [c_bei; c_jing; c_da; c_xue; c_da] =
    gof ([[c_bei; c_jing]] ++ [[c_da; c_xue]] ++ [[c_da]]).
Proof.
  split; [apply healthyb_ok; vm_compute; reflexivity|]. split.
  - intros c I _. cbn [In] in I. unfold is_word.
    destruct I as [<- | [<- | [<- | [<- | [<- | []]]]]]; eexists; (split; [vm_compute; reflexivity|discriminate]).
  - intros H. apply (@pick_cut H _ _ _ _ [[c_bei; c_jing]; [c_da; c_xue]; [c_da]]); [|discriminate| | |]; try (vm_compute; reflexivity).
    + apply healthyb_ok. vm_compute. reflexivity.
    + repeat constructor.
Qed.

Print Assumptions C114_rest.
Print Assumptions C114_tagger.
Print Assumptions C114_stretch.
Print Assumptions C114_beginning_refuted.
Print Assumptions C114_hmm_refuted.
