(** * C116: With HMM no word is taken apart *)
From Coq Require Import Lia.
From Verif Require Import PyBase PyRegex PyNum ModelFinalseg ModelSeg ModelDict ModelPosseg
  SpecBase SpecSeg SpecHmm SpecNum SpecScore SpecMode SpecPosseg SpecTagging InstR InstQ InstB64 InstExt
  ProofsBase ProofsSeg ProofsRegex ProofsFinalseg ProofsNoHmm ProofsMode ProofsPosHmm2 ProofsSearch ProofsSuggest PropsCut PropsMode PropsModes PropsPosseg
  Demo ProofsDemo DemoPos.

(** [out] has the words of [fine], some of them joined: only neighbours of one character each are *)
Definition joins_characters (fine out : list str) : Prop :=
  exists groups : list (list str),
    fine = concat groups /\ out = map (@concat char) groups /\
    Forall (fun g => g <> [] /\ (length g <> 1 -> Forall (fun w => length w = 1) g)) groups.

Lemma joins_nil : joins_characters [] [].
Proof. exists []. auto. Qed.

Lemma joins_app a b c d : joins_characters a b -> joins_characters c d -> joins_characters (a ++ c) (b ++ d).
Proof.
  intros (g & -> & -> & F) (h & -> & -> & F'). exists (g ++ h). rewrite concat_app, map_app, Forall_app. auto.
Qed.

Lemma joins_refl a : joins_characters a a.
Proof.
  exists (map (fun w => [w]) a). split; [|split].
  - induction a; cbn; congruence.
  - rewrite map_map. symmetry. etransitivity; [|apply map_id]. apply map_ext. intros w. cbn. apply app_nil_r.
  - apply Forall_map, Forall_forall. intros w _. split; [discriminate|]. cbn. lia.
Qed.

Lemma joins_keep fine out : joins_characters fine out -> forall v, In v fine -> length v <> 1 -> In v out.
Proof.
  intros (gs & -> & -> & F) v I LV. apply in_concat in I. destruct I as (g & Ig & I).
  rewrite Forall_forall in F. destruct (F g Ig) as [_ F1]. apply in_map_iff. exists g. split; auto.
  destruct g as [|x [|y g]]; [destruct I| |].
  - destruct I as [->|[]]. cbn. apply app_nil_r.
  - exfalso. apply LV. assert (FA : Forall (fun w => length w = 1) (x :: y :: g)) by (apply F1; cbn; lia).
    rewrite Forall_forall in FA. auto.
Qed.

Lemma joins_one g : g <> [] -> Forall (fun w => length w = 1) g -> joins_characters g [concat g].
Proof. intros N F. exists [g]. cbn. rewrite app_nil_r. auto. Qed.

(** any division of the characters of a group *)
Lemma joins_partition ps : forall g, Forall (fun w => length w = 1) g -> partition (concat g) ps -> joins_characters g ps.
Proof.
  induction ps as [|p ps IH]; intros g F [E N].
  - cbn in E. destruct g as [|w g]; [apply joins_nil|]. inversion F as [|? ? L _]; subst.
    destruct w; [discriminate L|discriminate E].
  - cbn [concat] in E. inversion N as [|? ? NP NN]; subst.
    assert (X : exists a b, g = a ++ b /\ concat a = p /\ concat b = concat ps).
    { clear IH NN N NP. revert p E. induction g as [|w g IHg]; intros p E.
      - exists [], []. cbn in *. apply app_eq_nil in E. destruct E as [-> ->]. auto.
      - inversion F as [|? ? L F']; subst. destruct w as [|c [|d w]]; try discriminate L.
        destruct p as [|x p].
        + exists [], ([c] :: g). cbn in *. auto.
        + cbn in E. injection E as -> E. destruct (IHg F' p E) as (a & b & -> & <- & B).
          exists ([c] :: a), b. auto. }
    destruct X as (a & b & -> & <- & B). apply Forall_app in F. destruct F as [FA FB].
    change (concat a :: ps) with ([concat a] ++ ps). apply joins_app.
    + apply joins_one; auto. intros ->. now apply NP.
    + apply IH; auto. split; auto.
Qed.

Lemma joins_merged ws out : merged ws out -> joins_characters ws out.
Proof.
  induction 1 as [|w ws out E M IH|g ws out NE FG HD M IH].
  - apply joins_nil.
  - exact (@joins_app [w] [w] _ _ (joins_refl [w]) IH).
  - apply (@joins_app g [concat g]); auto. apply joins_one; auto.
    eapply Forall_impl; [|exact FG]. intros w. unfold single_alnum. destruct w as [|c [|d w]]; cbn; congruence.
Qed.

Lemma word_or_not (D : dictionary) w : is_word D w \/ ~ is_word D w.
Proof.
  unfold is_word. destruct (D w) as [n|]; [|right; intros (m & E & _); discriminate E].
  destruct (Z.eq_dec n 0) as [->|N]; [right; intros (m & E & K); congruence|left; eauto].
Qed.

Lemma joins_grouped (stage : str -> list str -> Prop) D ws out : (forall x ps, stage x ps -> partition x ps) ->
  hmm_grouped stage D ws out -> joins_characters ws out.
Proof.
  intros P. induction 1 as [|w ws out L G IH|g ws ps out NE F HD K X G IH].
  - apply joins_nil.
  - exact (@joins_app [w] [w] _ _ (joins_refl [w]) IH).
  - apply joins_app; auto. destruct (Nat.eq_dec (length g) 1) as [L|L].
    { rewrite K by auto. apply joins_refl. }
    destruct (word_or_not D (concat g)) as [W|W].
    { rewrite K by auto. apply joins_refl. }
    apply joins_partition; auto.
Qed.

Lemma spelled_nonempty first ws ys : spelled first ws ys -> Forall (fun w => w <> []) (map fst ws).
Proof.
  induction 1 as [|first c t ws ys _ IH|first w t n ws ys L _ IH|w t n ws ys L _ IH|first w t n L|w t n P L];
    cbn [map fst]; constructor; auto; try discriminate; intros ->; cbn in L; lia.
Qed.

Lemma stage_partition num (T : ptables num) rs out : stage_tags (hmm_finds T) rs out -> partition (concat (map snd rs)) (map fst out).
Proof.
  induction 1 as [|r ws rs out (ys & _ & _ & SP & C) G IH|r ws rs out TP G IH]; cbn [map snd concat].
  - apply partition_nil.
  - rewrite map_app. apply partition_app; auto. split; auto. eapply spelled_nonempty; eauto.
  - rewrite map_app. apply partition_app; auto. apply tag_pieces_partition; auto.
Qed.

Lemma joins_tag_grouped (stage : str -> list tagged -> Prop) D tag ws out : (forall x ps, stage x ps -> partition x (map fst ps)) ->
  tag_grouped stage D tag ws out -> joins_characters ws (map fst out).
Proof.
  intros P. assert (MF : forall g : list str, map fst (map (fun w => (w, tag w)) g) = g).
  { intros g. rewrite map_map. cbn [fst]. apply map_id. }
  induction 1 as [|w ws out L G IH|g ws ps out NE F HD K X G IH].
  - apply joins_nil.
  - exact (@joins_app [w] [w] _ _ (joins_refl [w]) IH).
  - rewrite map_app. apply joins_app; auto. destruct (Nat.eq_dec (length g) 1) as [L|L].
    { rewrite K by auto. rewrite MF. apply joins_refl. }
    destruct (word_or_not D (concat g)) as [W|W].
    { rewrite K by auto. rewrite MF. apply joins_refl. }
    apply joins_partition; auto.
Qed.

Lemma joins_tag_merged tag ws out : tag_merged tag ws out -> joins_characters ws (map fst out).
Proof.
  induction 1 as [|w ws out E M IH|g ws out NE FG HD M IH].
  - apply joins_nil.
  - exact (@joins_app [w] [w] _ _ (joins_refl [w]) IH).
  - apply (@joins_app g [concat g]); auto. apply joins_one; auto.
    eapply Forall_impl; [|exact FG]. intros w (c & -> & _). reflexivity.
Qed.

(** without letters and digits nothing is joined without HMM *)
Lemma merged_same ws out : merged ws out -> Forall (fun w => single_alnum w = false) ws -> out = ws.
Proof.
  induction 1 as [|w ws out E M IH|g ws out NE FG HD M IH]; intros F; auto.
  - inversion F; subst. f_equal; auto.
  - exfalso. apply Forall_app in F. destruct F as [F _]. destruct g as [|w g]; [congruence|].
    inversion F; subst. inversion FG; subst. congruence.
Qed.

Lemma tag_merged_same tag ws out : tag_merged tag ws out -> Forall (fun w => ~ alnum_word w) ws -> map fst out = ws.
Proof.
  induction 1 as [|w ws out E M IH|g ws out NE FG HD M IH]; intros F; auto.
  - inversion F; subst. cbn. f_equal; auto.
  - exfalso. apply Forall_app in F. destruct F as [F _]. destruct g as [|w g]; [congruence|].
    inversion F; subst. inversion FG; subst. congruence.
Qed.

Lemma joins_runs (p : char -> bool) s (f g : bool * str -> list str) :
  (forall br, In br (runs p s) -> joins_characters (f br) (g br)) ->
  joins_characters (flat_map f (runs p s)) (flat_map g (runs p s)).
Proof.
  generalize (runs p s) as rs. induction rs as [|br rs IH]; intros A; cbn [flat_map]; [apply joins_nil|].
  apply joins_app; [apply A; left; auto|apply IH; intros; apply A; right; auto].
Qed.

Lemma run_chars p s b r (P : char -> Prop) : In (b, r) (runs p s) -> Forall P s -> Forall P r.
Proof.
  intros I F. apply in_split in I. destruct I as (x & y & E). rewrite <- (runs_concat p s), E in F.
  rewrite map_app, concat_app in F. cbn in F. rewrite !Forall_app in F. tauto.
Qed.

(** ** Every text: both results come from the same words, of which only single characters are joined *)
Theorem C116_same_words_behind :
  forall (num : Num) (O : NumOrder num) (H : hmm num) (fr : freqs) (total : Z) (force : list str) (s : str),
    sane (sget fr) total -> prefix_closed (sget fr) ->
    exists fine,
      joins_characters fine (fst (cut num H (mode_of false false) fr total force s)) /\
      joins_characters fine (fst (cut num H (mode_of false true) fr total force s)).
Proof.
  intros num O H fr total force s SA PC.
  destruct (C57_hmm_only_for_unknown_groups num O H fr total force s SA PC) as (choice & plain & tg & E1 & E2 & A).
  exists (flat_map (fun br : bool * str => if fst br then choice (snd br) else chars_crlf (snd br)) (runs word_char s)).
  rewrite E1, E2. cbn [fst gof]. split; apply joins_runs; intros [[|] r] I; cbn [fst snd]; try apply joins_refl;
    destruct (A r) as (_ & M & G).
  - apply joins_merged. exact M.
  - eapply joins_grouped; [|exact G]. intros x ps E. cbv beta in E. destruct (fs_cut_ok H force x) as (ws & E' & P).
    rewrite E' in E. apply (f_equal fst) in E. cbn in E. now subst.
Qed.

(** ** Texts without letters and digits: what the HMM adds is joining single characters *)
Theorem C116_hmm_only_joins :
  forall (num : Num) (O : NumOrder num) (H : hmm num) (fr : freqs) (total : Z) (force : list str) (s : str),
    sane (sget fr) total -> prefix_closed (sget fr) -> Forall (fun c => is_alnum c = false) s ->
    joins_characters (fst (cut num H (mode_of false false) fr total force s))
                     (fst (cut num H (mode_of false true) fr total force s)).
Proof.
  intros num O H fr total force s SA PC NA.
  destruct (C57_hmm_only_for_unknown_groups num O H fr total force s SA PC) as (choice & plain & tg & E1 & E2 & A).
  rewrite E1, E2. cbn [fst gof]. apply joins_runs. intros [[|] r] I; cbn [fst snd]; [|apply joins_refl].
  destruct (A r) as ([C _] & M & G).
  assert (FR : Forall (fun c => is_alnum c = false) r) by (eapply run_chars; eauto).
  assert (F : Forall (fun w => single_alnum w = false) (choice r)).
  { apply candidate_partition in C. destruct C as [C _]. rewrite <- C in FR. clear - FR. induction (choice r) as [|w ws IH]; constructor.
    - cbn in FR. apply Forall_app in FR. destruct FR as [FR _]. unfold single_alnum. destruct w as [|c [|d w]]; auto.
      now inversion FR.
    - apply IH. cbn in FR. apply Forall_app in FR. tauto. }
  rewrite (merged_same _ _ M F).
  eapply joins_grouped; [|exact G]. intros x ps E. cbv beta in E. destruct (fs_cut_ok H force x) as (ws & E' & P).
  rewrite E' in E. apply (f_equal fst) in E. cbn in E. now subst.
Qed.

(** the words of two or more characters stay, in search mode too *)
Theorem C116_words_stay :
  forall (num : Num) (O : NumOrder num) (H : hmm num) (fr : freqs) (total : Z) (force : list str) (s w : str),
    sane (sget fr) total -> prefix_closed (sget fr) -> Forall (fun c => is_alnum c = false) s -> 2 <= length w ->
    (In w (fst (cut num H (mode_of false false) fr total force s)) ->
     In w (fst (cut num H (mode_of false true) fr total force s))) /\
    (In w (fst (cut_for_search num H false fr total force s)) ->
     In w (fst (cut_for_search num H true fr total force s))).
Proof.
  intros num O H fr total force s w SA PC NA L.
  pose proof (fun v I LV => joins_keep _ _ (C116_hmm_only_joins num O H fr total force s SA PC NA) v I LV) as K.
  split; [intros I; apply K; auto; lia|].
  rewrite !C10_search_mode. cbn [fst]. intros I. apply in_flat_map in I. destruct I as (v & Iv & I).
  apply in_flat_map. exists v. split; auto. apply K; auto. intros LV.
  apply expand_cases in I. destruct I as [->|(_ & a & b & ->)]; [lia|].
  rewrite !app_length in LV. lia.
Qed.

(** ** Tagging *)
Theorem C116_tagger :
  forall (num : Num) (O : NumOrder num) (NI : NumInf num) (T : ptables num) (ord : orders) (tab : sdict str)
         (fr : freqs) (total : Z) (s : str),
    tables_ok NI T -> bmes T -> one_tag T -> fair_order ord ->
    sane (sget fr) total -> i_lim NI (2 * length s) ->
    (exists fine,
      joins_characters fine (map fst (fst (ps_cut T ord false tab fr total s))) /\
      joins_characters fine (map fst (fst (ps_cut T ord true tab fr total s)))) /\
    (Forall (fun c => is_alnum c = false) s ->
      joins_characters (map fst (fst (ps_cut T ord false tab fr total s)))
                       (map fst (fst (ps_cut T ord true tab fr total s)))).
Proof.
  intros num O NI T ord tab fr total s OK BM ST FO SA LIM.
  destruct (ps_cut_text num NI T OK BM ST ord FO true tab fr total s SA (fun _ => LIM)) as [out2 [E2 G2]].
  destruct (ps_cut_text num NI T OK BM ST ord FO false tab fr total s SA (fun _ => LIM)) as [out1 [E1 G1]].
  rewrite E1, E2. cbn [fst gof].
  assert (MF : forall (f : str -> list tagged),
    map fst (flat_map (fun br : bool * str => if fst br then f (snd br) else map (fun w => (w, tag_x)) (chars_crlf (snd br))) (runs pos_word_char s)) =
    flat_map (fun br : bool * str => if fst br then map fst (f (snd br)) else chars_crlf (snd br)) (runs pos_word_char s)).
  { intros f. generalize (runs pos_word_char s) as rs. induction rs as [|[[|] r] rs IH]; cbn [flat_map fst snd]; auto;
      rewrite map_app; f_equal; try exact IH; auto. rewrite map_map. cbn [fst]. apply map_id. }
  rewrite !MF.
  assert (G : forall r, In (true, r) (runs pos_word_char s) -> joins_characters (chosen num fr total r) (map fst (out2 r))).
  { intros r I. destruct (G2 r I) as [B _]. cbn in B. eapply joins_tag_grouped; [|exact B].
    intros x ps SG. pose proof (stage_partition _ _ _ _ SG) as P. rewrite runs_concat in P. exact P. }
  split.
  - exists (flat_map (fun br : bool * str => if fst br then chosen num fr total (snd br) else chars_crlf (snd br)) (runs pos_word_char s)).
    split; apply joins_runs; intros [[|] r] I; cbn [fst snd]; try apply joins_refl; auto.
    destruct (G1 r I) as [B _]. cbn in B. eapply joins_tag_merged; exact B.
  - intros NA. apply joins_runs. intros [[|] r] I; cbn [fst snd]; [|apply joins_refl].
    destruct (G1 r I) as [B _]. cbn in B. rewrite (tag_merged_same _ _ _ B); auto.
    destruct (chosen_partition num fr total r SA) as [C _].
    pose proof (run_chars _ _ _ _ _ I NA) as FR. rewrite <- C in FR. clear - FR.
    induction (chosen num fr total r) as [|w ws IH]; constructor.
    + cbn in FR. apply Forall_app in FR. destruct FR as [FR _]. intros (c & -> & E). inversion FR as [|? ? X _]; subst.
      change (alnum_char c) with (is_alnum c) in E. congruence.
    + apply IH. cbn in FR. apply Forall_app in FR. tauto.
Qed.

(** ** With digits: "1.5a" is 1 . 5a without HMM, and 1.5 a with it *)
Definition digits_text : str := [49; 46; 53; 97]%N.

Theorem C116_digits_refuted :
  exists fr total s, sane (sget fr) total /\ prefix_closed (sget fr) /\
    cut numQ demo_hmm (mode_of false false) fr total [] s = gof [[49]; [46]; [53; 97]]%N /\
    cut numQ demo_hmm (mode_of false true) fr total [] s = gof [[49; 46; 53]; [97]]%N /\
    ~ joins_characters (fst (cut numQ demo_hmm (mode_of false false) fr total [] s))
                       (fst (cut numQ demo_hmm (mode_of false true) fr total [] s)).
Proof.
  exists demo_fr, demo_total, digits_text. split; [apply saneb_ok; vm_compute; reflexivity|].
  split; [apply prefix_closedb_ok; vm_compute; reflexivity|].
  assert (E1 : cut numQ demo_hmm (mode_of false false) demo_fr demo_total [] digits_text = gof [[49]; [46]; [53; 97]]%N)
    by (vm_compute; reflexivity).
  assert (E2 : cut numQ demo_hmm (mode_of false true) demo_fr demo_total [] digits_text = gof [[49; 46; 53]; [97]]%N)
    by (vm_compute; reflexivity).
  split; auto. split; auto. rewrite E1, E2. intros J.
  assert (I : In [53; 97]%N (fst (gof [[49; 46; 53]; [97]]%N))) by (eapply joins_keep; [exact J|cbn; auto|cbn; lia]).
  cbn in I. destruct I as [I|[I|[]]]; discriminate I.
Qed.

(** the HMM joins three characters, the dictionary words stay *)
Example C116_nonvacuous :
  let d := build [([c_bei; c_jing], 90%Z); ([c_lai], 50%Z); ([c_da], 50%Z); ([c_xue], 50%Z)] in
  let s := [c_bei; c_jing; c_lai; c_da; c_xue; c_bei; c_jing; c_comma] in
  sane (sget (d_freq d)) (d_total d) /\ prefix_closed (sget (d_freq d)) /\ Forall (fun c => is_alnum c = false) s /\
  cut numQ demo_hmm (mode_of false false) (d_freq d) (d_total d) [] s =
    gof [[c_bei; c_jing]; [c_lai]; [c_da]; [c_xue]; [c_bei; c_jing]; [c_comma]] /\
  cut numQ demo_hmm (mode_of false true) (d_freq d) (d_total d) [] s =
    gof [[c_bei; c_jing]; [c_lai; c_da; c_xue]; [c_bei; c_jing]; [c_comma]].
Proof.
  split; [apply saneb_ok; vm_compute; reflexivity|]. split; [apply prefix_closedb_ok; vm_compute; reflexivity|].
  split; [repeat constructor|]. split; vm_compute; reflexivity.
Qed.

(** the tagger, with the shipped structure of tables *)
Example C116_tagger_nonvacuous :
  let s := [c_bei; c_jing; c_jing; c_sheng; c_sheng; c_comma] in
  tables_ok infQ demo_T /\ bmes demo_T /\ one_tag demo_T /\ fair_order demo_ord /\ Forall (fun c => is_alnum c = false) s /\
  joins_characters (map fst (fst (ps_cut demo_T demo_ord false [] demo_fr demo_total s)))
                   (map fst (fst (ps_cut demo_T demo_ord true [] demo_fr demo_total s))) /\
  map fst (fst (ps_cut demo_T demo_ord false [] demo_fr demo_total s)) <>
  map fst (fst (ps_cut demo_T demo_ord true [] demo_fr demo_total s)).
Proof.
  cbv zeta. destruct (shipped_fine numE infQ demo_v demo_v_ok) as (A & B & C).
  assert (N : Forall (fun c => is_alnum c = false) [c_bei; c_jing; c_jing; c_sheng; c_sheng; c_comma]) by repeat constructor.
  assert (SA : sane (sget demo_fr) demo_total) by (apply saneb_ok; vm_compute; reflexivity).
  split; [exact A|]. split; [exact B|]. split; [exact C|]. split; [exact demo_fair|]. split; [exact N|]. split.
  - exact (proj2 (C116_tagger numE orderE infQ demo_T demo_ord [] demo_fr demo_total _ A B C demo_fair SA I) N).
  - vm_compute. discriminate.
Qed.

Print Assumptions C116_same_words_behind.
Print Assumptions C116_hmm_only_joins.
Print Assumptions C116_words_stay.
Print Assumptions C116_tagger.
Print Assumptions C116_digits_refuted.
