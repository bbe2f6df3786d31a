(** * C118: what raising the frequency of a word does to a longer text *)
From Coq Require Import Reals Lra Lia.
From Verif Require Import PyBase PyRegex PyNum ModelFinalseg ModelSeg ModelDict SpecBase SpecSeg SpecNum SpecScore SpecDict SpecHealth
  InstR Demo
  ProofsBase ProofsRegex ProofsSplit ProofsDag ProofsSeg ProofsOpt ProofsNoHmm ProofsDict ProofsSuggest ProofsHealth ProofsPick
  PropsTotal ProofsDemo.

(** ** Comparing by integers *)
Lemma chosen_int fr T s ws :
  healthy fr T -> candidate (sget fr) s ws ->
  (weights (sget fr) ws * T ^ Z.of_nat (length (chosen numR fr T s)) <=
   weights (sget fr) (chosen numR fr T s) * T ^ Z.of_nat (length ws))%Z.
Proof.
  intros HE C. pose proof HE as [PC [P _]]. pose proof (healthy_sane HE) as SA.
  pose proof (@chosen_prob fr T s ws SA PC C) as L. rewrite !prob_words in L by auto.
  apply le_IZR. rewrite !mult_IZR, <- !pow_IZR. assert (P0 : (0 < IZR T)%R) by (apply IZR_lt; auto).
  set (a := chosen numR fr T s) in *.
  pose proof (pow_lt _ (length a) P0) as PA. pose proof (pow_lt _ (length ws) P0) as PW.
  set (x := (IZR T ^ length a)%R) in *. set (y := (IZR T ^ length ws)%R) in *.
  assert (XY : (0 < x * y)%R) by (apply Rmult_lt_0_compat; auto).
  apply (Rmult_le_compat_r (x * y)) in L; [|lra].
  match type of L with (?p / _ * _ <= ?q / _ * _)%R => set (p0 := p) in *; set (q0 := q) in * end.
  replace (p0 / y * (x * y))%R with (p0 * x)%R in L by (field; lra).
  replace (q0 / x * (x * y))%R with (q0 * y)%R in L by (field; lra). exact L.
Qed.

Lemma candidate_words_same D E s ws : (forall x, is_word D x <-> is_word E x) -> candidate D s ws -> candidate E s ws.
Proof.
  intros WW. revert s. induction ws as [|w ws IH]; intros s C; cbn in *; auto.
  destruct C as [s' [-> [NE [W C]]]]. exists s'. split; auto. split; auto. split; auto.
  destruct W as [W|[L W]]; [left; apply WW; auto|right]. split; auto. intros v NV PV WV. apply (W v NV PV). apply WW. auto.
Qed.

(** ** A word with a higher frequency *)
Section Raise.
  Variables (fr : freqs) (T : Z) (w : str) (f f' : Z).
  Hypothesis HE : healthy fr T.
  Hypothesis EF : sget fr w = Some f.
  Hypothesis LF : (0 < f)%Z.
  Hypothesis LF' : (0 < f')%Z.
  Let fr' := add_prefixes (sset fr w f') w.
  Let T' := (T + f')%Z.

  Lemma raised_get v : v <> w -> weight_of (sget fr') v = weight_of (sget fr) v.
  Proof.
    intros NE. unfold weight_of, fr'. rewrite add_get. unfold after_add.
    destruct (str_eqb v w) eqn:E; [apply str_eqb_eq in E; congruence|].
    destruct (sget fr v); auto. destruct (is_prefix v w); auto.
  Qed.
  Lemma raised_word v : is_word (sget fr') v <-> is_word (sget fr) v.
  Proof.
    unfold is_word, fr'. rewrite add_get. unfold after_add. destruct (str_eqb v w) eqn:E.
    - apply str_eqb_eq in E. subst v. split; intros _; eexists; (split; [first [reflexivity|exact EF]|lia]).
    - destruct (sget fr v) eqn:G; [tauto|]. destruct (is_prefix v w); [|tauto].
      split; intros [n [K N]]; [injection K as <-; congruence|discriminate].
  Qed.
  Lemma raised_w : weight_of (sget fr') w = f' /\ weight_of (sget fr) w = f.
  Proof.
    unfold weight_of, fr'. rewrite add_get. unfold after_add. rewrite str_eqb_refl, EF.
    destruct (Z.eqb_spec f' 0), (Z.eqb_spec f 0); lia.
  Qed.
  Lemma raised_without ws : ~ In w ws -> weights (sget fr') ws = weights (sget fr) ws.
  Proof.
    induction ws as [|v ws IH]; intros N; [reflexivity|]. unfold weights in *. cbn [fold_right].
    rewrite IH by (intros K; apply N; right; auto). rewrite raised_get by (intros ->; apply N; left; auto). reflexivity.
  Qed.
  Lemma healthy_nonneg v n : sget fr v = Some n -> (0 <= n)%Z.
  Proof. destruct (healthy_sane HE) as [_ P]. apply P. Qed.
  Lemma raised_more ws :
    (f < f')%Z ->
    (weights (sget fr) ws <= weights (sget fr') ws)%Z /\ (In w ws -> (weights (sget fr) ws < weights (sget fr') ws)%Z).
  Proof.
    intros L. induction ws as [|v ws [IH1 IH2]]; [cbn; split; [lia|tauto]|].
    pose proof (weights_pos (sget fr) ws healthy_nonneg) as P. unfold weights in *. cbn [fold_right].
    assert (PV : (0 < weight_of (sget fr) v)%Z).
    { pose proof (weights_pos (sget fr) [v] healthy_nonneg) as Q. unfold weights in Q. cbn [fold_right] in Q. lia. }
    destruct (list_eq_dec N.eq_dec v w) as [->|NE].
    - destruct raised_w as [E1 E2]. rewrite E1, E2 in *. split; [nia|intros _; nia].
    - rewrite (raised_get v NE). split; [nia|]. intros [K|K]; [congruence|]. specialize (IH2 K). nia.
  Qed.

  Lemma raised_healthy : healthy fr' T'.
  Proof. apply healthy_add; auto. lia. Qed.

  (** the new choice has the word, or not more words; fewer, if the old one had the word *)
  Lemma raised_choice s :
    (f < f')%Z -> ~ In w (chosen numR fr' T' s) ->
    length (chosen numR fr' T' s) <= length (chosen numR fr T s) /\
    (In w (chosen numR fr T s) -> length (chosen numR fr' T' s) < length (chosen numR fr T s)).
  Proof.
    intros L N. pose proof raised_healthy as HE'. pose proof HE as [PC [P _]]. pose proof HE' as [PC' [P' _]].
    pose proof (chosen_candidate numR s (healthy_sane HE) PC) as C.
    pose proof (chosen_candidate numR s (healthy_sane HE') PC') as C'.
    assert (C1 : candidate (sget fr) s (chosen numR fr' T' s)).
    { eapply candidate_words_same; [|exact C']. intros x. apply raised_word. }
    assert (C2 : candidate (sget fr') s (chosen numR fr T s)).
    { eapply candidate_words_same; [|exact C]. intros x. symmetry. apply raised_word. }
    pose proof (@chosen_int _ _ _ _ HE C1) as B1. pose proof (@chosen_int _ _ _ _ HE' C2) as B2.
    rewrite (raised_without _ N) in B2.
    set (a := chosen numR fr T s) in *. set (b := chosen numR fr' T' s) in *.
    pose proof (weights_pos (sget fr) a healthy_nonneg) as WA. pose proof (weights_pos (sget fr) b healthy_nonneg) as WB.
    destruct (raised_more a L) as [M1 M2].
    assert (G : length a <= length b -> (weights (sget fr') a * T' ^ Z.of_nat (length b - length a) <=
                                          weights (sget fr) a * T ^ Z.of_nat (length b - length a))%Z).
    { intros LE. set (k := length b - length a). replace (length b) with (length a + k) in B1, B2 by (unfold k; lia).
      rewrite Nat2Z.inj_add, Z.pow_add_r in B1, B2 by lia.
      assert (Q : (0 < T ^ Z.of_nat (length a))%Z) by (apply Z.pow_pos_nonneg; lia).
      assert (Q' : (0 < T' ^ Z.of_nat (length a))%Z) by (apply Z.pow_pos_nonneg; lia).
      assert (X1 : (weights (sget fr) b <= weights (sget fr) a * T ^ Z.of_nat k)%Z) by nia.
      assert (X2 : (weights (sget fr') a * T' ^ Z.of_nat k <= weights (sget fr) b)%Z) by nia. lia. }
    assert (PW : forall k, (0 < T ^ Z.of_nat k <= T' ^ Z.of_nat k)%Z).
    { intros k. split; [apply Z.pow_pos_nonneg; lia|]. apply Z.pow_le_mono_l. unfold T'. lia. }
    split.
    - destruct (Nat.le_gt_cases (length b) (length a)) as [|GT]; auto. exfalso. specialize (G ltac:(lia)).
      assert (S1 : (T ^ Z.of_nat (length b - length a) < T' ^ Z.of_nat (length b - length a))%Z).
      { apply Z.pow_lt_mono_l; unfold T'; lia. }
      pose proof (PW (length b - length a)). nia.
    - intros I. specialize (M2 I). destruct (Nat.lt_ge_cases (length b) (length a)) as [|GT]; auto. exfalso. specialize (G GT).
      pose proof (PW (length b - length a)). nia.
  Qed.
  Lemma raised_less ws :
    (f' < f)%Z ->
    (weights (sget fr') ws <= weights (sget fr) ws)%Z /\ (In w ws -> (weights (sget fr') ws < weights (sget fr) ws)%Z).
  Proof.
    intros L. induction ws as [|v ws [IH1 IH2]]; [cbn; split; [lia|tauto]|].
    pose proof (weights_pos (sget fr) ws healthy_nonneg) as P. unfold weights in *. cbn [fold_right].
    assert (PV : (0 < weight_of (sget fr) v)%Z).
    { pose proof (weights_pos (sget fr) [v] healthy_nonneg) as Q. unfold weights in Q. cbn [fold_right] in Q. lia. }
    destruct (list_eq_dec N.eq_dec v w) as [->|NE].
    - destruct raised_w as [E1 E2]. rewrite E1, E2 in *. split; [nia|intros _; nia].
    - rewrite (raised_get v NE). split; [nia|]. intros [K|K]; [congruence|]. specialize (IH2 K). nia.
  Qed.
  (** the other way round: with a lower frequency the word comes in only with fewer words *)
  Lemma lowered_choice s :
    (f' < f)%Z -> ~ In w (chosen numR fr T s) ->
    length (chosen numR fr' T' s) <= length (chosen numR fr T s) /\
    (In w (chosen numR fr' T' s) -> length (chosen numR fr' T' s) < length (chosen numR fr T s)).
  Proof.
    intros L N. pose proof raised_healthy as HE'. pose proof HE as [PC [P _]]. pose proof HE' as [PC' [P' _]].
    pose proof (chosen_candidate numR s (healthy_sane HE) PC) as C.
    pose proof (chosen_candidate numR s (healthy_sane HE') PC') as C'.
    assert (C1 : candidate (sget fr) s (chosen numR fr' T' s)).
    { eapply candidate_words_same; [|exact C']. intros x. apply raised_word. }
    assert (C2 : candidate (sget fr') s (chosen numR fr T s)).
    { eapply candidate_words_same; [|exact C]. intros x. symmetry. apply raised_word. }
    pose proof (@chosen_int _ _ _ _ HE C1) as B1. pose proof (@chosen_int _ _ _ _ HE' C2) as B2.
    rewrite (raised_without _ N) in B2.
    set (a := chosen numR fr T s) in *. set (b := chosen numR fr' T' s) in *.
    pose proof (weights_pos (sget fr) a healthy_nonneg) as WA. pose proof (weights_pos (sget fr) b healthy_nonneg) as WB.
    destruct (raised_less b L) as [M1 M2].
    assert (G : length a <= length b -> (weights (sget fr) a * T' ^ Z.of_nat (length b - length a) <= weights (sget fr') b)%Z /\
                                        (weights (sget fr) b <= weights (sget fr) a * T ^ Z.of_nat (length b - length a))%Z).
    { intros LE. set (k := length b - length a). replace (length b) with (length a + k) in B1, B2 by (unfold k; lia).
      rewrite Nat2Z.inj_add, Z.pow_add_r in B1, B2 by lia.
      assert (Q : (0 < T ^ Z.of_nat (length a))%Z) by (apply Z.pow_pos_nonneg; lia).
      assert (Q' : (0 < T' ^ Z.of_nat (length a))%Z) by (apply Z.pow_pos_nonneg; lia). split; nia. }
    assert (PW : forall k, (0 < T ^ Z.of_nat k <= T' ^ Z.of_nat k)%Z).
    { intros k. split; [apply Z.pow_pos_nonneg; lia|]. apply Z.pow_le_mono_l. unfold T'. lia. }
    split.
    - destruct (Nat.le_gt_cases (length b) (length a)) as [|GT]; auto. exfalso. destruct (G ltac:(lia)) as [G1 G2].
      assert (S1 : (T ^ Z.of_nat (length b - length a) < T' ^ Z.of_nat (length b - length a))%Z).
      { apply Z.pow_lt_mono_l; unfold T'; lia. }
      nia.
    - intros I. specialize (M2 I). destruct (Nat.lt_ge_cases (length b) (length a)) as [|GT]; auto. exfalso. destruct (G GT) as [G1 G2].
      pose proof (PW (length b - length a)). nia.
  Qed.
End Raise.

(** Raising the frequency of a word that is there in the segmentation of a text: the
    word is there again, or the text is now cut into fewer words (texts without ASCII
    letters and digits, HMM off, exact arithmetic). *)
Theorem C118_raising :
  forall (H : hmm numR) (d d' : dstate) (w : str) (f f' : Z) (tag : option str) (s : str) (ws : list str),
    healthy (d_freq d) (d_total d) -> Forall (fun c => is_alnum c = false) s ->
    cut numR H (mode_of false false) (d_freq d) (d_total d) (d_force d) s = gof ws -> In w ws ->
    sget (d_freq d) w = Some f -> (0 < f < f')%Z -> add_word numR H d w (Some f') tag = Ok d' ->
    exists ws',
      cut numR H (mode_of false false) (d_freq d') (d_total d') (d_force d') s = gof ws' /\
      (In w ws' \/ length ws' < length ws).
Proof.
  intros H d d' w f f' tag s ws HE FA EC IW EF [L1 L2] ED.
  unfold add_word in ED. cbn [rbind] in ED. inversion ED. clear ED. subst d'. cbn [d_freq d_total d_force add_word_freq].
  set (fr := d_freq d) in *. set (T := d_total d) in *.
  assert (L3 : (0 < f')%Z) by lia. pose proof (@raised_healthy fr T w f' HE L3) as HE'.
  cbn [mode_of] in *. rewrite cut_nohmm_text in EC by (apply healthy_sane; auto).
  rewrite cut_nohmm_text by (apply healthy_sane; auto). eexists. split; [reflexivity|].
  apply (f_equal fst) in EC. cbn [fst gof] in EC. subst ws.
  set (fr' := add_prefixes (sset fr w f') w) in *. set (T' := (T + f')%Z) in *.
  match goal with |- In w ?l \/ _ => destruct (in_dec (list_eq_dec N.eq_dec) w l) as [I|N]; [left; exact I|right] end.
  rewrite <- (runs_concat word_char s) in FA.
  assert (G : forall rs, Forall (fun c => is_alnum c = false) (concat (map snd rs)) ->
    let new := flat_map (fun br : bool * str => if fst br then merge_eng [] (chosen numR fr' T' (snd br)) else chars_crlf (snd br)) rs in
    let old := flat_map (fun br : bool * str => if fst br then merge_eng [] (chosen numR fr T (snd br)) else chars_crlf (snd br)) rs in
    ~ In w new -> length new <= length old /\ (In w old -> length new < length old)).
  { clear IW N FA s. induction rs as [|[b r] rs IH]; intros FA new old N; [subst new old; cbn; split; [lia|tauto]|].
    cbn [map concat snd] in FA. apply Forall_app in FA. destruct FA as [FR FS]. specialize (IH FS). cbv zeta in IH.
    subst new old. cbn [flat_map fst snd] in *. rewrite in_app_iff in N. rewrite !app_length.
    destruct IH as [IH1 IH2]; [tauto|].
    match goal with |- ?a + ?x <= ?c + ?y /\ _ => assert (Q : a <= c /\ (In w (if b then merge_eng [] (chosen numR fr T r) else chars_crlf r) -> a < c)) end.
    { destruct b; [|split; [lia|intros I; exfalso; apply N; left; exact I]].
      pose proof HE as [PC _]. pose proof HE' as [PC' _].
      pose proof (chosen_candidate numR r (healthy_sane HE) PC) as C. apply candidate_partition in C. destruct C as [C _].
      pose proof (chosen_candidate numR r (healthy_sane HE') PC') as C'. apply candidate_partition in C'. destruct C' as [C' _].
      rewrite !merge_nothing in * by (rewrite ?C, ?C'; auto).
      apply (@raised_choice fr T w f f' HE EF L1 L3 r L2). intros K. apply N. left. exact K. }
    destruct Q as [Q1 Q2]. split; [lia|]. rewrite in_app_iff. intros [I|I]; [specialize (Q2 I)|specialize (IH2 I)]; lia. }
  apply (G _ FA N). exact IW.
Qed.

(** Adding a word that is not there in the segmentation once more, with a lower
    frequency: it is not there again, or the text is now cut into fewer words. *)
Theorem C118_lowering :
  forall (H : hmm numR) (d d' : dstate) (w : str) (f f' : Z) (tag : option str) (s : str) (ws : list str),
    healthy (d_freq d) (d_total d) -> Forall (fun c => is_alnum c = false) s ->
    cut numR H (mode_of false false) (d_freq d) (d_total d) (d_force d) s = gof ws -> ~ In w ws ->
    sget (d_freq d) w = Some f -> (0 < f' < f)%Z -> add_word numR H d w (Some f') tag = Ok d' ->
    exists ws',
      cut numR H (mode_of false false) (d_freq d') (d_total d') (d_force d') s = gof ws' /\
      (~ In w ws' \/ length ws' < length ws).
Proof.
  intros H d d' w f f' tag s ws HE FA EC IW EF [L1 L2] ED.
  unfold add_word in ED. cbn [rbind] in ED. inversion ED. clear ED. subst d'. cbn [d_freq d_total d_force add_word_freq].
  set (fr := d_freq d) in *. set (T := d_total d) in *.
  assert (L3 : (0 < f)%Z) by lia. pose proof (@raised_healthy fr T w f' HE L1) as HE'.
  cbn [mode_of] in *. rewrite cut_nohmm_text in EC by (apply healthy_sane; auto).
  rewrite cut_nohmm_text by (apply healthy_sane; auto). eexists. split; [reflexivity|].
  apply (f_equal fst) in EC. cbn [fst gof] in EC. subst ws.
  set (fr' := add_prefixes (sset fr w f') w) in *. set (T' := (T + f')%Z) in *.
  match goal with |- ~ In w ?l \/ _ => destruct (in_dec (list_eq_dec N.eq_dec) w l) as [I|N]; [right|left; exact N] end.
  rewrite <- (runs_concat word_char s) in FA.
  assert (G : forall rs, Forall (fun c => is_alnum c = false) (concat (map snd rs)) ->
    let new := flat_map (fun br : bool * str => if fst br then merge_eng [] (chosen numR fr' T' (snd br)) else chars_crlf (snd br)) rs in
    let old := flat_map (fun br : bool * str => if fst br then merge_eng [] (chosen numR fr T (snd br)) else chars_crlf (snd br)) rs in
    ~ In w old -> length new <= length old /\ (In w new -> length new < length old)).
  { clear IW I FA s. induction rs as [|[b r] rs IH]; intros FA new old N; [subst new old; cbn; split; [lia|tauto]|].
    cbn [map concat snd] in FA. apply Forall_app in FA. destruct FA as [FR FS]. specialize (IH FS). cbv zeta in IH.
    subst new old. cbn [flat_map fst snd] in *. rewrite in_app_iff in N. rewrite !app_length.
    destruct IH as [IH1 IH2]; [tauto|].
    match goal with |- ?a + ?x <= ?c + ?y /\ _ => assert (Q : a <= c /\ (In w (if b then merge_eng [] (chosen numR fr' T' r) else chars_crlf r) -> a < c)) end.
    { destruct b; [|split; [lia|intros I; exfalso; apply N; left; exact I]].
      pose proof HE as [PC _]. pose proof HE' as [PC' _].
      pose proof (chosen_candidate numR r (healthy_sane HE) PC) as C. apply candidate_partition in C. destruct C as [C _].
      pose proof (chosen_candidate numR r (healthy_sane HE') PC') as C'. apply candidate_partition in C'. destruct C' as [C' _].
      rewrite !merge_nothing in * by (rewrite ?C, ?C'; auto).
      apply (@lowered_choice fr T w f f' HE EF L3 L1 r L2). intros K. apply N. left. exact K. }
    destruct Q as [Q1 Q2]. split; [lia|]. rewrite in_app_iff. intros [I|I]; [specialize (Q2 I)|specialize (IH2 I)]; lia. }
  apply (G _ FA IW). exact I.
Qed.

(** ** It can indeed go

    In this dictionary, 北京大学生 is 北京/大/学/生.  Add 北京 once more, with
    whatever frequency: it is 北/京大学生 -- each addition also counts in the total,
    and with a larger total fewer words win. *)
Definition rz : dstate :=
  build [([c_bei; c_jing], 100%Z); ([c_da], 10%Z); ([c_xue], 10%Z); ([c_sheng], 10%Z); ([c_bei], 1%Z);
         ([c_jing; c_da; c_xue; c_sheng], 3%Z)].
Definition rz_text : str := [c_bei; c_jing; c_da; c_xue; c_sheng].
Lemma rz_healthy : healthy (d_freq rz) (d_total rz).
Proof. apply healthyb_ok. vm_compute. reflexivity. Qed.

Theorem C118_no_frequency_brings_it_back :
  exists (d : dstate) (w s : str) (ws : list str),
    healthy (d_freq d) (d_total d) /\ In w ws /\ Forall (fun c => is_alnum c = false) s /\
    forall H : hmm numR,
      cut numR H (mode_of false false) (d_freq d) (d_total d) (d_force d) s = gof ws /\
      forall (f' : Z) (tag : option str) (d' : dstate), (0 < f')%Z -> add_word numR H d w (Some f') tag = Ok d' ->
        exists ws', cut numR H (mode_of false false) (d_freq d') (d_total d') (d_force d') s = gof ws' /\ ~ In w ws'.
Proof.
  exists rz, [c_bei; c_jing], rz_text, [[c_bei; c_jing]; [c_da]; [c_xue]; [c_sheng]].
  split; [exact rz_healthy|]. split; [left; reflexivity|]. split; [repeat constructor|]. intros H. split.
  - apply (@pick_cut H _ _ _ _ [[c_bei; c_jing]; [c_da]; [c_xue]; [c_sheng]]); [exact rz_healthy|discriminate| | |]; try (vm_compute; reflexivity).
    repeat constructor.
  - intros f' tag d' L ED. unfold add_word in ED. cbn [rbind] in ED. inversion ED. clear ED. subst d'. cbn [d_freq d_total d_force add_word_freq].
    set (w := [c_bei; c_jing]).
    assert (EF : sget (d_freq rz) w = Some 100%Z) by (vm_compute; reflexivity). assert (L0 : (0 < 100)%Z) by lia.
    pose proof (@raised_healthy _ _ w f' rz_healthy L) as HE'. pose proof HE' as [PC' _].
    cbn [mode_of]. rewrite cut_nohmm_text by (apply healthy_sane; auto). eexists. split; [reflexivity|].
    assert (FW : Forall (fun c => word_char c = true) rz_text) by (repeat constructor).
    assert (NE : rz_text <> []) by discriminate.
    rewrite (@runs_whole word_char rz_text true NE FW). cbn [flat_map fst snd]. rewrite app_nil_r.
    pose proof (chosen_candidate numR rz_text (healthy_sane HE') PC') as C'.
    assert (C1 : candidate (sget (d_freq rz)) rz_text (chosen numR (add_prefixes (sset (d_freq rz) w f') w) (d_total rz + f') rz_text)).
    { eapply candidate_words_same; [|exact C']. intros x. apply (@raised_word (d_freq rz) 0 w 100 f' EF L0 L). }
    apply (@cands_all (d_freq rz) _ rz_text (length rz_text) (le_n _)) in C1.
    assert (CB : candidate (sget (add_prefixes (sset (d_freq rz) w f') w)) rz_text [[c_bei]; [c_jing; c_da; c_xue; c_sheng]]).
    { eapply candidate_words_same; [intros x; symmetry; apply (@raised_word (d_freq rz) 0 w 100 f' EF L0 L)|].
      apply candb_ok. vm_compute. reflexivity. }
    pose proof (@chosen_int _ _ _ _ HE' CB) as B.
    match type of C1 with In _ ?l => replace l with [[[c_bei]; [c_jing; c_da; c_xue; c_sheng]]; [[c_bei; c_jing]; [c_da]; [c_xue]; [c_sheng]]] in C1
      by (vm_compute; reflexivity) end.
    destruct C1 as [E|[E|[]]]; rewrite <- E in *.
    + change (merge_eng [] [[c_bei]; [c_jing; c_da; c_xue; c_sheng]]) with [[c_bei]; [c_jing; c_da; c_xue; c_sheng]].
      intros [K|[K|[]]]; discriminate K.
    + exfalso. rewrite (@raised_without (d_freq rz) w f') in B by (intros [K|[K|[]]]; discriminate K).
      assert (WA : weights (sget (add_prefixes (sset (d_freq rz) w f') w)) [w; [c_da]; [c_xue]; [c_sheng]] = (f' * 1000)%Z).
      { unfold weights. cbn [fold_right]. destruct (@raised_w (d_freq rz) 0 w 100 f' EF L0 L) as [-> _].
        rewrite !(@raised_get (d_freq rz) w f') by discriminate.
        change (weight_of (sget (d_freq rz)) [c_da]) with 10%Z. change (weight_of (sget (d_freq rz)) [c_xue]) with 10%Z.
        change (weight_of (sget (d_freq rz)) [c_sheng]) with 10%Z. lia. }
      fold w in B. rewrite WA in B. change (weights (sget (d_freq rz)) [[c_bei]; [c_jing; c_da; c_xue; c_sheng]]) with 3%Z in B.
      change (d_total rz) with 134%Z in B. cbn [length Z.of_nat Pos.of_succ_nat Pos.succ] in B.
      replace ((134 + f') ^ 4)%Z with ((134 + f') * (134 + f') * ((134 + f') * (134 + f')))%Z in B by ring.
      replace ((134 + f') ^ 2)%Z with ((134 + f') * (134 + f'))%Z in B by ring.
      assert (P : (0 < (134 + f') * (134 + f'))%Z) by nia.
      assert (B2 : (3 * ((134 + f') * (134 + f')) <= f' * 1000)%Z) by nia. nia.
Qed.

Print Assumptions C118_raising.
Print Assumptions C118_lowering.
Print Assumptions C118_no_frequency_brings_it_back.

(** the hypotheses are met, with the word that stays: 北京 raised from 30 to 60 *)
Example C118_nonvacuous :
  let d := build [([c_bei; c_jing], 30%Z); ([c_da; c_xue], 20%Z); ([c_bei], 10%Z); ([c_jing; c_da], 5%Z)] in
  healthy (d_freq d) (d_total d) /\ sget (d_freq d) [c_bei; c_jing] = Some 30%Z /\
  forall H, cut numR H (mode_of false false) (d_freq d) (d_total d) (d_force d) [c_bei; c_jing; c_da; c_xue] =
            gof [[c_bei; c_jing]; [c_da; c_xue]].
Proof.
  cbv zeta. split; [apply healthyb_ok; vm_compute; reflexivity|]. split; [vm_compute; reflexivity|]. intros H.
  apply (@pick_cut H _ _ _ _ [[c_bei; c_jing]; [c_da; c_xue]]); [|discriminate| | |]; try (vm_compute; reflexivity).
  - apply healthyb_ok. vm_compute. reflexivity.
  - repeat constructor.
Qed.

(** ... and with a word that is in the dictionary and does not come out *)
Example C118_lowering_nonvacuous :
  let d := build [([c_bei; c_jing], 5%Z); ([c_jing; c_da], 300%Z); ([c_bei], 300%Z); ([c_xue], 300%Z)] in
  healthy (d_freq d) (d_total d) /\ sget (d_freq d) [c_bei; c_jing] = Some 5%Z /\
  forall H, cut numR H (mode_of false false) (d_freq d) (d_total d) (d_force d) [c_bei; c_jing; c_da; c_xue] =
            gof [[c_bei]; [c_jing; c_da]; [c_xue]].
Proof.
  cbv zeta. split; [apply healthyb_ok; vm_compute; reflexivity|]. split; [vm_compute; reflexivity|]. intros H.
  apply (@pick_cut H _ _ _ _ [[c_bei]; [c_jing; c_da]; [c_xue]]); [|discriminate| | |]; try (vm_compute; reflexivity).
  - apply healthyb_ok. vm_compute. reflexivity.
  - repeat constructor.
Qed.
