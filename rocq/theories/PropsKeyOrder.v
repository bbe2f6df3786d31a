(** * C117: what one more stop word, or one more occurrence, changes for TF-IDF keywords *)
From Coq Require Import Reals Lra Lia Permutation.
From Verif Require Import PyBase PyRegex PyNum SpecNum ModelFinalseg ModelSeg ModelDict ModelApi ModelPosseg ModelAnalyse
  SpecBase SpecSeg SpecTagging SpecAnalyse InstR InstQ InstExt InstRound InstCount Demo DemoPos
  ProofsBase ProofsSplit ProofsKeywords ProofsTfidf PropsFull PropsPosseg PropsAnalyse PropsRepeat.

(** ** Rankings of a part *)
Lemma before_filter {A} (p : A -> bool) l x y : before (filter p l) x y -> before l x y.
Proof.
  induction l as [|z l IH]; cbn [filter]; intros B; [apply before_In in B; destruct B as [[] _]|].
  destruct (p z).
  - apply before_cons in B. destruct B as [[-> I]|B]; [apply in_before; apply filter_In in I; tauto|apply before_tl; auto].
  - apply before_tl. auto.
Qed.
Lemma filter_before {A} (p : A -> bool) l x y : before l x y -> p x = true -> p y = true -> before (filter p l) x y.
Proof.
  intros (a & b & c & ->) X Y. rewrite filter_app. cbn [filter]. rewrite X, filter_app. cbn [filter]. rewrite Y.
  exists (filter p a), (filter p b), (filter p c). reflexivity.
Qed.
Lemma before_map {A B} (f : A -> B) l x y : before l x y -> before (map f l) (f x) (f y).
Proof. intros (a & b & c & ->). exists (map f a), (map f b), (map f c). rewrite map_app. cbn. rewrite map_app. reflexivity. Qed.

Lemma perm_filter {A} (p : A -> bool) l r : Permutation l r -> Permutation (filter p l) (filter p r).
Proof.
  induction 1; cbn [filter]; repeat match goal with |- context [p ?z] => destruct (p z) end; eauto using Permutation.
Qed.

Lemma best_first_filter {A} (p : A -> bool) val l r : best_first val l r -> best_first val (filter p l) (filter p r).
Proof.
  intros [P B]. split; [apply perm_filter; auto|]. intros x y X.
  pose proof (before_In _ _ _ X) as [IX IY]. apply filter_In in IX, IY.
  destruct (B x y (before_filter _ _ _ _ X)) as [L|[E F]]; auto. right. split; auto. apply filter_before; tauto.
Qed.

Lemma best_first_ext {A} (v v' : A -> R) l r : (forall x, In x l -> v' x = v x) -> best_first v l r -> best_first v' l r.
Proof.
  intros E [P B]. split; auto. intros x y X. pose proof (before_In _ _ _ X) as [IX IY].
  rewrite !E by (eapply Permutation_in; [apply Permutation_sym; exact P|auto]). auto.
Qed.

Lemma first_occ_filter {A} (p : A -> bool) (l c : list A) : first_occurrences l c -> first_occurrences (filter p l) (filter p c).
Proof.
  intros (N & I & B). split; [apply NoDup_filter; auto|]. split.
  - intros x. rewrite !filter_In, I. reflexivity.
  - intros x y X. pose proof (before_In _ _ _ X) as [IX _]. apply filter_In in IX.
    destruct (B x y (before_filter _ _ _ _ X)) as (u & v & -> & NU & NE). exists (filter p u), (filter p v).
    rewrite filter_app. cbn [filter]. destruct IX as [_ ->]. split; auto. split; auto. intros K. apply filter_In in K. tauto.
Qed.
Lemma first_occ_unique (l c c' : list term) : first_occurrences l c -> first_occurrences l c' -> c = c'.
Proof. intros F G. apply (first_occ_same term_eq_dec l [] c c' F); [now rewrite app_nil_r|intros x []]. Qed.

(** a ranking of (term, weight) pairs is a ranking of the terms *)
Lemma ranking_of_keys {B} (W : term -> B) (v : B -> R) c all :
  NoDup c -> best_first (fun jy => v (snd jy)) (map (fun j => (j, W j)) c) all ->
  exists ks, all = map (fun j => (j, W j)) ks /\ best_first (fun j => v (W j)) c ks.
Proof.
  intros ND [P Bf]. exists (map fst all).
  assert (PK : Permutation c (map fst all)).
  { apply (Permutation_map fst) in P. rewrite map_map in P. cbn [fst] in P. rewrite map_id in P. exact P. }
  assert (EA : all = map (fun j => (j, W j)) (map fst all)).
  { rewrite map_map. rewrite <- (map_id all) at 1. apply map_ext_in. intros [j b] I.
    apply (Permutation_in _ (Permutation_sym P)) in I. apply in_map_iff in I. destruct I as (i & E & _).
    injection E as -> <-. reflexivity. }
  split; auto. split; auto. intros x y X. apply (before_map (fun j => (j, W j))) in X. rewrite <- EA in X.
  destruct (Bf _ _ X) as [L|[E F]]; auto. right. split; auto.
  apply (before_map fst) in F. rewrite map_map in F. cbn [fst] in F. rewrite map_id in F. exact F.
Qed.

(** ** The score of a term: occurrences times IDF *)
Definition score (idf : str -> R) (occ : list term) (j : term) : R := (INR (times j occ) * idf (term_word j))%R.

Lemma tfidf_keys (lower : str -> str) (H : hmm numX) T ord w (x : tfidf numX) (idf : str -> R) s k allow withFlag ts occ :
  words_for numX H T ord w allow s ts ->
  (forall y, match sget (tf_freq x) y with Some v => v | None => tf_median x end = Some (idf y)) ->
  counted lower (tf_stop x) allow withFlag ts occ ->
  exists c ks r, first_occurrences occ c /\ best_first (score idf occ) c ks /\
    top_part k (map (fun j => (j, Some (score idf occ j / INR (length occ))%R)) ks) r /\
    snd (extract_tags lower H T ord w x s k true allow withFlag) = Ok (Items numX r).
Proof.
  intros W D CT. assert (IOK : idf_ok countX x) by (intros y; unfold idf_of; rewrite D; exact I).
  destruct (C38_best_keywords numX orderX countX lower H T ord w x s k allow withFlag ts occ W IOK I CT)
    as (c & all & r & FO & BF & TP & E & _).
  assert (TW : forall j, tfidf_weight x occ j = Some (score idf occ j / INR (length occ))%R).
  { intros j. unfold tfidf_weight, idf_of. rewrite D. cbn. f_equal. unfold score. rewrite <- !INR_IZR_INZ. unfold Rdiv. ring. }
  destruct (ranking_of_keys (fun j => tfidf_weight x occ j) (o_val orderX) c all (proj1 FO) BF) as (ks & EA & BK).
  exists c, ks, r. split; auto. split; [|split; auto].
  - destruct BK as [P B]. split; auto. intros a b X. destruct (B a b X) as [L|[EQ F]].
    + left. rewrite !TW in L. cbn in L. pose proof (before_In _ _ _ X) as [IA _].
      apply (Permutation_in _ (Permutation_sym P)) in IA. apply FO in IA.
      assert (LP : (0 < INR (length occ))%R) by (apply lt_0_INR; destruct occ; [destruct IA|cbn; lia]).
      apply Rmult_lt_reg_r with (/ INR (length occ))%R; [apply Rinv_0_lt_compat; auto|exact L].
    + right. split; auto. rewrite !TW in EQ. cbn in EQ. pose proof (before_In _ _ _ X) as [IA _].
      apply (Permutation_in _ (Permutation_sym P)) in IA. apply FO in IA.
      assert (LP : (0 < INR (length occ))%R) by (apply lt_0_INR; destruct occ; [destruct IA|cbn; lia]).
      apply Rmult_eq_reg_r with (/ INR (length occ))%R; [exact EQ|]. apply Rinv_neq_0_compat. lra.
  - rewrite EA in TP. erewrite map_ext in TP; [exact TP|]. intros j. cbv beta. now rewrite TW.
Qed.

(** ** More stop words *)
Definition stopped (lower : str -> str) (stop : list str) (j : term) : bool :=
  if in_dec (list_eq_dec N.eq_dec) (lower (term_word j)) stop then true else false.

Lemma named_word allow wf t : term_word (named allow wf t) = term_word t.
Proof. unfold named. destruct allow; auto. destruct wf; auto. Qed.

Lemma counted_more lower stop stop' allow wf ts occ : (forall e, In e stop -> In e stop') ->
  counted lower stop allow wf ts occ ->
  counted lower stop' allow wf ts (filter (fun j => negb (stopped lower stop' j)) occ).
Proof.
  intros S. induction 1 as [|t ts occ C K IH|t ts occ C K IH]; [constructor| |].
  - cbn [filter]. unfold stopped at 1. rewrite named_word.
    destruct (in_dec (list_eq_dec N.eq_dec) (lower (term_word t)) stop') as [I|I]; cbn [negb].
    + apply counted_no; auto. intros (_ & N & _). contradiction.
    + apply counted_yes; auto. destruct C as (A & _ & B). split; auto.
  - apply counted_no; auto. intros (A & N & B). apply C. split; auto.
Qed.

Lemma times_filter p j occ : p j = true -> times j (filter p occ) = times j occ.
Proof.
  intros P. unfold times. induction occ as [|o occ IH]; auto. cbn [filter]. destruct (p o) eqn:E.
  - cbn. rewrite IH. reflexivity.
  - rewrite IH. cbn. destruct (term_eq_dec o j) as [->|]; congruence.
Qed.

Theorem C117_stop_words :
  forall (lower : str -> str) (H : hmm numX) (T : ptables numX) (ord : orders) (w : pworld)
         (x x' : tfidf numX) (idf : str -> R) (s : str) (allow : list str) (withFlag : bool) (ts : list term),
    words_for numX H T ord w allow s ts ->
    (forall y, match sget (tf_freq x) y with Some v => v | None => tf_median x end = Some (idf y)) ->
    tf_freq x' = tf_freq x -> tf_median x' = tf_median x -> (forall e, In e (tf_stop x) -> In e (tf_stop x')) ->
    exists r r',
      snd (extract_tags lower H T ord w x s None true allow withFlag) = Ok (Items numX r) /\
      snd (extract_tags lower H T ord w x' s None true allow withFlag) = Ok (Items numX r') /\
      map fst r' = filter (fun j => negb (stopped lower (tf_stop x') j)) (map fst r) /\
      exists q, (1 <= q)%R /\
        forall j a, In (j, a) r' -> exists b, In (j, Some b) r /\ a = Some (b * q)%R.
Proof.
  intros lower H T ord w x x' idf s allow withFlag ts W D EF EM S.
  destruct (counted_ex lower (tf_stop x) allow withFlag ts) as (occ & CT).
  pose proof (counted_more _ _ _ _ _ _ _ S CT) as CT'. set (keep := fun j => negb (stopped lower (tf_stop x') j)) in *.
  assert (D' : forall y, match sget (tf_freq x') y with Some v => v | None => tf_median x' end = Some (idf y)) by (rewrite EF, EM; exact D).
  destruct (tfidf_keys lower H T ord w x idf s None allow withFlag ts occ W D CT) as (c & ks & r & FO & BF & TP & E).
  destruct (tfidf_keys lower H T ord w x' idf s None allow withFlag ts _ W D' CT') as (c' & ks' & r' & FO' & BF' & TP' & E').
  exists r, r'. split; auto. split; auto.
  apply top_part_all in TP; [|left; auto]. apply top_part_all in TP'; [|left; auto]. subst r r'.
  assert (MK : forall (f : term -> option R) l, map fst (map (fun j => (j, f j)) l) = l).
  { intros f l. rewrite map_map. cbn [fst]. apply map_id. }
  rewrite (MK (fun j => Some (score idf occ j / INR (length occ))%R)).
  rewrite (MK (fun j => Some (score idf (filter keep occ) j / INR (length (filter keep occ)))%R)).
  pose proof (first_occ_unique _ _ _ FO' (first_occ_filter keep _ _ FO)) as ->.
  assert (EK : ks' = filter keep ks).
  { eapply best_first_unique; [|exact BF'|].
    - apply NoDup_filter. apply FO.
    - eapply best_first_ext; [|apply best_first_filter; exact BF]. intros j I. apply filter_In in I.
      unfold score. rewrite times_filter by tauto. reflexivity. }
  subst ks'. split; [reflexivity|].
  destruct (filter keep occ) as [|o os] eqn:EO.
  { exists 1%R. split; [lra|]. intros j a I. exfalso. apply in_map_iff in I. destruct I as (i & _ & I).
    apply filter_In in I. destruct I as [I K]. apply (Permutation_in _ (Permutation_sym (proj1 BF))) in I.
    apply FO in I. assert (In i (filter keep occ)) by (apply filter_In; auto). rewrite EO in H0. destruct H0. }
  rewrite <- EO in *.
  assert (L1 : length (filter keep occ) <= length occ).
  { clear. induction occ as [|a l IH]; cbn; auto. destruct (keep a); cbn; lia. }
  assert (L2 : 0 < length (filter keep occ)) by (rewrite EO; cbn; lia).
  assert (R2 : (0 < INR (length (filter keep occ)))%R) by (apply lt_0_INR; auto).
  assert (R1 : (INR (length (filter keep occ)) <= INR (length occ))%R) by (apply le_INR; auto).
  exists (INR (length occ) / INR (length (filter keep occ)))%R. split.
  - apply Rmult_le_reg_r with (INR (length (filter keep occ))); auto. unfold Rdiv. rewrite Rmult_assoc, Rinv_l by lra. lra.
  - intros j a I. apply in_map_iff in I. destruct I as (i & EI & I). injection EI as -> <-. apply filter_In in I. destruct I as [I K].
    exists (score idf occ j / INR (length occ))%R. split.
    + apply in_map_iff. exists j. auto.
    + f_equal. unfold score. rewrite times_filter by auto. field. lra.
Qed.

(** ** One word more often *)
Lemma top_keys {B} (W : term -> B) k ks r : top_part k (map (fun j => (j, W j)) ks) r ->
  exists n, map fst r = firstn n ks /\ length (map fst r) = n /\ Z.of_nat n =
    match k with
    | None => Z.of_nat (length ks)
    | Some k =>
        if (k =? 0)%Z then Z.of_nat (length ks)
        else if (0 <? k)%Z then Z.min k (Z.of_nat (length ks))
        else Z.max 0 (Z.of_nat (length ks) + k)
    end.
Proof.
  intros (rest & E & L). exists (length r). rewrite map_length in L |- *. split; [|split; auto].
  apply (f_equal (map fst)) in E. rewrite map_map, map_app in E. cbn [fst] in E. rewrite map_id in E. rewrite E.
  rewrite firstn_app, map_length, Nat.sub_diag. cbn [firstn]. rewrite app_nil_r. symmetry. apply firstn_all2. rewrite map_length. auto.
Qed.

Lemma firstn_In_pos {A} n (l a b : list A) j : NoDup l -> l = a ++ j :: b -> In j (firstn n l) <-> length a < n.
Proof.
  intros ND ->. rewrite firstn_app. destruct (Nat.lt_ge_cases (length a) n) as [L|L].
  - split; auto. intros _. apply in_or_app. right. destruct (n - length a) eqn:E; [lia|]. left. auto.
  - split; [|lia]. replace (n - length a) with 0 by lia. cbn. rewrite app_nil_r. intros I. exfalso.
    apply NoDup_remove_2 in ND. apply ND. apply in_or_app. left. rewrite <- (firstn_skipn n a). apply in_or_app. auto.
Qed.

Theorem C117_more_often :
  forall (lower : str -> str) (H : hmm numX) (T : ptables numX) (ord : orders) (w : pworld)
         (x : tfidf numX) (idf : str -> R) (s s' : str) (k : option Z) (allow : list str) (withFlag : bool)
         (ts ts' occ occ' : list term) (j : term),
    words_for numX H T ord w allow s ts -> words_for numX H T ord w allow s' ts' ->
    (forall y, match sget (tf_freq x) y with Some v => v | None => tf_median x end = Some (idf y)) ->
    counted lower (tf_stop x) allow withFlag ts occ -> counted lower (tf_stop x) allow withFlag ts' occ' ->
    (forall i, i <> j -> times i occ' = times i occ) -> times j occ < times j occ' -> (0 < idf (term_word j))%R ->
    exists r r',
      snd (extract_tags lower H T ord w x s k true allow withFlag) = Ok (Items numX r) /\
      snd (extract_tags lower H T ord w x s' k true allow withFlag) = Ok (Items numX r') /\
      (In j (map fst r) -> In j (map fst r')).
Proof.
  intros lower H T ord w x idf s s' k allow withFlag ts ts' occ occ' j W W' D CT CT' OT MO PI.
  destruct (tfidf_keys lower H T ord w x idf s k allow withFlag ts occ W D CT) as (c & ks & r & FO & BF & TP & E).
  destruct (tfidf_keys lower H T ord w x idf s' k allow withFlag ts' _ W' D CT') as (c' & ks' & r' & FO' & BF' & TP' & E').
  exists r, r'. split; auto. split; auto. intros I.
  pose proof (top_keys (fun j => Some (score idf occ j / INR (length occ))%R) k ks r TP) as (n & ER & _ & EN).
  pose proof (top_keys (fun j => Some (score idf occ' j / INR (length occ'))%R) k ks' r' TP') as (n' & ER' & _ & EN').
  assert (KS : forall i, In i ks <-> In i occ).
  { intros i. rewrite <- (proj1 (proj2 FO)). split; apply Permutation_in; [apply Permutation_sym|]; apply BF. }
  assert (KS' : forall i, In i ks' <-> In i occ').
  { intros i. rewrite <- (proj1 (proj2 FO')). split; apply Permutation_in; [apply Permutation_sym|]; apply BF'. }
  assert (ND : NoDup ks) by (eapply Permutation_NoDup; [apply BF|apply FO]).
  assert (ND' : NoDup ks') by (eapply Permutation_NoDup; [apply BF'|apply FO']).
  assert (IJ : In j ks).
  { rewrite <- (firstn_skipn n ks). apply in_or_app. left. exact (eq_ind _ (fun l => In j l) I _ ER). }
  assert (SAME : forall i, In i ks <-> In i ks').
  { intros i. rewrite KS, KS'. destruct (term_eq_dec i j) as [->|NE].
    - split; intros _; [|apply KS; auto]. apply (count_occ_In term_eq_dec). unfold times in MO. lia.
    - rewrite !(count_occ_In term_eq_dec). unfold times in OT. rewrite OT by auto. reflexivity. }
  assert (LEN : length ks' = length ks).
  { apply Nat.le_antisymm; apply NoDup_incl_length; auto; intros i K; apply SAME; auto. }
  assert (n' = n) by (apply Nat2Z.inj; rewrite EN, EN', LEN; reflexivity). subst n'.
  assert (IJ' : In j ks') by (apply SAME; auto).
  destruct (in_split _ _ IJ) as (a & b & EA). destruct (in_split _ _ IJ') as (a' & b' & EA').
  assert (LI : length a < n) by (apply (firstn_In_pos n ks a b j ND EA); exact (eq_ind _ (fun l => In j l) I _ ER)).
  refine (eq_ind_r (fun l => In j l) _ ER'). apply (firstn_In_pos n ks' a' b' j ND' EA').
  assert (LA : length a' <= length a); [|lia]. apply NoDup_incl_length.
  { rewrite EA' in ND'. apply NoDup_remove_1 in ND'. clear - ND'. induction a' as [|z a' IH]; constructor; cbn in ND'; inversion ND'; subst; auto.
    intros K. apply H1. apply in_or_app. auto. }
  intros v V. assert (VJ : v <> j) by (intros ->; rewrite EA' in ND'; apply NoDup_remove_2 in ND'; apply ND'; apply in_or_app; auto).
  assert (IV : In v ks) by (apply SAME; rewrite EA'; apply in_or_app; auto).
  rewrite EA in IV. apply in_app_or in IV. destruct IV as [IV|[IV|IV]]; auto; [congruence|]. exfalso.
  assert (B1 : before ks j v).
  { apply in_split in IV. destruct IV as (u & z & ->). exists a, u, z. auto. }
  assert (B2 : before ks' v j).
  { apply in_split in V. destruct V as (u & z & ->). exists u, z, b'. rewrite EA', <- app_assoc. reflexivity. }
  assert (S1 : (score idf occ v <= score idf occ j)%R) by (destruct (proj2 BF _ _ B1) as [L|[L _]]; lra).
  assert (S2 : (score idf occ' j <= score idf occ' v)%R) by (destruct (proj2 BF' _ _ B2) as [L|[L _]]; lra).
  unfold score in S1, S2. rewrite (OT v VJ) in S2.
  assert (INR (times j occ) < INR (times j occ'))%R by (apply lt_INR; auto).
  assert (INR (times j occ) * idf (term_word j) < INR (times j occ') * idf (term_word j))%R by (apply Rmult_lt_compat_r; auto).
  lra.
Qed.

(** the other keywords keep their order when the word is appended *)
Theorem C117_others_stay :
  forall (lower : str -> str) (H : hmm numX) (T : ptables numX) (ord : orders) (w : pworld)
         (x : tfidf numX) (idf : str -> R) (s s' : str) (allow : list str) (withFlag : bool)
         (ts us : list term) (j : term) (m : nat),
    words_for numX H T ord w allow s ts -> words_for numX H T ord w allow s' (ts ++ us) ->
    (forall y, match sget (tf_freq x) y with Some v => v | None => tf_median x end = Some (idf y)) ->
    counted lower (tf_stop x) allow withFlag us (repeat j m) ->
    exists r r',
      snd (extract_tags lower H T ord w x s None true allow withFlag) = Ok (Items numX r) /\
      snd (extract_tags lower H T ord w x s' None true allow withFlag) = Ok (Items numX r') /\
      remove term_eq_dec j (map fst r') = remove term_eq_dec j (map fst r).
Proof.
  intros lower H T ord w x idf s s' allow withFlag ts us j m W W' D CU.
  destruct (counted_ex lower (tf_stop x) allow withFlag ts) as (occ & CT).
  assert (CT' : counted lower (tf_stop x) allow withFlag (ts ++ us) (occ ++ repeat j m)).
  { clear W W'. induction CT; cbn; auto; [apply counted_yes|apply counted_no]; auto. }
  destruct (tfidf_keys lower H T ord w x idf s None allow withFlag ts occ W D CT) as (c & ks & r & FO & BF & TP & E).
  destruct (tfidf_keys lower H T ord w x idf s' None allow withFlag _ _ W' D CT') as (c' & ks' & r' & FO' & BF' & TP' & E').
  exists r, r'. split; auto. split; auto.
  apply top_part_all in TP; [|left; auto]. apply top_part_all in TP'; [|left; auto]. subst r r'.
  rewrite !map_map. cbn [fst]. rewrite !map_id.
  set (p := fun i => if term_eq_dec j i then false else true).
  assert (RF : forall l, remove term_eq_dec j l = filter p l).
  { induction l as [|i l IH]; auto. cbn. unfold p at 1. destruct (term_eq_dec j i); rewrite IH; reflexivity. }
  rewrite !RF.
  assert (EC : filter p c' = filter p c).
  { apply (first_occ_unique (filter p occ)); [|apply first_occ_filter; auto].
    apply (first_occ_filter p) in FO'. rewrite filter_app in FO'.
    replace (filter p (repeat j m)) with (@nil term) in FO'; [rewrite app_nil_r in FO'; exact FO'|].
    clear. induction m; cbn; auto. unfold p at 1. destruct (term_eq_dec j j); congruence. }
  eapply best_first_unique; [|apply best_first_filter; exact BF'|].
  - apply NoDup_filter. apply FO'.
  - rewrite EC. eapply best_first_ext; [|apply best_first_filter; exact BF]. intros i I. apply filter_In in I.
    destruct I as [_ I]. unfold p in I. destruct (term_eq_dec j i) as [|NE]; [discriminate|].
    unfold score, times. rewrite count_occ_app. replace (count_occ term_eq_dec (repeat j m) i) with 0.
    + rewrite Nat.add_0_r. reflexivity.
    + clear - NE. induction m; cbn; auto. destruct (term_eq_dec j i); congruence.
Qed.

(** ** For TextRank a stop word can turn the order of two others round: 北京 北京 大学生 学生 来到 *)
Notation w_bj := [c_bei; c_jing] (only parsing).
Notation w_dxs := [c_da; c_xue; c_sheng] (only parsing).
Notation w_xs := [c_xue; c_sheng] (only parsing).
Notation w_ld := [c_lai; c_dao] (only parsing).
Definition chain : list tagged := [(w_bj, s_n); (w_bj, s_n); (w_dxs, s_n); (w_xs, s_n); (w_ld, s_n)].

Theorem C117_textrank_refuted :
  ~ forall (x y : textrank) (words : list tagged) (allow : list str) (d d' : kdict (F numE)) (t u : term) (a b a' b' : QArith_base.Q),
      tr_span y = tr_span x -> (forall e, In e (tr_stop x) -> In e (tr_stop y)) ->
      textrank_words numE (fun s => s) x words allow false = Ok d ->
      textrank_words numE (fun s => s) y words allow false = Ok d' ->
      In (t, Some a) d -> In (u, Some b) d -> In (t, Some a') d' -> In (u, Some b') d' ->
      QArith_base.Qle b a -> QArith_base.Qle b' a'.
Proof.
  intros G.
  destruct (textrank_words numE (fun s => s) (mkTr [] 2) chain [s_n] false) as [d|] eqn:E; [|vm_compute in E; discriminate E].
  destruct (textrank_words numE (fun s => s) (mkTr [w_dxs] 2) chain [s_n] false) as [d'|] eqn:E'; [|vm_compute in E'; discriminate E'].
  pose proof (fun t u a b a' b' => G (mkTr [] 2) (mkTr [w_dxs] 2) chain [s_n] d d' t u a b a' b' eq_refl (fun e I => match I with end) E E') as K.
  clear G. vm_compute in E, E'. injection E as <-. injection E' as <-.
  specialize (K (TWord w_bj) (TWord w_xs)).
  specialize (K _ _ _ _ (or_introl eq_refl) (or_intror (or_intror (or_introl eq_refl))) (or_introl eq_refl) (or_intror (or_introl eq_refl))).
  assert (L : False); [|exact L].
  match type of K with ?P -> ?Q => assert (p : P) by (apply QArith_base.Qle_bool_iff; vm_compute; reflexivity); specialize (K p) end.
  apply QArith_base.Qle_bool_iff in K. vm_compute in K. discriminate K.
Qed.

(** ** A case: 来到，北京 and 来到，北京，北京 *)
Definition ko_x : tfidf numX := @mkTfidf numX (@mkIdf numX [] [] (Some 1%R)) [] (Some 1%R) [].
Definition ko_y : tfidf numX := @mkTfidf numX (@mkIdf numX [] [] (Some 1%R)) [] (Some 1%R) [w_ld].

Example C117_nonvacuous :
  forall (H : hmm numX) (T : ptables numX) (ord : orders),
    let s := w_ld ++ c_comma :: w_bj in
    let s' := w_ld ++ c_comma :: w_bj ++ c_comma :: w_bj in
    let ts := [TWord w_ld; TWord [c_comma]; TWord w_bj] in
    let us := [TWord [c_comma]; TWord w_bj] in
    words_for numX H T ord rp_w2 [] s ts /\ words_for numX H T ord rp_w2 [] s' (ts ++ us) /\
    (forall y, match sget (tf_freq ko_x) y with Some v => v | None => tf_median ko_x end = Some 1%R) /\
    counted (fun s => s) (tf_stop ko_x) [] false ts [TWord w_ld; TWord w_bj] /\
    counted (fun s => s) (tf_stop ko_x) [] false us (repeat (TWord w_bj) 1) /\
    tf_freq ko_y = tf_freq ko_x /\ tf_median ko_y = tf_median ko_x /\
    counted (fun s => s) (tf_stop ko_y) [] false ts [TWord w_bj].
Proof.
  intros H T ord s s' ts us.
  assert (G : forall s, s = w_ld \/ s = w_bj ->
    cut numX H (mode_of false true) (d_freq (pw_d rp_w2)) (d_total (pw_d rp_w2)) (d_force (pw_d rp_w2)) s = gof [s]).
  { intros z [->| ->]; vm_compute; reflexivity. }
  split; [|split; [|split; [|split; [|split; [|split; [|split]]]]]].
  - left. split; auto. exists [w_ld; [c_comma]; w_bj]. split; [|reflexivity].
    unfold s. rewrite C45_separator by (try reflexivity; discriminate). rewrite !G by auto. reflexivity.
  - left. split; auto. exists [w_ld; [c_comma]; w_bj; [c_comma]; w_bj]. split; [|reflexivity].
    unfold s'. rewrite C45_separator by (try reflexivity; discriminate).
    rewrite C45_separator by (try reflexivity; discriminate).
    rewrite !G by auto. reflexivity.
  - intros y. reflexivity.
  - pose proof (counted_keys (fun s => s) [] [] false ts) as K. vm_compute in K. vm_compute. exact K.
  - pose proof (counted_keys (fun s => s) [] [] false us) as K. vm_compute in K. vm_compute. exact K.
  - reflexivity.
  - reflexivity.
  - pose proof (counted_keys (fun s => s) [w_ld] [] false ts) as K. vm_compute in K. vm_compute. exact K.
Qed.

Print Assumptions C117_stop_words.
Print Assumptions C117_more_often.
Print Assumptions C117_others_stay.
Print Assumptions C117_textrank_refuted.
