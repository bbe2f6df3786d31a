(** * C96: keywords of a text that repeats itself, or whose parts are reordered *)
From Coq Require Import Reals Lra Lia Permutation.
From Flocq Require Import IEEE754.Binary.
From Verif Require Import PyBase PyRegex PyNum SpecNum ModelFinalseg ModelSeg ModelDict ModelApi ModelPosseg ModelAnalyse
  SpecBase SpecSeg SpecTagging SpecAnalyse InstR InstRound InstB64 InstCount Demo
  ProofsBase ProofsSplit ProofsLocal ProofsPosseg ProofsPosLocal ProofsTfidf PropsFull PropsPosseg PropsAnalyse.

(** ** Rankings are determined *)

Lemma before_cons {A} z (l : list A) x y : before (z :: l) x y -> (x = z /\ In y l) \/ before l x y.
Proof.
  intros (a & b & c & E). destruct a as [|z' a]; cbn in E; injection E as <- E.
  - left. split; auto. rewrite E. apply in_or_app. right. left. auto.
  - right. exists a, b, c. auto.
Qed.
Lemma before_In {A} (l : list A) x y : before l x y -> In x l /\ In y l.
Proof.
  intros (a & b & c & ->). split; apply in_or_app; right; [left; auto|]. right. apply in_or_app. right. left. auto.
Qed.
Lemma before_once {A} (l : list A) x y : NoDup l -> before l x y -> before l y x -> False.
Proof.
  induction 1 as [|z l NI ND IH]; intros B1 B2.
  - apply before_In in B1. destruct B1 as [[] _].
  - apply before_cons in B1, B2. destruct B1 as [[-> I1]|B1], B2 as [[E2 I2]|B2]; subst; auto.
    + apply before_In in B2. tauto.
    + apply before_In in B1. tauto.
Qed.
Lemma in_before {A} z (l : list A) y : In y l -> before (z :: l) z y.
Proof. intros I. apply in_split in I. destruct I as (b & c & ->). exists [], b, c. reflexivity. Qed.
Lemma before_tl {A} z (l : list A) x y : before l x y -> before (z :: l) x y.
Proof. intros (a & b & c & ->). exists (z :: a), b, c. reflexivity. Qed.
Lemma order_unique {A} (l1 l2 : list A) :
  NoDup l1 -> NoDup l2 -> (forall x, In x l1 <-> In x l2) -> (forall x y, before l1 x y -> before l2 y x -> False) -> l1 = l2.
Proof.
  intros N1. revert l2. induction N1 as [|z l1 NI N1 IH]; intros l2 N2 SAME B.
  - destruct l2 as [|y l2]; auto. exfalso. apply (SAME y). left. auto.
  - destruct l2 as [|y l2]; [exfalso; apply (SAME z); left; auto|]. inversion N2 as [|? ? NY N2']; subst.
    assert (y = z).
    { pose proof (proj1 (SAME z) (or_introl eq_refl)) as [E|I1]; auto.
      pose proof (proj2 (SAME y) (or_introl eq_refl)) as [E|I2]; auto.
      exfalso. apply (B z y); apply in_before; auto. }
    subst y. f_equal. apply IH; auto.
    + intros x. split; intros I.
      * destruct (proj1 (SAME x) (or_intror I)) as [<-|K]; auto. contradiction.
      * destruct (proj2 (SAME x) (or_intror I)) as [<-|K]; auto. contradiction.
    + intros x y0 B1 B2. apply (B x y0); apply before_tl; auto.
Qed.

Lemma best_first_unique {A} (val : A -> R) l r r' : NoDup l -> best_first val l r -> best_first val l r' -> r = r'.
Proof.
  intros ND [P1 B1] [P2 B2]. apply order_unique.
  - eapply Permutation_NoDup; eauto.
  - eapply Permutation_NoDup; eauto.
  - intros x. rewrite <- (Permutation_in' eq_refl P1), <- (Permutation_in' eq_refl P2). reflexivity.
  - intros x y X Y. apply B1 in X. apply B2 in Y. destruct X as [X|[X X']], Y as [Y|[Y Y']]; try lra.
    eapply before_once; eauto.
Qed.
Lemma top_part_unique {A} k (all r r' : list A) : top_part k all r -> top_part k all r' -> r = r'.
Proof.
  intros (q & E & L) (q' & E' & L'). assert (length r = length r') by (apply Nat2Z.inj; congruence).
  rewrite E in E'. clear - H E'. revert r' H E'. induction r as [|a r IH]; intros [|b r'] L E; cbn in *; try discriminate; auto.
  injection E as -> E. f_equal. apply IH; auto.
Qed.

(** the first occurrences of repeated lists *)
Lemma first_occ_same {A} (dec : forall a b : A, {a = b} + {a <> b}) (l l' c c' : list A) :
  first_occurrences l c -> first_occurrences (l ++ l') c' -> (forall x, In x l' -> In x l) -> c = c'.
Proof.
  intros (N1 & I1 & B1) (N2 & I2 & B2) SUB. apply order_unique; auto.
  - intros x. rewrite I1, I2, in_app_iff. split; auto. intros [K|K]; auto.
  - intros x y X Y. pose proof (proj1 (I1 x) (proj1 (before_In _ _ _ X))) as IX.
    apply B1 in X. apply B2 in Y. destruct X as (u & v & E & NU & NE), Y as (u' & v' & E' & NU' & _).
    (* the first y of l ++ l' comes after no x, the first x of l after no y *)
    assert (G : forall l0 u0 v0, l0 ++ l' = u' ++ y :: v' -> l0 = u0 ++ x :: v0 -> ~ In y u0 -> False).
    { clear E' E. intros l0 u0 v0 E' E NU0. subst l0. rewrite <- app_assoc in E'. revert u' NU' E'.
      induction u0 as [|z u0 IH]; intros [|z' u'] NU' E'; cbn in E'; injection E' as E1 E2.
      - congruence.
      - apply NU'. left. auto.
      - apply NU0. left. auto.
      - subst z'. apply (IH (fun K => NU0 (or_intror K)) u' (fun K => NU' (or_intror K)) E2). }
    eapply G; eauto.
Qed.

(** ** Words of joined texts *)

Lemma pos_in_word c : pos_word_char c = true -> word_char c = true.
Proof.
  intros E. destruct (N.eq_dec c 37) as [->|N1]; [reflexivity|]. destruct (N.eq_dec c 45) as [->|N2]; [reflexivity|].
  rewrite <- pos_word_same; auto.
Qed.

Section Joined.
  Variable num : Num.
  Variables (H : hmm num) (T : ptables num) (ord : orders) (w : pworld) (allow : list str).
  Variable c : char.
  Hypotheses (NW : word_char c = false) (N13 : c <> 13%N) (N10 : c <> 10%N).

  Definition sep_term : term := match allow with [] => TWord [c] | _ => TPair [c] [120%N] end.

  Fixpoint joined (tss : list (list term)) : list term :=
    match tss with
    | [] => []
    | [ts] => ts
    | ts :: tss' => ts ++ sep_term :: joined tss'
    end.

  Lemma words_sep a b ta tb :
    words_for num H T ord w allow a ta -> words_for num H T ord w allow b tb ->
    words_for num H T ord w allow (a ++ c :: b) (ta ++ sep_term :: tb).
  Proof.
    intros [[EA (wa & CA & ->)]|[EA (wa & CA & ->)]] [[EB (wb & CB & ->)]|[EB (wb & CB & ->)]]; try congruence.
    - left. split; auto. exists (wa ++ [c] :: wb). split.
      + rewrite C45_separator, CA, CB by auto. reflexivity.
      + unfold sep_term. rewrite EA, map_app. reflexivity.
    - right. split; auto. exists (wa ++ ([c], [120%N]) :: wb). split.
      + assert (L : 0 < length (pw_tabs w)).
        { cbn in CA. destruct (pw_tabs w); [discriminate CA|cbn; lia]. }
        rewrite pop_cut in * by auto. f_equal. injection CA as CA. injection CB as CB.
        assert (NP : pos_word_char c = false).
        { destruct (pos_word_char c) eqn:E; auto. apply pos_in_word in E. congruence. }
        rewrite C64_tagging_is_local.
        * change (c :: b) with ([c] ++ b). rewrite C64_tagging_is_local.
          -- rewrite CA, CB. rewrite ps_cut_runs. cbn. rewrite NP. reflexivity.
          -- intros (u0 & v0 & E & _). destruct u0 as [|? [|]]; inversion E; congruence.
          -- left. exists [], c. auto.
        * intros (u0 & v0 & _ & E). inversion E; congruence.
        * right. exists c, b. auto.
      + unfold sep_term. destruct allow; [congruence|]. rewrite map_app. reflexivity.
  Qed.

  Lemma words_joined ps tss : ps <> [] -> Forall2 (words_for num H T ord w allow) ps tss ->
    words_for num H T ord w allow (join_with [c] ps) (joined tss).
  Proof.
    intros NE F. induction F as [|p ts ps tss W F IH]; [congruence|]. destruct F as [|p2 ts2 ps tss W2 F]; [exact W|].
    change (join_with [c] (p :: p2 :: ps)) with (p ++ c :: join_with [c] (p2 :: ps)).
    change (joined (ts :: ts2 :: tss)) with (ts ++ sep_term :: joined (ts2 :: tss)).
    apply words_sep; auto. apply IH. discriminate.
  Qed.

  Variables (lower : str -> str) (stop : list str) (wf : bool).
  Lemma counted_app a b oa ob : counted lower stop allow wf a oa -> counted lower stop allow wf b ob ->
    counted lower stop allow wf (a ++ b) (oa ++ ob).
  Proof. intros A B. induction A; cbn; auto; constructor; auto. Qed.
  Lemma sep_not_counted b ob : counted lower stop allow wf b ob -> counted lower stop allow wf (sep_term :: b) ob.
  Proof.
    intros B. apply counted_no; auto. intros (TC & _). unfold two_chars, sep_term in TC.
    assert (E : term_word (match allow with [] => TWord [c] | _ => TPair [c] [120%N] end) = [c]) by (destruct allow; reflexivity).
    rewrite E in TC. cbn in TC. destruct (negb (is_space c)); cbn in TC; lia.
  Qed.
  Lemma counted_joined tss occs : Forall2 (counted lower stop allow wf) tss occs ->
    counted lower stop allow wf (joined tss) (concat occs).
  Proof.
    induction 1 as [|ts occ tss occs K F IH]; [constructor|]. destruct F as [|ts2 occ2 tss occs K2 F].
    - cbn. rewrite app_nil_r. auto.
    - change (joined (ts :: ts2 :: tss)) with (ts ++ sep_term :: joined (ts2 :: tss)).
      change (concat (occ :: occ2 :: occs)) with (occ ++ concat (occ2 :: occs)).
      apply counted_app; auto. apply sep_not_counted. auto.
  Qed.
End Joined.

Lemma repeat_forall2 {A B} (R : A -> B -> Prop) a b n : R a b -> Forall2 R (repeat a n) (repeat b n).
Proof. intros K. induction n; cbn; constructor; auto. Qed.
Lemma times_repeat j occ n : times j (concat (repeat occ n)) = n * times j occ.
Proof. unfold times. induction n; cbn [repeat concat]; auto. rewrite count_occ_app, IHn. lia. Qed.
Lemma length_repeat {A} (occ : list A) n : length (concat (repeat occ n)) = n * length occ.
Proof. induction n; cbn [repeat concat]; auto. rewrite app_length, IHn. lia. Qed.

(** ** The theorems *)

(** A text written [n] times with a separator between the copies has the keywords of
    the text, with the same weights and in the same order (exact arithmetic), for every
    [topK], [withWeight], [allowPOS] and [withFlag]. *)
Theorem C96_repeated_text :
  forall (lower : str -> str) (H : hmm numX) (T : ptables numX) (ord : orders) (w : pworld)
         (x : tfidf numX) (idf : str -> R) (s : str) (c : char) (n : nat) (k : option Z)
         (withWeight : bool) (allow : list str) (withFlag : bool) (ts : list term),
    words_for numX H T ord w allow s ts ->
    (forall y, match sget (tf_freq x) y with Some v => v | None => tf_median x end = Some (idf y)) ->
    word_char c = false -> c <> 13%N -> c <> 10%N -> 0 < n ->
    snd (extract_tags lower H T ord w x (join_with [c] (repeat s n)) k withWeight allow withFlag) =
    snd (extract_tags lower H T ord w x s k withWeight allow withFlag).
Proof.
  intros lower H T ord w x idf s c n k withWeight allow withFlag ts W D NW N13 N10 POS.
  destruct (counted_ex lower (tf_stop x) allow withFlag ts) as (occ & CT).
  assert (W2 : words_for numX H T ord w allow (join_with [c] (repeat s n)) (joined allow c (repeat ts n))).
  { apply words_joined; auto; [destruct n; [lia|discriminate]|]. apply repeat_forall2; auto. }
  assert (CT2 : counted lower (tf_stop x) allow withFlag (joined allow c (repeat ts n)) (concat (repeat occ n))).
  { apply counted_joined; auto. apply repeat_forall2; auto. }
  assert (IOK : idf_ok countX x) by (intros y; unfold idf_of; rewrite D; exact I).
  destruct (C38_best_keywords numX orderX countX lower H T ord w x s k allow withFlag ts occ W IOK I CT)
    as (c1 & all1 & r1 & F1 & B1 & P1 & E1 & K1).
  destruct (C38_best_keywords numX orderX countX lower H T ord w x _ k allow withFlag _ _ W2 IOK I CT2)
    as (c2 & all2 & r2 & F2 & B2 & P2 & E2 & K2).
  assert (EC : c1 = c2).
  { destruct n as [|n]; [lia|]. cbn [repeat concat] in F2. apply (first_occ_same term_eq_dec _ _ _ _ F1 F2).
    intros z Z. clear - Z. induction n; cbn in Z; [destruct Z|]. apply in_app_iff in Z. destruct Z; auto. }
  subst c2.
  assert (EW : map (fun j => (j, tfidf_weight x (concat (repeat occ n)) j)) c1 = map (fun j => (j, tfidf_weight x occ j)) c1).
  { apply map_ext_in. intros j J. f_equal. apply (proj1 (proj2 F1)) in J.
    unfold tfidf_weight, idf_of. rewrite D, times_repeat, length_repeat. cbn. f_equal.
    rewrite !Nat2Z.inj_mul, !mult_IZR, <- !INR_IZR_INZ.
    assert (0 < INR n)%R by (apply lt_0_INR; auto).
    assert (0 < INR (length occ))%R by (apply lt_0_INR; destruct occ; [destruct J|cbn; lia]).
    field. lra. }
  rewrite EW in B2. assert (ND : NoDup (map (fun j => (j, tfidf_weight x occ j)) c1)).
  { apply (FinFun.Injective_map_NoDup (f := fun j => (j, tfidf_weight x occ j))); [|apply F1]. intros a b E. injection E as ->. auto. }
  pose proof (best_first_unique _ _ _ _ ND B1 B2) as <-. pose proof (top_part_unique _ _ _ _ P1 P2) as <-.
  destruct withWeight; [rewrite E1, E2|rewrite K1, K2]; reflexivity.
Qed.

(** The parts of a text may be put in any order: the keywords and their weights stay,
    except for the order of keywords with equal weights.  This holds in binary64 too. *)
Theorem C96_parts_in_any_order :
  forall (num : Num) (O : NumOrder num) (C : NumCount num O) (lower : str -> str) (H : hmm num)
         (T : ptables num) (ord : orders) (w : pworld) (x : tfidf num) (ps ps' : list str) (c : char)
         (allow : list str) (withFlag : bool) (tss : list (list term)),
    Forall2 (words_for num H T ord w allow) ps tss -> ps <> [] -> Permutation ps ps' ->
    idf_ok C x -> c_lim C (Z.of_nat (length (concat tss) + length tss)) ->
    word_char c = false -> c <> 13%N -> c <> 10%N ->
    exists r r',
      snd (extract_tags lower H T ord w x (join_with [c] ps) None true allow withFlag) = Ok (Items num r) /\
      snd (extract_tags lower H T ord w x (join_with [c] ps') None true allow withFlag) = Ok (Items num r') /\
      Permutation r r'.
Proof.
  intros num O C lower H T ord w x ps ps' c allow withFlag tss FW NE PE IOK LIM NW N13 N10.
  assert (FW' : exists tss', Forall2 (words_for num H T ord w allow) ps' tss' /\ Permutation tss tss').
  { clear - FW PE. revert tss FW. induction PE as [|p ps ps' PE IH|p q ps|ps1 ps2 ps3 P1 IH1 P2 IH2]; intros tss F.
    - inversion F; subst. exists []. split; constructor.
    - inversion F as [|? ts ? tss1 W1 F1]; subst. destruct (IH _ F1) as (t & F2 & P2). exists (ts :: t). split; constructor; auto.
    - inversion F as [|? ts ? tss1 W1 F1]; subst. inversion F1 as [|? ts2 ? tss2 W2 F2]; subst.
      exists (ts2 :: ts :: tss2). split; [repeat (constructor; auto)|apply perm_swap].
    - destruct (IH1 _ F) as (t & F2 & P3). destruct (IH2 _ F2) as (t2 & F3 & P4). exists t2. split; auto. eapply perm_trans; eauto. }
  destruct FW' as (tss' & FW' & PT).
  assert (OCC : exists occs, Forall2 (counted lower (tf_stop x) allow withFlag) tss occs).
  { clear. induction tss as [|ts tss (occs & IH)]; [exists []; constructor|].
    destruct (counted_ex lower (tf_stop x) allow withFlag ts) as (occ & CT). exists (occ :: occs). constructor; auto. }
  destruct OCC as (occs & CO).
  assert (OCC' : exists occs', Forall2 (counted lower (tf_stop x) allow withFlag) tss' occs' /\ Permutation occs occs').
  { clear - CO PT. revert occs CO. induction PT as [|p ps ps' PE IH|p q ps|ps1 ps2 ps3 P1 IH1 P2 IH2]; intros tss F.
    - inversion F; subst. exists []. split; constructor.
    - inversion F as [|? ts ? tss1 W1 F1]; subst. destruct (IH _ F1) as (t & F2 & P2). exists (ts :: t). split; constructor; auto.
    - inversion F as [|? ts ? tss1 W1 F1]; subst. inversion F1 as [|? ts2 ? tss2 W2 F2]; subst.
      exists (ts2 :: ts :: tss2). split; [repeat (constructor; auto)|apply perm_swap].
    - destruct (IH1 _ F) as (t & F2 & P3). destruct (IH2 _ F2) as (t2 & F3 & P4). exists t2. split; auto. eapply perm_trans; eauto. }
  destruct OCC' as (occs' & CO' & PO).
  assert (NE' : ps' <> []) by (intros ->; apply Permutation_sym, Permutation_nil in PE; congruence).
  pose proof (words_joined num H T ord w allow c NW N13 N10 ps tss NE FW) as W.
  pose proof (words_joined num H T ord w allow c NW N13 N10 ps' tss' NE' FW') as W'.
  assert (CT : counted lower (tf_stop x) allow withFlag (joined allow c tss) (concat occs)) by (apply counted_joined; auto).
  assert (CT' : counted lower (tf_stop x) allow withFlag (joined allow c tss') (concat occs')) by (apply counted_joined; auto).
  assert (LJ : forall t, length (joined allow c t) <= length (concat t) + length t).
  { induction t as [|a [|b t] IH]; [cbn; lia|cbn; rewrite app_length; cbn; lia|].
    change (joined allow c (a :: b :: t)) with (a ++ sep_term allow c :: joined allow c (b :: t)).
    change (concat (a :: b :: t)) with (a ++ concat (b :: t)). rewrite !app_length. cbn [length]. cbn [length] in IH. lia. }
  assert (LT : length (concat tss) + length tss = length (concat tss') + length tss').
  { f_equal; [|apply Permutation_length; auto]. clear - PT. induction PT; cbn; rewrite ?app_length; lia. }
  assert (L1 : c_lim C (Z.of_nat (length (joined allow c tss)))) by (eapply c_lim_le; [|exact LIM]; pose proof (LJ tss); lia).
  assert (L2 : c_lim C (Z.of_nat (length (joined allow c tss')))) by (eapply c_lim_le; [|exact LIM]; pose proof (LJ tss'); lia).
  destruct (C38_best_keywords num O C lower H T ord w x _ None allow withFlag _ _ W IOK L1 CT)
    as (c1 & all1 & r1 & F1 & B1 & P1 & E1 & _).
  destruct (C38_best_keywords num O C lower H T ord w x _ None allow withFlag _ _ W' IOK L2 CT')
    as (c2 & all2 & r2 & F2 & B2 & P2 & E2 & _).
  exists r1, r2. split; auto. split; auto.
  assert (A1 : r1 = all1).
  { apply (top_part_unique None all1); auto. exists []. rewrite app_nil_r. auto. }
  assert (A2 : r2 = all2).
  { apply (top_part_unique None all2); auto. exists []. rewrite app_nil_r. auto. }
  subst r1 r2. destruct B1 as [B1 _], B2 as [B2 _].
  assert (PC : Permutation (concat occs) (concat occs')).
  { clear - PO. induction PO; cbn; auto.
    - apply Permutation_app_head. auto.
    - rewrite !app_assoc. apply Permutation_app_tail. apply Permutation_app_comm.
    - eapply perm_trans; eauto. }
  eapply perm_trans; [apply Permutation_sym; exact B1|]. eapply perm_trans; [|exact B2].
  assert (EW : map (fun j => (j, tfidf_weight x (concat occs) j)) c2 = map (fun j => (j, tfidf_weight x (concat occs') j)) c2).
  { apply map_ext. intros j. f_equal. unfold tfidf_weight, times.
    rewrite (Permutation_length PC). rewrite (proj1 (Permutation_count_occ term_eq_dec _ _) PC j). reflexivity. }
  rewrite <- EW. apply Permutation_map. apply NoDup_Permutation; [apply F1|apply F2|].
  intros j. rewrite (proj1 (proj2 F1)), (proj1 (proj2 F2)). split; apply Permutation_in; auto using Permutation_sym.
Qed.

(** In floating point the weights of a repeated text may differ in the last digit, for
    every logarithm: 49 copies of a text of one word give 49 * (1 / 49), which is not 1. *)
Definition rp_w : pworld := mkPW (build [([c_bei; c_jing], 1%Z)]) [].
Definition rp_x (lg : Z -> b64) : tfidf (numB lg) :=
  @mkTfidf (numB lg) (@mkIdf (numB lg) [] [] (lit (numB lg) 0)) [] (lit (numB lg) 1) [].
Theorem C96_repeated_binary64_refuted :
  forall (lg : Z -> b64) (LO : log_ok lg) (lower : str -> str) (H : hmm (numB lg)) (T : ptables (numB lg)) (ord : orders),
    exists (w : pworld) (x : tfidf (numB lg)) (s : str) (ts : list term) (c : char) (n : nat),
      words_for (numB lg) H T ord w [] s ts /\ idf_ok (countB lg LO) x /\
      word_char c = false /\ c <> 13%N /\ c <> 10%N /\ 0 < n /\
      snd (extract_tags lower H T ord w x (join_with [c] (repeat s n)) None true [] false) <>
      snd (extract_tags lower H T ord w x s None true [] false).
Proof.
  intros lg LO lower H T ord. set (bj := [c_bei; c_jing]).
  exists rp_w, (rp_x lg), bj, [TWord bj], 32%N, 49.
  assert (W : words_for (numB lg) H T ord rp_w [] bj [TWord bj]).
  { left. split; auto. exists [bj]. split; [vm_compute; reflexivity|reflexivity]. }
  assert (IOK : idf_ok (countB lg LO) (rp_x lg)) by (intros y; reflexivity).
  split; auto. split; auto. split; [reflexivity|]. split; [discriminate|]. split; [discriminate|]. split; [lia|].
  assert (CT : counted lower [] [] false [TWord bj] [TWord bj]).
  { apply (counted_yes lower [] [] false (TWord bj)); [|constructor]. split; [vm_compute; lia|]. split; auto. }
  assert (W2 : words_for (numB lg) H T ord rp_w [] (join_with [32%N] (repeat bj 49)) (joined [] 32%N (repeat [TWord bj] 49))).
  { apply words_joined; auto; try discriminate. apply repeat_forall2; auto. }
  assert (CT2 : counted lower [] [] false (joined [] 32%N (repeat [TWord bj] 49)) (concat (repeat [TWord bj] 49))).
  { apply counted_joined; try discriminate; auto. apply repeat_forall2; auto. }
  assert (L1 : c_lim (countB lg LO) (Z.of_nat (length [TWord bj]))) by (cbn; lia).
  assert (L2 : c_lim (countB lg LO) (Z.of_nat (length (joined [] 32%N (repeat [TWord bj] 49))))) by (cbn; lia).
  destruct (C40_weights (numB lg) (orderB lg LO) (countB lg LO) lower H T ord rp_w (rp_x lg) bj None [] false _ _ W IOK L1 CT) as (r & E & A).
  destruct (C40_weights (numB lg) (orderB lg LO) (countB lg LO) lower H T ord rp_w (rp_x lg) _ None [] false _ _ W2 IOK L2 CT2) as (r2 & E2 & A2).
  intros K0. pose proof (eq_trans (eq_sym E2) (eq_trans K0 E)) as K. injection K as ->. clear K0.
  assert (IR : exists y, In (TWord bj, y) r).
  { destruct (C38_best_keywords (numB lg) (orderB lg LO) (countB lg LO) lower H T ord rp_w (rp_x lg) bj None [] false _ _ W IOK L1 CT) as (c1 & all & r1 & F & B & P & E3 & _).
    rewrite E in E3. injection E3 as <-. assert (R : r = all) by (apply (top_part_unique None all); auto; exists []; rewrite app_nil_r; auto).
    subst all. exists (tfidf_weight (rp_x lg) [TWord bj] (TWord bj)). eapply Permutation_in; [apply B|].
    apply (in_map (fun j => (j, tfidf_weight (rp_x lg) [TWord bj] j))). apply (proj1 (proj2 F)). left. auto. }
  destruct IR as (y & Y). pose proof (A _ _ Y) as V1. pose proof (A2 _ _ Y) as V2. rewrite V1 in V2. clear - V2.
  assert (X : bval (f_mul (numB lg) (lit (numB lg) 1) (f_div (numB lg) (lit (numB lg) 1) (lit (numB lg) 1))) =
              bval (f_mul (numB lg) (lit (numB lg) 49) (f_div (numB lg) (lit (numB lg) 1) (lit (numB lg) 49)))).
  { f_equal. exact V2. }
  vm_compute in X. lra.
Qed.

(** 北京 and 来到，北京 are texts with these words for every logarithm and HMM *)
Definition rp_w2 : pworld := mkPW (build [([c_bei; c_jing], 7%Z); ([c_lai; c_dao], 5%Z)]) [[]].
Example C96_example :
  forall (H : hmm numX) (T : ptables numX) (ord : orders),
    words_for numX H T ord rp_w2 [] [c_lai; c_dao; c_comma; c_bei; c_jing] [TWord [c_lai; c_dao]; TWord [c_comma]; TWord [c_bei; c_jing]] /\
    join_with [32%N] (repeat [c_bei; c_jing] 3) = [c_bei; c_jing; 32; c_bei; c_jing; 32; c_bei; c_jing]%N /\
    word_char 32%N = false /\
    counted (fun s => s) [] [] false [TWord [c_lai; c_dao]; TWord [c_comma]; TWord [c_bei; c_jing]] [TWord [c_lai; c_dao]; TWord [c_bei; c_jing]].
Proof.
  intros H T ord. split; [|split; [reflexivity|split; [reflexivity|]]].
  - left. split; auto. exists [[c_lai; c_dao]; [c_comma]; [c_bei; c_jing]]. split; [|reflexivity].
    assert (G : forall s, s = [c_lai; c_dao] \/ s = [c_bei; c_jing] ->
      cut numX H (mode_of false true) (d_freq (pw_d rp_w2)) (d_total (pw_d rp_w2)) (d_force (pw_d rp_w2)) s = gof [s]).
    { intros s [->| ->]; vm_compute; reflexivity. }
    change [c_lai; c_dao; c_comma; c_bei; c_jing] with ([c_lai; c_dao] ++ c_comma :: [c_bei; c_jing]).
    rewrite C45_separator by (try reflexivity; discriminate). rewrite !G by auto. reflexivity.
  - pose proof (counted_keys (fun s => s) [] [] false [TWord [c_lai; c_dao]; TWord [c_comma]; TWord [c_bei; c_jing]]) as K.
    vm_compute in K. vm_compute. exact K.
Qed.

Print Assumptions C96_repeated_text.
Print Assumptions C96_parts_in_any_order.
Print Assumptions C96_repeated_binary64_refuted.
