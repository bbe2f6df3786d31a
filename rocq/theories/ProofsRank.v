(** * Sorting, [before], first occurrences *)
From Coq Require Import Reals Lra Permutation.
From Verif Require Import PyBase PyNum ProofsBase ModelAnalyse SpecAnalyse.

Lemma before_cons {A} (x : A) l a b : before (x :: l) a b <-> (a = x /\ In b l) \/ before l a b.
Proof.
  split.
  - intros (u & v & w & E). destruct u as [|y u]; cbn in E; inversion E; subst.
    + left. split; auto. apply in_or_app. right. left. auto.
    + right. exists u, v, w. auto.
  - intros [[-> I]|(u & v & w & ->)].
    + apply in_split in I. destruct I as (u & v & ->). exists [], u, v. auto.
    + exists (x :: u), v, w. auto.
Qed.

Lemma before_nil {A} (a b : A) : ~ before [] a b.
Proof. intros (u & v & w & E). destruct u; discriminate. Qed.

Lemma before_app {A} (l1 l2 : list A) a b :
  before (l1 ++ l2) a b <-> before l1 a b \/ before l2 a b \/ (In a l1 /\ In b l2).
Proof.
  induction l1 as [|x l1 IH]; cbn [app].
  - split; [auto|]. intros [B|[B|[[] _]]]; auto. apply before_nil in B. contradiction.
  - rewrite !before_cons, IH, in_app_iff. cbn. split.
    + intros [[-> [I|I]]|[B|[B|[I J]]]]; auto 8.
    + intros [[[-> I]|B]|[B|[[->|I] J]]]; auto 8.
Qed.

Lemma before_In {A} (l : list A) a b : before l a b -> In a l /\ In b l.
Proof.
  intros (u & v & w & ->). rewrite !in_app_iff. cbn [In]. rewrite in_app_iff. cbn [In]. intuition.
Qed.

Lemma before_map {A B} (f : A -> B) l a b : before (map f l) a b ->
  exists x y, a = f x /\ b = f y /\ before l x y.
Proof.
  induction l as [|x l IH]; cbn [map]; intros BF.
  - apply before_nil in BF. contradiction.
  - apply before_cons in BF. destruct BF as [[-> I]|BF].
    + apply in_map_iff in I. destruct I as (y & <- & I). exists x, y. rewrite before_cons. auto.
    + destruct (IH BF) as (u & v & -> & -> & BF'). exists u, v. rewrite before_cons. auto.
Qed.

Section Sort.
  Context {A : Type} (lt : A -> A -> bool) (val : A -> R) (dom : A -> Prop).
  Hypothesis lt_val : forall a b, dom a -> dom b -> (lt a b = true <-> (val a < val b)%R).

  Lemma insert_desc_perm x l : Permutation (x :: l) (insert_desc lt x l).
  Proof.
    induction l as [|y l IH]; cbn; auto. destruct (lt x y); auto.
    eapply perm_trans; [apply perm_swap|]. auto.
  Qed.

  Lemma sorted_desc_perm l : Permutation l (sorted_desc lt l).
  Proof.
    induction l as [|x l IH]; cbn; auto.
    eapply perm_trans; [apply perm_skip, IH|]. apply insert_desc_perm.
  Qed.

  Lemma insert_desc_split x l : Forall dom (x :: l) ->
    (forall a b, before l a b -> (val b <= val a)%R) ->
    exists l1 l2, l = l1 ++ l2 /\ insert_desc lt x l = l1 ++ x :: l2 /\
      Forall (fun y => (val x < val y)%R) l1 /\ Forall (fun y => (val y <= val x)%R) l2.
  Proof.
    intros D S. inversion D as [|? ? DX DL]; subst. clear D.
    induction l as [|y l IH]; cbn [insert_desc].
    - exists [], []. auto.
    - inversion DL as [|? ? DY DL']; subst. destruct (lt x y) eqn:E.
      + apply lt_val in E; auto. destruct IH as (l1 & l2 & -> & E2 & F1 & F2); auto.
        { intros a b B. apply S. apply before_cons. auto. }
        exists (y :: l1), l2. rewrite E2. repeat split; auto.
      + exists [], (y :: l). split; auto. split; auto. split; auto.
        assert (LE : (val y <= val x)%R).
        { destruct (Rle_or_lt (val y) (val x)); auto. apply lt_val in H; auto. congruence. }
        constructor; auto. rewrite Forall_forall. intros z I.
        apply Rle_trans with (val y); auto. apply S. apply before_cons. auto.
  Qed.

  Lemma sorted_desc_best l : Forall dom l -> best_first val l (sorted_desc lt l).
  Proof.
    intros D. split; [apply sorted_desc_perm|].
    induction l as [|x l IH]; intros a b B.
    - apply before_nil in B. contradiction.
    - inversion D as [|? ? DX DL]; subst. specialize (IH DL). cbn [sorted_desc fold_right] in B.
      fold (sorted_desc lt l) in B.
      destruct (insert_desc_split x (sorted_desc lt l)) as (l1 & l2 & E & E2 & F1 & F2).
      + constructor; auto. eapply Permutation_Forall; [apply sorted_desc_perm|]. auto.
      + intros u v BF. destruct (IH u v BF) as [L|[L _]]; lra.
      + rewrite E2 in B. rewrite Forall_forall in F1, F2.
        apply before_app in B. rewrite before_cons in B. cbn [In] in B.
        assert (LIFT : before (sorted_desc lt l) a b ->
          (val b < val a)%R \/ val b = val a /\ before (x :: l) a b).
        { intros BF. destruct (IH a b BF) as [L|[L BL]]; auto. right. split; auto. apply before_cons. auto. }
        destruct B as [B|[[[-> I]|B]|[I [<-|J]]]].
        * apply LIFT. rewrite E. apply before_app. auto.
        * destruct (F2 b I) as [L|L]; auto. right. split; auto. apply before_cons. left. split; auto.
          eapply Permutation_in; [apply Permutation_sym, sorted_desc_perm|]. rewrite E. apply in_or_app. auto.
        * apply LIFT. rewrite E. apply before_app. auto.
        * left. apply F1. auto.
        * apply LIFT. rewrite E. apply before_app. auto.
  Qed.
End Sort.

Lemma insert_desc_map {A B} (f : A -> B) (lt : A -> A -> bool) (lt' : B -> B -> bool) x l :
  (forall y, In y l -> lt' (f x) (f y) = lt x y) ->
  insert_desc lt' (f x) (map f l) = map f (insert_desc lt x l).
Proof.
  induction l as [|y l IH]; cbn; intros E; auto.
  rewrite E by auto. destruct (lt x y); cbn; auto. rewrite IH; auto.
Qed.

Lemma sorted_desc_map {A B} (f : A -> B) (lt : A -> A -> bool) (lt' : B -> B -> bool) l :
  (forall x y, In x l -> In y l -> lt' (f x) (f y) = lt x y) ->
  sorted_desc lt' (map f l) = map f (sorted_desc lt l).
Proof.
  induction l as [|x l IH]; intros E; auto.
  change (insert_desc lt' (f x) (sorted_desc lt' (map f l)) = map f (insert_desc lt x (sorted_desc lt l))).
  rewrite IH by (intros; apply E; cbn; auto). apply insert_desc_map. intros y I. apply E; cbn; auto. right.
  eapply Permutation_in; [apply Permutation_sym, sorted_desc_perm|]. exact I.
Qed.

(** ** [take_top] *)

Lemma take_top_part {A} k (l : list A) : top_part k l (take_top k l).
Proof.
  unfold top_part, take_top. destruct k as [k|]; [|exists []; rewrite app_nil_r; auto].
  destruct (Z.eqb_spec k 0); [exists []; rewrite app_nil_r; auto|].
  unfold slice_to. destruct (Z.ltb_spec k 0).
  - exists (skipn (length l - Z.to_nat (- k)) l). rewrite firstn_skipn. split; auto.
    rewrite firstn_length. destruct (Z.ltb_spec 0 k); lia.
  - exists (skipn (Z.to_nat k) l). rewrite firstn_skipn. split; auto.
    rewrite firstn_length. destruct (Z.ltb_spec 0 k); lia.
Qed.

Lemma take_top_map {A B} (f : A -> B) k l : take_top k (map f l) = map f (take_top k l).
Proof.
  unfold take_top, slice_to. destruct k as [k|]; auto. destruct (k =? 0)%Z; auto.
  destruct (k <? 0)%Z; rewrite ?map_length, firstn_map; auto.
Qed.

(** ** Terms *)

Lemma term_eqb_eq a b : term_eqb a b = true <-> a = b.
Proof.
  destruct a as [v|v f], b as [w|w g]; cbn; try (split; discriminate).
  - rewrite str_eqb_eq. split; congruence.
  - rewrite andb_true_iff, !str_eqb_eq. split; [intros []|]; try congruence. intros E; inversion E; auto.
Qed.

Lemma pair_eqb_eq a b : pair_eqb a b = true <-> a = b.
Proof.
  destruct a, b. unfold pair_eqb. cbn. rewrite andb_true_iff, !term_eqb_eq.
  split; [intros [-> ->]; auto|]. intros E; inversion E; auto.
Qed.

(** ** Counting *)

Definition kz (d : kdict Z) (k : term) : Z := match kget d k with Some n => n | None => 0%Z end.
Definition tally (occ : list term) : kdict Z :=
  fold_left (fun d k => kset d k (kz d k + 1)%Z) occ [].

Lemma tally_snoc occ k : tally (occ ++ [k]) = kset (tally occ) k (kz (tally occ) k + 1)%Z.
Proof. unfold tally. rewrite fold_left_app. reflexivity. Qed.

Lemma tally_nodup occ : NoDup (map fst (tally occ)).
Proof.
  induction occ as [|k occ IH] using rev_ind; [constructor|].
  rewrite tally_snoc. apply dset_NoDup; auto. apply term_eqb_eq.
Qed.

Lemma kget_In {V} (d : kdict V) k : kget d k = None <-> ~ In k (map fst d).
Proof. apply dget_None, term_eqb_eq. Qed.

Lemma tally_times occ k : kz (tally occ) k = Z.of_nat (times k occ).
Proof.
  unfold times. induction occ as [|j occ IH] using rev_ind; auto.
  rewrite tally_snoc, count_occ_app. cbn [count_occ]. unfold kz at 1, kget, kset.
  destruct (term_eq_dec j k) as [->|N].
  - rewrite dget_dset_same by apply term_eqb_eq. rewrite IH. lia.
  - rewrite dget_dset_other; [|apply term_eqb_eq|congruence]. fold (kget (tally occ) k).
    fold (kz (tally occ) k). rewrite IH. lia.
Qed.

Lemma tally_firsts occ : first_occurrences occ (map fst (tally occ)).
Proof.
  split; [apply tally_nodup|].
  induction occ as [|k occ [IH1 IH2]] using rev_ind.
  - split; [tauto|]. intros x y B. apply before_nil in B. contradiction.
  - rewrite tally_snoc. unfold kset. rewrite dset_keys.
    unfold dmem. fold (kget (tally occ) k). destruct (kget (tally occ) k) eqn:E.
    + assert (I : In k occ).
      { apply IH1. destruct (in_dec term_eq_dec k (map fst (tally occ))); auto.
        apply kget_In in n. congruence. }
      split.
      * intros x. rewrite in_app_iff, IH1. cbn. split; auto. intros [?|[<-|[]]]; auto.
      * intros x y B. destruct (IH2 x y B) as (u & v & -> & N & NE).
        exists u, (v ++ [k]). rewrite <- app_assoc. auto.
    + assert (N : ~ In k occ) by (rewrite <- IH1; apply kget_In; auto).
      split.
      * intros x. rewrite !in_app_iff, IH1. tauto.
      * intros x y B. apply before_app in B. destruct B as [B|[B|[I [<-|[]]]]].
        -- destruct (IH2 x y B) as (u & v & -> & N' & NE).
           exists u, (v ++ [k]). rewrite <- app_assoc. auto.
        -- apply before_cons in B. destruct B as [[_ []]|B]. apply before_nil in B. contradiction.
        -- apply IH1 in I. apply in_split in I. destruct I as (u & v & ->).
           exists u, (v ++ [k]). rewrite <- app_assoc. split; auto. split.
           ++ intros I. apply N. apply in_or_app. auto.
           ++ intros ->. apply N. apply in_or_app. right. left. auto.
Qed.

Definition ksum (d : kdict Z) : Z := fold_right (fun kn a => (snd kn + a)%Z) 0%Z d.

Lemma ksum_kset d k v : ksum (kset d k v) = (ksum d - kz d k + v)%Z.
Proof.
  unfold kz, kget, kset. induction d as [|[j n] d IH]; cbn [dset dget ksum fold_right snd]; [lia|].
  destruct (term_eqb k j); cbn [ksum fold_right snd]; [fold (ksum d); lia|].
  fold (ksum d) (ksum (dset term_eqb d k v)). rewrite IH. lia.
Qed.

Lemma tally_sum occ : ksum (tally occ) = Z.of_nat (length occ).
Proof.
  induction occ as [|k occ IH] using rev_ind; auto.
  rewrite tally_snoc, ksum_kset, IH, app_length. cbn. lia.
Qed.

Lemma tally_items occ :
  tally occ = map (fun k => (k, Z.of_nat (times k occ))) (map fst (tally occ)).
Proof.
  rewrite map_map. pose proof (tally_nodup occ) as ND.
  assert (E : forall k n, In (k, n) (tally occ) -> n = Z.of_nat (times k occ)).
  { intros k n I. apply (In_dget _ term_eqb_eq) in I; auto.
    rewrite <- tally_times. unfold kz, kget. rewrite I. auto. }
  clear ND. revert E. generalize (tally occ) as d.
  induction d as [|[k n] d IH]; cbn; intros E; auto. rewrite (E k n) at 1 by auto. f_equal. auto.
Qed.

Lemma times_le k occ : times k occ <= length occ.
Proof. apply count_occ_bound. Qed.

Lemma times_pos k occ : In k occ -> 0 < times k occ.
Proof. intros I. unfold times. apply (count_occ_In term_eq_dec) in I. lia. Qed.

(** ** Stripping *)

Notation nonspace := (filter (fun c => negb (is_space c))).

Lemma lstrip_nonspace s : nonspace (lstrip_by is_space s) = nonspace s.
Proof. induction s as [|c s IH]; cbn; auto. destruct (is_space c) eqn:E; cbn; rewrite ?E; auto. Qed.

Lemma filter_rev {A} (p : A -> bool) l : filter p (rev l) = rev (filter p l).
Proof.
  induction l as [|x l IH]; cbn; auto. rewrite filter_app, IH. cbn.
  destruct (p x); cbn; auto. rewrite app_nil_r. auto.
Qed.

Lemma strip_nonspace s : nonspace (str_strip s) = nonspace s.
Proof.
  unfold str_strip, strip_by, rstrip_by. rewrite filter_rev, lstrip_nonspace, filter_rev, rev_involutive.
  apply lstrip_nonspace.
Qed.

Lemma lstrip_head s : lstrip_by is_space s = [] \/
  exists c u, lstrip_by is_space s = c :: u /\ is_space c = false.
Proof.
  induction s as [|c s IH]; cbn; auto. destruct (is_space c) eqn:E; auto.
  right. exists c, s. auto.
Qed.

Lemma strip_two w : 2 <= length (str_strip w) <-> two_chars w.
Proof.
  unfold two_chars. rewrite <- strip_nonspace. split.
  - intros L. unfold str_strip, strip_by, rstrip_by in *.
    set (u := lstrip_by is_space w) in *.
    (* the last character is not a space *)
    destruct (lstrip_head (rev u)) as [E|(c & v & E & NS)]; rewrite E in *; cbn [rev length] in *; [cbn in L; lia|].
    (* the first one is not either *)
    assert (P : exists x, u = rev v ++ c :: x).
    { destruct (lstrip_head (rev u)) as [E'|_]; [rewrite E in E'; discriminate|].
      assert (S : exists x, rev u = x ++ c :: v).
      { rewrite <- E. clear. generalize (rev u) as s. induction s as [|a s [x IH]]; cbn; [exists []; auto|].
        destruct (is_space a); [|exists []; auto]. exists (a :: x). cbn. rewrite IH at 1. auto. }
      destruct S as (x & S). exists (rev x). rewrite <- (rev_involutive u), S, rev_app_distr. cbn.
      rewrite <- app_assoc. auto. }
    destruct P as (x & P). rewrite app_length in L. cbn in L.
    destruct (rev v) as [|a r] eqn:RV; [cbn in L; lia|].
    destruct (lstrip_head w) as [E'|(b & z & E' & NB)]; fold u in E'; rewrite E' in P; [discriminate|].
    cbn in P. inversion P; subst b. cbn [app filter]. rewrite NB. cbn [negb length].
    rewrite filter_app, app_length. cbn [filter]. rewrite NS. cbn. lia.
  - intros L. eapply Nat.le_trans; [exact L|]. clear L.
    generalize (str_strip w) as s. induction s as [|c s IH]; cbn; auto.
    destruct (is_space c); cbn; lia.
Qed.

Lemma kept_counts lower stop w :
  kept lower stop w = true <-> two_chars w /\ ~ In (lower w) stop.
Proof.
  unfold kept. rewrite andb_true_iff, Nat.leb_le, negb_true_iff, strip_two.
  split; intros [A B]; split; auto.
  - intros I. apply str_in_In in I. congruence.
  - destruct (str_in (lower w) stop) eqn:E; auto. apply str_in_In in E. contradiction.
Qed.
