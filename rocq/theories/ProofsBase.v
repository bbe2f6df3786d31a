(** * Lemmas about the Python primitives *)
From Verif Require Import PyBase PyRegex.

(** ** Strings *)

Lemma str_eqb_eq a b : str_eqb a b = true <-> a = b.
Proof.
  unfold str_eqb. revert b; induction a as [|x a IH]; intros [|y b]; simpl;
    try (split; congruence).
  rewrite andb_true_iff, N.eqb_eq, IH. split; [intros [-> ->]; auto | intros [= -> ->]; auto].
Qed.

Lemma str_eqb_refl a : str_eqb a a = true.
Proof. apply str_eqb_eq; reflexivity. Qed.

Lemma str_eqb_neq a b : str_eqb a b = false <-> a <> b.
Proof.
  split.
  - intros H E. apply str_eqb_eq in E. congruence.
  - intros H. destruct (str_eqb a b) eqn:E; auto. apply str_eqb_eq in E. contradiction.
Qed.

Lemma str_eq_dec (a b : str) : {a = b} + {a <> b}.
Proof. apply list_eq_dec, N.eq_dec. Defined.

Lemma str_in_In w l : str_in w l = true <-> In w l.
Proof.
  unfold str_in. rewrite existsb_exists. split.
  - intros [x [Hx E]]. apply str_eqb_eq in E. subst. auto.
  - intros H. exists w. split; auto. apply str_eqb_refl.
Qed.

(** ** Dictionaries *)

Section DictLemmas.
  Context {K V : Type} (eqb : K -> K -> bool).
  Hypothesis eqb_ok : forall a b, eqb a b = true <-> a = b.

  Lemma dget_dset_same (d : list (K * V)) k v : dget eqb (dset eqb d k v) k = Some v.
  Proof.
    assert (R : eqb k k = true) by (apply eqb_ok; reflexivity).
    induction d as [|[k' v'] d IH]; simpl.
    - rewrite R. reflexivity.
    - destruct (eqb k k') eqn:E; simpl; rewrite E; auto.
  Qed.

  Lemma dget_dset_other (d : list (K * V)) k k2 v :
    k2 <> k -> dget eqb (dset eqb d k v) k2 = dget eqb d k2.
  Proof.
    intros N.
    assert (R : eqb k2 k = false).
    { destruct (eqb k2 k) eqn:E; auto. apply eqb_ok in E. contradiction. }
    induction d as [|[k' v'] d IH]; simpl.
    - rewrite R. reflexivity.
    - destruct (eqb k k') eqn:E; simpl.
      + apply eqb_ok in E. subst k'. rewrite R. reflexivity.
      + rewrite IH. reflexivity.
  Qed.

  Lemma dget_In (d : list (K * V)) k v : dget eqb d k = Some v -> In (k, v) d.
  Proof.
    induction d as [|[k' v'] d IH]; simpl; [discriminate|].
    destruct (eqb k k') eqn:E.
    - intros [= ->]. apply eqb_ok in E. subst. auto.
    - intros H. right. auto.
  Qed.

  Lemma In_dget (d : list (K * V)) k v :
    NoDup (map fst d) -> In (k, v) d -> dget eqb d k = Some v.
  Proof.
    assert (R : forall a, eqb a a = true) by (intros; apply eqb_ok; reflexivity).
    induction d as [|[k' v'] d IH]; simpl; intros ND HI; [contradiction|].
    inversion ND as [|? ? N1 N2]; subst. destruct HI as [[= -> ->]|HI].
    - rewrite R. reflexivity.
    - destruct (eqb k k') eqn:E.
      + apply eqb_ok in E. subst k'. exfalso. apply N1.
        apply in_map_iff. exists (k, v). auto.
      + auto.
  Qed.

  Lemma dget_None (d : list (K * V)) k : dget eqb d k = None <-> ~ In k (map fst d).
  Proof.
    assert (R : forall a, eqb a a = true) by (intros; apply eqb_ok; reflexivity).
    induction d as [|[k' v'] d IH]; simpl; [tauto|].
    destruct (eqb k k') eqn:E.
    - apply eqb_ok in E. subst. split; [discriminate | intros []; auto].
    - rewrite IH. split; intros HH; [intros [->|]|]; auto. rewrite R in E. discriminate.
  Qed.

  Lemma dset_keys (d : list (K * V)) k v :
    map fst (dset eqb d k v) =
      if dmem eqb d k then map fst d else map fst d ++ [k].
  Proof.
    unfold dmem. induction d as [|[k' v'] d IH]; simpl; auto.
    destruct (eqb k k') eqn:E; simpl; auto.
    rewrite IH. destruct (dget eqb d k); auto.
  Qed.

  Lemma dset_NoDup (d : list (K * V)) k v :
    NoDup (map fst d) -> NoDup (map fst (dset eqb d k v)).
  Proof.
    intros ND. rewrite dset_keys. unfold dmem.
    destruct (dget eqb d k) eqn:E; auto.
    apply dget_None in E.
    apply NoDup_rev in ND. rewrite <- (rev_involutive (map fst d)) in E |- *.
    rewrite <- in_rev in E. clear eqb_ok. revert ND E. generalize (rev (map fst d)) as l.
    intros l ND E. change (rev l ++ [k]) with (rev (k :: l)). apply NoDup_rev. constructor; auto.
  Qed.
End DictLemmas.

Lemma sget_sset_same {V} (d : sdict V) k v : sget (sset d k v) k = Some v.
Proof. apply dget_dset_same, str_eqb_eq. Qed.
Lemma sget_sset_other {V} (d : sdict V) k k2 v : k2 <> k -> sget (sset d k v) k2 = sget d k2.
Proof. apply dget_dset_other, str_eqb_eq. Qed.
Lemma sget_sset {V} (d : sdict V) k k2 v :
  sget (sset d k v) k2 = if str_eqb k2 k then Some v else sget d k2.
Proof.
  destruct (str_eqb k2 k) eqn:E.
  - apply str_eqb_eq in E. subst. apply sget_sset_same.
  - apply str_eqb_neq in E. apply sget_sset_other; auto.
Qed.
Lemma smem_sget {V} (d : sdict V) k : smem d k = match sget d k with Some _ => true | None => false end.
Proof. reflexivity. Qed.

(** ** Generators *)

Lemma gapp_nil_r {A} (g : gen A) : gapp g gnil = g.
Proof. destruct g as [l [e|]]; unfold gapp; simpl; auto. rewrite app_nil_r; auto. Qed.
Lemma gapp_nil_l {A} (g : gen A) : gapp gnil g = g.
Proof. destruct g; reflexivity. Qed.
Lemma gapp_assoc {A} (g h k : gen A) : gapp g (gapp h k) = gapp (gapp g h) k.
Proof.
  destruct g as [l [e|]], h as [m [e'|]], k as [n o]; unfold gapp; simpl; auto.
  rewrite app_assoc; auto.
Qed.
Lemma gfor_app {A B} (l1 l2 : list A) (f : A -> gen B) :
  gfor (l1 ++ l2) f = gapp (gfor l1 f) (gfor l2 f).
Proof.
  induction l1 as [|x l1 IH]; simpl.
  - rewrite gapp_nil_l; auto.
  - rewrite IH, gapp_assoc; auto.
Qed.
Lemma gfor_ext {A B} (l : list A) (f g : A -> gen B) :
  (forall x, In x l -> f x = g x) -> gfor l f = gfor l g.
Proof.
  induction l as [|x l IH]; simpl; intros E; auto.
  rewrite E, IH; auto.
Qed.
Lemma gfor_map {A B C} (l : list A) (h : A -> B) (f : B -> gen C) :
  gfor (map h l) f = gfor l (fun x => f (h x)).
Proof. induction l as [|x l IH]; simpl; auto. rewrite IH; auto. Qed.
Lemma gapp_gof {A} (l m : list A) : gapp (gof l) (gof m) = gof (l ++ m).
Proof. reflexivity. Qed.
Lemma gapp_gof_l {A} (l : list A) g : gapp (gof l) g = (l ++ fst g, snd g).
Proof. reflexivity. Qed.
Lemma gfor_gof {A B} (l : list A) (f : A -> list B) :
  gfor l (fun x => gof (f x)) = gof (flat_map f l).
Proof. induction l as [|x l IH]; simpl; auto. rewrite IH; reflexivity. Qed.
Lemma gcons_gapp {A} (x : A) g : gcons x g = gapp (gone x) g.
Proof. destruct g; reflexivity. Qed.
Lemma gapp_gcons {A} (x : A) g h : gapp (gcons x g) h = gcons x (gapp g h).
Proof. destruct g as [l [e|]]; reflexivity. Qed.

(** "runs to its end, yielding [l]" *)
Definition gdone {A} (g : gen A) (l : list A) : Prop := g = (l, None).

Lemma gdone_gfor {A B} (l : list A) (f : A -> gen B) (h : A -> list B) :
  (forall x, In x l -> f x = (h x, None)) -> gfor l f = (flat_map h l, None).
Proof.
  intros E. rewrite (@gfor_ext _ _ l f (fun x => gof (h x))); auto. apply gfor_gof.
Qed.

(** the part yielded before an exception *)
Lemma gfor_snd_None {A B} (l : list A) (f : A -> gen B) :
  (forall x, In x l -> snd (f x) = None) ->
  snd (gfor l f) = None /\ fst (gfor l f) = flat_map (fun x => fst (f x)) l.
Proof.
  induction l as [|x l IH]; simpl; intros E; auto.
  destruct IH as [I1 I2]; [intros; apply E; auto|].
  unfold gapp. rewrite E by auto. simpl. rewrite I1, I2. auto.
Qed.

(** ** Lists and slices *)

Lemma skipn_skipn {A} (x y : nat) (s : list A) : skipn x (skipn y s) = skipn (x + y) s.
Proof.
  revert s; induction y as [|y IH]; intros s; simpl.
  - rewrite Nat.add_0_r. reflexivity.
  - rewrite Nat.add_succ_r. destruct s as [|a s]; simpl; [apply skipn_nil|apply IH].
Qed.

Lemma slice_app_skipn {A} (s : list A) x y :
  x <= y -> slice s x y ++ skipn y s = skipn x s.
Proof.
  intros L. unfold slice.
  rewrite <- (firstn_skipn (y - x) (skipn x s)) at 2. f_equal.
  rewrite skipn_skipn. f_equal. lia.
Qed.

Lemma firstn_app_slice {A} (s : list A) x y :
  x <= y -> firstn x s ++ slice s x y = firstn y s.
Proof.
  intros L. unfold slice.
  rewrite <- (firstn_skipn x (firstn y s)). f_equal.
  - rewrite firstn_firstn. f_equal. lia.
  - rewrite skipn_firstn_comm. reflexivity.
Qed.

Lemma slice_length {A} (s : list A) x y :
  x <= y -> y <= length s -> length (slice s x y) = y - x.
Proof. intros L1 L2. unfold slice. rewrite firstn_length, skipn_length. lia. Qed.

Lemma slice_nonempty {A} (s : list A) x y :
  x < y -> x < length s -> slice s x y <> [].
Proof.
  intros L1 L2 E. apply (f_equal (@length A)) in E. unfold slice in E.
  rewrite firstn_length, skipn_length in E. simpl in E. lia.
Qed.

Lemma slice_slice_firstn {A} (s : list A) x y z :
  x <= y -> y <= z -> slice s x y ++ slice s y z = slice s x z.
Proof.
  intros L1 L2. unfold slice.
  rewrite <- (firstn_skipn (y - x) (firstn (z - x) (skipn x s))). f_equal.
  - rewrite firstn_firstn. f_equal. lia.
  - rewrite skipn_firstn_comm, skipn_skipn. f_equal; [lia|f_equal; lia].
Qed.

Lemma slice_one {A} (s : list A) k c : nth_error s k = Some c -> slice s k (k + 1) = [c].
Proof.
  revert k; induction s as [|x s IH]; intros [|k]; try discriminate.
  - intros [= ->]. reflexivity.
  - simpl. intros E. apply IH in E. unfold slice in *. simpl in *.
    replace (k + 1 - k) with 1 in * by lia. exact E.
Qed.

Lemma slice_all {A} (s : list A) : slice s 0 (length s) = s.
Proof. unfold slice. rewrite Nat.sub_0_r. simpl. apply firstn_all. Qed.

Lemma firstn_slice {A} (s : list A) n : firstn n s = slice s 0 n.
Proof. unfold slice. rewrite Nat.sub_0_r. reflexivity. Qed.

Lemma skipn_cons_nth {A} (s : list A) x c : nth_error s x = Some c -> skipn x s = c :: skipn (S x) s.
Proof.
  revert s; induction x as [|x IH]; intros [|a s]; simpl; try discriminate.
  - intros [= ->]; auto.
  - intros E. apply IH in E. exact E.
Qed.

Lemma map_singleton_concat (s : str) : concat (map (fun c => [c]) s) = s.
Proof. induction s as [|c s IH]; simpl; congruence. Qed.

Lemma map_singleton_nonempty (s : str) : Forall (fun w => w <> []) (map (fun c : char => [c]) s).
Proof. induction s; simpl; constructor; auto; discriminate. Qed.
