(** * Lemmas about the dictionary calls *)
From Verif Require Import PyBase PyRegex PyNum ModelFinalseg ModelSeg ModelDict ModelApi
  SpecBase SpecSeg SpecDict SpecApi ProofsBase.
Set Implicit Arguments.

(** ** Adding the prefixes *)

Lemma is_prefix_spec k w : is_prefix k w = true <-> k <> [] /\ prefix_of k w.
Proof.
  unfold is_prefix. destruct k as [|c k]; [split; [discriminate|tauto]|].
  rewrite str_eqb_eq. split.
  - intros E. split; [discriminate|]. exists (skipn (length (c :: k)) w). rewrite E at 1. symmetry. apply firstn_skipn.
  - intros [_ [t ->]]. rewrite firstn_app, Nat.sub_diag, firstn_all. simpl. rewrite app_nil_r. reflexivity.
Qed.

Lemma prefixes_step d w n k :
  sget (if smem d (firstn n w) then d else sset d (firstn n w) 0%Z) k =
  match sget d k with Some v => Some v | None => if str_eqb k (firstn n w) then Some 0%Z else None end.
Proof.
  rewrite smem_sget. destruct (str_eqb k (firstn n w)) eqn:E.
  - apply str_eqb_eq in E. subst k. destruct (sget d (firstn n w)) eqn:G; [rewrite G; auto|].
    apply sget_sset_same.
  - assert (NE : k <> firstn n w) by (apply str_eqb_neq; auto).
    destruct (sget d (firstn n w)).
    + destruct (sget d k); auto.
    + rewrite sget_sset_other by auto. destruct (sget d k); auto.
Qed.

Lemma add_prefixes_from d w a n k :
  sget (fold_left (fun d ch => let wfrag := firstn (ch + 1) w in
                         if smem d wfrag then d else sset d wfrag 0%Z) (seq a n) d) k =
  match sget d k with
  | Some v => Some v
  | None => if existsb (fun ch => str_eqb k (firstn (ch + 1) w)) (seq a n) then Some 0%Z else None
  end.
Proof.
  revert d a. induction n as [|n IH]; intros d a; cbn [seq fold_left existsb].
  - destruct (sget d k); auto.
  - rewrite IH. cbv zeta. rewrite prefixes_step. destruct (sget d k); auto.
    destruct (str_eqb k (firstn (a + 1) w)); auto.
Qed.

Lemma add_prefixes_get d w k :
  sget (add_prefixes d w) k =
  match sget d k with Some v => Some v | None => if is_prefix k w then Some 0%Z else None end.
Proof.
  unfold add_prefixes. rewrite add_prefixes_from. destruct (sget d k); auto.
  assert (E : existsb (fun ch => str_eqb k (firstn (ch + 1) w)) (seq 0 (length w)) = is_prefix k w).
  { apply eq_true_iff_eq. rewrite is_prefix_spec, existsb_exists. split.
    - intros [n [HI E]]. apply in_seq in HI. apply str_eqb_eq in E. subst k. split.
      + intros E. apply (f_equal (@length _)) in E. rewrite firstn_length in E. simpl in E. lia.
      + exists (skipn (n + 1) w). symmetry. apply firstn_skipn.
    - intros [NE [t ->]]. exists (length k - 1).
      assert (0 < length k) by (destruct k; [congruence|simpl; lia]).
      split; [apply in_seq; rewrite app_length; lia|]. apply str_eqb_eq.
      replace (length k - 1 + 1) with (length k + 0) by lia. rewrite firstn_app_2. simpl.
      rewrite app_nil_r. reflexivity. }
  rewrite E. reflexivity.
Qed.

Lemma add_get fr w f k : sget (add_prefixes (sset fr w f) w) k = after_add (sget fr) w f k.
Proof.
  rewrite add_prefixes_get, sget_sset. unfold after_add. destruct (str_eqb k w); auto.
Qed.

(** ** Prefix closure *)

Lemma prefix_of_app {A} (u v w : list A) : prefix_of (u ++ v) w -> prefix_of u w.
Proof. intros [t ->]. exists (v ++ t). symmetry. apply app_assoc. Qed.

Lemma after_add_closed D w f : prefix_closed D -> prefix_closed (after_add D w f).
Proof.
  intros PC u v NU. unfold after_add. destruct (str_eqb u w) eqn:EU; [intros; discriminate|].
  destruct (D u) eqn:DU; [intros; discriminate|].
  intros HN. assert (PW : prefix_of u w).
  { destruct (str_eqb (u ++ v) w) eqn:E.
    - apply str_eqb_eq in E. exists v. auto.
    - destruct (D (u ++ v)) eqn:DUV.
      + exfalso. apply (PC u v NU); congruence.
      + destruct (is_prefix (u ++ v) w) eqn:IP; [|congruence].
        apply is_prefix_spec in IP. destruct IP as [_ IP]. eapply prefix_of_app; eauto. }
  assert (IP : is_prefix u w = true) by (apply is_prefix_spec; auto).
  rewrite IP. discriminate.
Qed.

Lemma prefix_closed_ext D E : (forall k, D k = E k) -> prefix_closed D -> prefix_closed E.
Proof. intros X PC u v NU. rewrite <- !X. apply PC; auto. Qed.

Lemma add_closed fr w f : prefix_closed (sget fr) -> prefix_closed (sget (add_prefixes (sset fr w f) w)).
Proof.
  intros PC. eapply prefix_closed_ext; [intros k; symmetry; apply add_get|]. apply after_add_closed; auto.
Qed.

(** ** Sums *)

Lemma sum_sset (fr : freqs) w f :
  sum_of (sset fr w f) = (sum_of fr - freq_get fr w 0 + f)%Z.
Proof.
  unfold sum_of, sset, freq_get, sget. induction fr as [|[k n] fr IH]; simpl; [lia|].
  destruct (str_eqb w k); simpl; [lia|]. rewrite IH. lia.
Qed.

Lemma sset_NoDup {V} (d : sdict V) k v : NoDup (map fst d) -> NoDup (map fst (sset d k v)).
Proof. apply dset_NoDup. apply str_eqb_eq. Qed.

Lemma prefixes_sum_from (d : freqs) w a n :
  sum_of (fold_left (fun d ch => let wfrag := firstn (ch + 1) w in
                         if smem d wfrag then d else sset d wfrag 0%Z) (seq a n) d) = sum_of d.
Proof.
  revert d a. induction n as [|n IH]; intros d a; cbn [seq fold_left]; auto.
  rewrite IH. cbv zeta. rewrite smem_sget. destruct (sget d (firstn (a + 1) w)) eqn:E; auto.
  rewrite sum_sset. unfold freq_get. rewrite E. lia.
Qed.

Lemma add_prefixes_sum d w : sum_of (add_prefixes d w) = sum_of d.
Proof. apply prefixes_sum_from. Qed.

Lemma prefixes_NoDup_from (d : freqs) w a n :
  NoDup (map fst d) ->
  NoDup (map fst (fold_left (fun d ch => let wfrag := firstn (ch + 1) w in
                         if smem d wfrag then d else sset d wfrag 0%Z) (seq a n) d)).
Proof.
  revert d a. induction n as [|n IH]; intros d a ND; cbn [seq fold_left]; auto.
  apply IH. cbv zeta. destruct (smem d (firstn (a + 1) w)); auto. apply sset_NoDup; auto.
Qed.

Lemma add_prefixes_NoDup d w : NoDup (map fst d) -> NoDup (map fst (add_prefixes d w)).
Proof. apply prefixes_NoDup_from. Qed.

Lemma sum_of_nonneg (fr : freqs) : (forall k n, In (k, n) fr -> (0 <= n)%Z) -> (0 <= sum_of fr)%Z.
Proof.
  induction fr as [|[k n] fr IH]; simpl; intros P; [lia|].
  assert (0 <= n)%Z by (apply (P k); auto). assert (0 <= sum_of fr)%Z by (apply IH; eauto). unfold sum_of in *. lia.
Qed.

Lemma sum_of_get (fr : freqs) w n :
  (forall k n, In (k, n) fr -> (0 <= n)%Z) -> sget fr w = Some n -> (n <= sum_of fr)%Z.
Proof.
  unfold sget. induction fr as [|[k m] fr IH]; simpl; intros P; [discriminate|].
  assert (0 <= m)%Z by (apply (P k); auto).
  assert (0 <= sum_of fr)%Z by (apply sum_of_nonneg; eauto).
  unfold sum_of in *. destruct (str_eqb w k).
  - intros E; inversion E; subst. lia.
  - intros E. apply IH in E; eauto. lia.
Qed.

(** ** Every state change is a sequence of additions *)

Definition addition := (str * Z * option str)%type.
Definition add1 (d : dstate) (a : addition) : dstate := add_word_freq d (fst (fst a)) (snd (fst a)) (snd a).
Definition adds (d : dstate) (l : list addition) : dstate := fold_left add1 l d.

Section Ops.
  Variable num : Num.
  Variable H : hmm num.

  Lemma add_word_adds d w f t d' :
    add_word num H d w f t = Ok d' ->
    exists n, d' = add_word_freq d w n t /\
      (f = Some n \/ (f = None /\ suggest_freq_value num H (d_freq d) (d_total d) (d_force d) (Whole w) = Ok n)).
  Proof.
    unfold add_word. destruct f as [n|]; simpl.
    - intros E; inversion E. eauto.
    - destruct (suggest_freq_value _ _ _ _ _ _) as [n|e]; simpl; [|discriminate].
      intros E; inversion E. eauto 6.
  Qed.

  Lemma userdict_line_adds d l d' :
    load_userdict_line num H d l = Ok d' ->
    (d' = d /\ uline_text l = Some []) \/
    exists c text w f t n, uline_text l = Some (c :: text) /\ parse_userdict_line (c :: text) = Some (w, f, t) /\
      d' = add_word_freq d w n t /\
      match f with
      | Some ds => parse_int ds = Some n
      | None => suggest_freq_value num H (d_freq d) (d_total d) (d_force d) (Whole w) = Ok n
      end.
  Proof.
    unfold load_userdict_line. destruct (uline_text l) as [[|c text]|]; [| |discriminate].
    - intros E; inversion E; auto.
    - destruct (parse_userdict_line (c :: text)) as [[[w f] t]|] eqn:EP; [|discriminate].
      destruct f as [ds|].
      + destruct (parse_int ds) as [n|] eqn:EI; [|discriminate]. intros E.
        apply add_word_adds in E. destruct E as [n' [-> [E|[E _]]]]; [|discriminate]. inversion E; subst.
        right. exists c, text, w, (Some ds), t, n'. auto 6.
      + intros E. apply add_word_adds in E. destruct E as [n' [-> [E|[_ E]]]]; [discriminate|].
        right. exists c, text, w, None, t, n'. auto 6.
  Qed.

  Lemma userdict_adds lines d :
    exists l, fst (load_userdict num H d lines) = adds d l
      /\ Forall (fun a => In (fst (fst a)) (flat_map line_word lines)) l.
  Proof.
    revert d. induction lines as [|x lines IH]; intros d; simpl; [exists []; auto|].
    destruct (load_userdict_line num H d x) as [d'|e] eqn:E; [|exists []; auto].
    destruct (IH d') as [l [L1 L2]]. rewrite L1.
    assert (W : Forall (fun a => In (fst (fst a)) (line_word x ++ flat_map line_word lines)) l).
    { eapply Forall_impl; [|exact L2]. intros a HI. apply in_or_app; auto. }
    apply userdict_line_adds in E. destruct E as [[-> _]|(c & text & w & f & t & n & E1 & E2 & -> & _)].
    - exists l. auto.
    - exists ((w, n, t) :: l). split; [reflexivity|]. constructor; auto. simpl.
      apply in_or_app. left. unfold line_word. rewrite E1, E2. left; auto.
  Qed.

  Lemma do_op_adds d o :
    exists l, fst (do_op num H d o) = adds d l /\ Forall (fun a => In (fst (fst a)) (op_words o)) l.
  Proof.
    destruct o; simpl; try (exists []; split; [reflexivity|constructor]).
    - destruct (add_word num H d w freq tag) as [d'|e] eqn:E; [|exists []; auto].
      apply add_word_adds in E. destruct E as [n [-> _]]. exists [(w, n, tag)]. split; [reflexivity|].
      constructor; simpl; auto.
    - exists [(w, 0%Z, None)]. split; [reflexivity|]. constructor; simpl; auto.
    - unfold suggest_freq. destruct (suggest_freq_value _ _ _ _ _ _) as [n|e]; simpl; [|exists []; auto].
      destruct tune; simpl; [|exists []; auto]. exists [(segment_word s, n, None)]. split; [reflexivity|].
      constructor; simpl; auto.
    - destruct (userdict_adds lines d) as [l [L1 L2]]. exists l.
      destruct (load_userdict num H d lines) as [d' [e|]]; auto.
  Qed.

  Lemma do_ops_adds os d :
    exists l, do_ops num H d os = adds d l /\ Forall (fun a => In (fst (fst a)) (flat_map op_words os)) l.
  Proof.
    revert d. induction os as [|o os IH]; intros d; simpl; [exists []; auto|].
    destruct (do_op_adds d o) as [l1 [E1 F1]].
    destruct (IH (fst (do_op num H d o))) as [l2 [E2 F2]].
    exists (l1 ++ l2). split.
    - unfold do_ops in *. simpl. rewrite E2, E1. unfold adds. rewrite fold_left_app. reflexivity.
    - apply Forall_app. split; eapply Forall_impl; try exact F1; try exact F2;
        intros a HI; apply in_or_app; auto.
  Qed.
End Ops.

(** ** Invariants along additions *)

Lemma adds_closed l d : prefix_closed (sget (d_freq d)) -> prefix_closed (sget (d_freq (adds d l))).
Proof.
  revert d. induction l as [|a l IH]; intros d PC; simpl; auto. apply IH. apply add_closed; auto.
Qed.

Lemma adds_NoDup l d : NoDup (map fst (d_freq d)) -> NoDup (map fst (d_freq (adds d l))).
Proof.
  revert d. induction l as [|a l IH]; intros d PC; simpl; auto. apply IH.
  apply add_prefixes_NoDup, sset_NoDup; auto.
Qed.

Lemma set_add_In l w x : In x (set_add l w) <-> In x l \/ x = w.
Proof.
  unfold set_add. destruct (str_in w l) eqn:E.
  - apply str_in_In in E. split; auto. intros [HI| ->]; auto.
  - rewrite in_app_iff. simpl. intuition.
Qed.

Lemma adds_force l d x : In x (d_force d) -> In x (d_force (adds d l)).
Proof.
  revert d. induction l as [|a l IH]; intros d HI; simpl; auto. apply IH.
  unfold add1, add_word_freq; simpl. destruct (snd (fst a) =? 0)%Z; auto. apply set_add_In; auto.
Qed.

(** a word that is not written keeps its frequency, if it has one *)
Lemma adds_keep l d w n :
  Forall (fun a => fst (fst a) <> w) l -> sget (d_freq d) w = Some n -> sget (d_freq (adds d l)) w = Some n.
Proof.
  revert d. induction l as [|a l IH]; intros d F E; simpl; auto. inversion F; subst. apply IH; auto.
  unfold add1, add_word_freq; simpl. rewrite add_get. unfold after_add.
  destruct (str_eqb w (fst (fst a))) eqn:EW; [apply str_eqb_eq in EW; congruence|]. rewrite E. reflexivity.
Qed.

(** ** Dictionary files *)

Lemma gen_pfdict_loop_closed lines fr t fr' t' :
  gen_pfdict_loop lines fr t = Ok (fr', t') -> prefix_closed (sget fr) -> prefix_closed (sget fr').
Proof.
  revert fr t. induction lines as [|x lines IH]; intros fr t; simpl.
  - intros E; inversion E; subst; auto.
  - destruct (parse_dict_line x) as [[w f]|]; [|discriminate]. intros E PC.
    eapply IH; eauto. apply add_closed; auto.
Qed.

Lemma gen_pfdict_closed lines fr t : gen_pfdict lines = Ok (fr, t) -> prefix_closed (sget fr).
Proof. intros E. eapply gen_pfdict_loop_closed; eauto. intros u v NU. simpl. congruence. Qed.

Lemma gen_pfdict_loop_sum lines fr t fr' t' :
  gen_pfdict_loop lines fr t = Ok (fr', t') -> NoDup (map fst fr) -> NoDup (map fst fr').
Proof.
  revert fr t. induction lines as [|x lines IH]; intros fr t; simpl.
  - intros E; inversion E; subst; auto.
  - destruct (parse_dict_line x) as [[w f]|]; [|discriminate]. intros E ND.
    eapply IH; eauto. apply add_prefixes_NoDup, sset_NoDup; auto.
Qed.

(** ** What a file means *)

Definition parse_all (lines : list bytes) (es : list (str * Z)) : Prop :=
  map parse_dict_line lines = map Some es.

Lemma last_freq_snoc es w f k :
  last_freq (es ++ [(w, f)]) k = if str_eqb k w then Some f else last_freq es k.
Proof.
  induction es as [|[v g] es IH]; simpl.
  - destruct (str_eqb k w); auto.
  - rewrite IH. destruct (str_eqb k w); auto.
Qed.

Lemma file_dict_snoc es w f k : file_dict (es ++ [(w, f)]) k = after_add (file_dict es) w f k.
Proof.
  unfold file_dict, after_add. rewrite last_freq_snoc. destruct (str_eqb k w); auto.
  rewrite existsb_app. simpl. rewrite orb_false_r.
  destruct (last_freq es k); auto.
  destruct (existsb (fun e => is_prefix k (fst e)) es); auto.
Qed.

Lemma gen_pfdict_loop_ok lines es es0 fr t :
  parse_all lines es -> (forall k, sget fr k = file_dict es0 k) -> t = fold_right Z.add 0%Z (map snd es0) ->
  exists fr', gen_pfdict_loop lines fr t = Ok (fr', (fold_right Z.add 0 (map snd (es0 ++ es)))%Z)
    /\ forall k, sget fr' k = file_dict (es0 ++ es) k.
Proof.
  revert es es0 fr t. induction lines as [|x lines IH]; intros es es0 fr t PA SF ET.
  - destruct es; [|discriminate]. simpl. rewrite app_nil_r. exists fr. subst t. auto.
  - destruct es as [|[w f] es]; [discriminate|]. inversion PA as [[P1 P2]]. simpl. rewrite P1.
    destruct (IH es (es0 ++ [(w, f)]) (add_prefixes (sset fr w f) w) (t + f)%Z) as [fr' [E1 E2]]; auto.
    + intros k. rewrite add_get, file_dict_snoc. unfold after_add. rewrite SF. reflexivity.
    + rewrite map_app, fold_right_app. simpl. subst t.
      clear. induction (map snd es0) as [|a l IHl]; simpl; [lia|]. rewrite <- IHl. lia.
    + rewrite <- app_assoc in *. exists fr'. auto.
Qed.

Lemma gen_pfdict_ok lines es :
  parse_all lines es ->
  exists fr, gen_pfdict lines = Ok (fr, fold_right Z.add 0%Z (map snd es)) /\ forall k, sget fr k = file_dict es k.
Proof.
  intros PA. unfold gen_pfdict. destruct (@gen_pfdict_loop_ok lines es [] [] 0%Z) as [fr [E1 E2]]; auto.
  eauto.
Qed.

Lemma gen_pfdict_bad lines :
  (exists x, In x lines /\ parse_dict_line x = None) -> gen_pfdict lines = Err ValueError.
Proof.
  intros [x [HI HB]]. unfold gen_pfdict. generalize ([] : freqs) as fr. generalize 0%Z as t.
  induction lines as [|y lines IH]; intros t fr; [contradiction|]. simpl.
  destruct HI as [->|HI].
  - rewrite HB. reflexivity.
  - destruct (parse_dict_line y) as [[w f]|]; auto.
Qed.

Lemma gen_pfdict_inv lines fr t :
  gen_pfdict lines = Ok (fr, t) -> exists es, parse_all lines es.
Proof.
  intros E. assert (NB : forall x, In x lines -> parse_dict_line x <> None).
  { intros x HI HB. rewrite gen_pfdict_bad in E by eauto. discriminate. }
  clear E. induction lines as [|y lines IH]; [exists []; reflexivity|].
  destruct IH as [es E]; [intros x HI; apply NB; right; auto|].
  destruct (parse_dict_line y) as [e|] eqn:EY; [|exfalso; apply (NB y); [left|]; auto].
  exists (e :: es). unfold parse_all. simpl. rewrite EY, E. reflexivity.
Qed.
