(** * The order of additions *)
From Coq Require Import Permutation.
From Verif Require Import PyBase PyRegex PyNum ModelFinalseg ModelSeg ModelDict ModelApi
  SpecBase SpecSeg SpecDict SpecApi SpecExt SpecOrder ProofsBase ProofsDict ProofsLoad ProofsExt.
Set Implicit Arguments.

Lemma same_dict_refl d : same_dict d d.
Proof. repeat split; auto. Qed.
Lemma same_dict_trans d e f : same_dict d e -> same_dict e f -> same_dict d f.
Proof.
  intros [A [B [C D]]] [A' [B' [C' D']]]. split; [|split; [|split]]; intros; try congruence.
  rewrite D. auto.
Qed.
Lemma same_dict_sym d e : same_dict d e -> same_dict e d.
Proof.
  intros [A [B [C D]]]. split; [|split; [|split]]; intros; auto. symmetry. auto.
Qed.

Lemma same_dict_in d e s : same_dict d e -> same_in s (sget (d_freq d)) (sget (d_freq e)).
Proof. intros [A _] u _. unfold freq_of. rewrite A. auto. Qed.
Lemma same_dict_members d e s : same_dict d e -> same_members s (d_force d) (d_force e).
Proof. intros [_ [_ [_ D]]] u _. auto. Qed.

Lemma add1_freq d a k : sget (d_freq (add1 d a)) k = after_add (sget (d_freq d)) (fst (fst a)) (snd (fst a)) k.
Proof. unfold add1, add_word_freq. cbn [d_freq]. apply add_get. Qed.
Lemma add1_tags d a k :
  sget (d_tags (add1 d a)) k =
  match snd a with
  | Some (c :: t) => if str_eqb k (fst (fst a)) then Some (c :: t) else sget (d_tags d) k
  | _ => sget (d_tags d) k
  end.
Proof.
  unfold add1, add_word_freq. cbn [d_tags]. destruct (snd a) as [[|c t]|]; auto. apply sget_sset.
Qed.
Lemma add1_force d a x :
  In x (d_force (add1 d a)) <-> In x (d_force d) \/ (snd (fst a) = 0%Z /\ x = fst (fst a)).
Proof.
  unfold add1, add_word_freq. cbn [d_force]. destruct (snd (fst a) =? 0)%Z eqn:E.
  - apply Z.eqb_eq in E. rewrite set_add_In. tauto.
  - apply Z.eqb_neq in E. tauto.
Qed.

Lemma add1_same d e a : same_dict d e -> same_dict (add1 d a) (add1 e a).
Proof.
  intros [A [B [C D]]]. split; [|split; [|split]].
  - intros k. rewrite !add1_freq. unfold after_add. rewrite A. auto.
  - unfold add1, add_word_freq. cbn [d_total]. congruence.
  - intros k. rewrite !add1_tags, C. auto.
  - intros x. rewrite !add1_force, D. tauto.
Qed.
Lemma adds_same l d e : same_dict d e -> same_dict (adds d l) (adds e l).
Proof.
  revert d e. induction l as [|a l IH]; intros d e S; simpl; auto. apply IH, add1_same; auto.
Qed.

Lemma add1_swap d a b : fst (fst a) <> fst (fst b) -> same_dict (add1 (add1 d a) b) (add1 (add1 d b) a).
Proof.
  intros NE. destruct a as [[w f] t], b as [[v g] u]. cbn [fst snd] in NE. split; [|split; [|split]].
  - intros k. rewrite !add1_freq. unfold after_add. rewrite !add1_freq. unfold after_add. cbn [fst snd].
    destruct (str_eqb k v) eqn:EV, (str_eqb k w) eqn:EW; auto.
    + apply str_eqb_eq in EV, EW. congruence.
    + destruct (sget (d_freq d) k); auto. destruct (is_prefix k w), (is_prefix k v); auto.
  - unfold add1, add_word_freq. cbn [d_total fst snd]. lia.
  - intros k. rewrite !add1_tags. cbn [fst snd].
    destruct u as [[|c u]|], t as [[|c' t]|]; auto; destruct (str_eqb k v) eqn:EV, (str_eqb k w) eqn:EW; auto.
    apply str_eqb_eq in EV, EW. congruence.
  - intros x. rewrite !add1_force. cbn [fst snd]. tauto.
Qed.

Lemma adds_perm l l' :
  Permutation l l' -> forall d, NoDup (map (fun a : addition => fst (fst a)) l) -> same_dict (adds d l) (adds d l').
Proof.
  induction 1 as [|a l l' P IH|a b l|l l' l'' P1 IH1 P2 IH2]; intros d ND; simpl in *.
  - apply same_dict_refl.
  - inversion ND; subst. apply IH; auto.
  - apply adds_same. apply same_dict_sym. apply add1_swap. inversion ND; subst. simpl in *. tauto.
  - eapply same_dict_trans; [apply IH1; auto|]. apply IH2.
    eapply Permutation_NoDup; [|exact ND]. apply Permutation_map; auto.
Qed.

(** ** The same dictionary behaves in the same way *)
Section Behave.
  Variable num : Num.
  Variable H : hmm num.

  Lemma freq_get_same d e w z : same_dict d e -> freq_get (d_freq d) w z = freq_get (d_freq e) w z.
  Proof. intros [A _]. unfold freq_get. rewrite A. auto. Qed.

  Lemma freq_product_same d e ft segs acc :
    same_dict d e -> freq_product num (d_freq d) ft segs acc = freq_product num (d_freq e) ft segs acc.
  Proof.
    intros S. revert acc. induction segs as [|x segs IH]; intros acc; simpl; auto.
    rewrite (freq_get_same x 1 S). destruct (py_float num (freq_get (d_freq e) x 1)) as [f|]; cbn [rbind]; auto.
    destruct (py_div num f ft); cbn [rbind]; auto.
  Qed.

  Lemma cut_same_dict m d e s :
    prefix_closed (sget (d_freq d)) -> prefix_closed (sget (d_freq e)) -> same_dict d e ->
    cut num H m (d_freq d) (d_total d) (d_force d) s = cut num H m (d_freq e) (d_total e) (d_force e) s.
  Proof.
    intros P P' S. pose proof S as [_ [T _]]. rewrite T.
    apply cut_same; auto using same_dict_in, same_dict_members.
  Qed.

  Lemma suggest_value_same d e s :
    prefix_closed (sget (d_freq d)) -> prefix_closed (sget (d_freq e)) -> same_dict d e ->
    suggest_freq_value num H (d_freq d) (d_total d) (d_force d) s =
    suggest_freq_value num H (d_freq e) (d_total e) (d_force e) s.
  Proof.
    intros P P' S. unfold suggest_freq_value. pose proof S as [_ [T _]]. rewrite <- T.
    destruct (py_float num (d_total d)) as [ft|]; cbn [rbind]; auto. destruct s as [w|ws].
    - rewrite (@cut_same_dict NoHMM d e w P P' S). rewrite <- T.
      destruct (g_list (cut num H NoHMM (d_freq e) (d_total d) (d_force e) w)) as [segs|]; cbn [rbind]; auto.
      rewrite (freq_product_same ft segs None S), (freq_get_same w 1 S). auto.
    - rewrite (freq_product_same ft ws None S), (freq_get_same (join ws) 0 S). auto.
  Qed.

  Definition same_res (r r' : res dstate) : Prop :=
    match r, r' with Ok d, Ok e => same_dict d e | Err x, Err y => x = y | _, _ => False end.

  Lemma add_word_same d e w f t :
    prefix_closed (sget (d_freq d)) -> prefix_closed (sget (d_freq e)) -> same_dict d e ->
    same_res (add_word num H d w f t) (add_word num H e w f t).
  Proof.
    intros P P' S. unfold add_word. destruct f as [n|]; cbn [rbind].
    - exact (@add1_same d e (w, n, t) S).
    - rewrite (suggest_value_same (Whole w) P P' S).
      destruct (suggest_freq_value num H (d_freq e) (d_total e) (d_force e) (Whole w)) as [n|x]; cbn [rbind same_res]; auto.
      exact (@add1_same d e (w, n, t) S).
  Qed.
  Lemma add_word_closed d w f t d' :
    prefix_closed (sget (d_freq d)) -> add_word num H d w f t = Ok d' -> prefix_closed (sget (d_freq d')).
  Proof.
    intros P E. apply add_word_adds in E. destruct E as [n [-> _]]. apply (@adds_closed [(w, n, t)] d P).
  Qed.

  Lemma load_line_same d e l :
    prefix_closed (sget (d_freq d)) -> prefix_closed (sget (d_freq e)) -> same_dict d e ->
    same_res (load_userdict_line num H d l) (load_userdict_line num H e l).
  Proof.
    intros P P' S. unfold load_userdict_line. destruct (uline_text l) as [[|c x]|]; try reflexivity; auto.
    destruct (parse_userdict_line (c :: x)) as [[[w [f|]] t]|]; try reflexivity.
    - destruct (parse_int f); [|reflexivity]. apply add_word_same; auto.
    - apply add_word_same; auto.
  Qed.
  Lemma load_line_closed d l d' :
    prefix_closed (sget (d_freq d)) -> load_userdict_line num H d l = Ok d' -> prefix_closed (sget (d_freq d')).
  Proof.
    intros P. unfold load_userdict_line. destruct (uline_text l) as [[|c x]|]; try discriminate.
    - intros E; inversion E; subst; auto.
    - destruct (parse_userdict_line (c :: x)) as [[[w [f|]] t]|]; try discriminate.
      + destruct (parse_int f); [|discriminate]. apply add_word_closed; auto.
      + apply add_word_closed; auto.
  Qed.

  Lemma load_userdict_same lines d e :
    prefix_closed (sget (d_freq d)) -> prefix_closed (sget (d_freq e)) -> same_dict d e ->
    same_dict (fst (load_userdict num H d lines)) (fst (load_userdict num H e lines)) /\
    snd (load_userdict num H d lines) = snd (load_userdict num H e lines).
  Proof.
    revert d e. induction lines as [|l lines IH]; intros d e P P' S; simpl; auto.
    pose proof (load_line_same l P P' S) as L.
    destruct (load_userdict_line num H d l) as [d'|x] eqn:E1, (load_userdict_line num H e l) as [e'|y] eqn:E2;
      simpl in L; try contradiction.
    - apply IH; [exact (@load_line_closed d l d' P E1)|exact (@load_line_closed e l e' P' E2)|exact L].
    - subst. auto.
  Qed.

  Lemma do_op_same d e o :
    prefix_closed (sget (d_freq d)) -> prefix_closed (sget (d_freq e)) -> same_dict d e ->
    same_dict (fst (do_op num H d o)) (fst (do_op num H e o)) /\ snd (do_op num H d o) = snd (do_op num H e o).
  Proof.
    intros P P' S. pose proof S as [_ [T _]]. destruct o; cbn [do_op].
    - pose proof (@add_word_same d e w freq tag P P' S) as L.
      destruct (add_word num H d w freq tag), (add_word num H e w freq tag); simpl in *; try contradiction; subst; auto.
    - pose proof (@add_word_same d e w (Some 0%Z) None P P' S) as L. unfold del_word.
      destruct (add_word num H d w (Some 0%Z) None), (add_word num H e w (Some 0%Z) None); cbn in *; try contradiction; subst; auto.
    - unfold suggest_freq. rewrite (suggest_value_same s P P' S).
      destruct (suggest_freq_value num H (d_freq e) (d_total e) (d_force e) s) as [n|x]; cbn [rbind]; auto.
      destruct tune; cbn [rbind]; auto. unfold add_word. cbn [rbind fst snd]. split; auto.
      exact (@add1_same d e (segment_word s, n, None) S).
    - destruct (@load_userdict_same lines d e P P' S) as [L1 L2].
      destruct (load_userdict num H d lines) as [d' [x|]], (load_userdict num H e lines) as [e' [y|]]; simpl in *; try discriminate; split; auto; congruence.
    - cbn [fst snd]. split; auto. f_equal. apply cut_same_dict; auto.
    - cbn [fst snd]. split; auto. f_equal. rewrite T. apply cut_for_search_same; auto using same_dict_in, same_dict_members.
    - cbn [fst snd]. split; auto. f_equal. rewrite T. apply tokenize_same; auto using same_dict_in, same_dict_members.
    - cbn [fst snd]. split; auto. f_equal. apply get_DAG_same; auto using same_dict_in.
  Qed.

  Lemma do_op_closed d o : prefix_closed (sget (d_freq d)) -> prefix_closed (sget (d_freq (fst (do_op num H d o)))).
  Proof. intros P. destruct (@do_op_adds num H d o) as [l [-> _]]. apply adds_closed; auto. Qed.

  Lemma do_ops_same os d e :
    prefix_closed (sget (d_freq d)) -> prefix_closed (sget (d_freq e)) -> same_dict d e ->
    same_dict (do_ops num H d os) (do_ops num H e os) /\
    prefix_closed (sget (d_freq (do_ops num H d os))) /\ prefix_closed (sget (d_freq (do_ops num H e os))).
  Proof.
    revert d e. induction os as [|o os IH]; intros d e P P' S; unfold do_ops in *; simpl; auto.
    apply IH; auto using do_op_closed. apply do_op_same; auto.
  Qed.

  (** loading lines with frequencies *)
  Lemma add_each_adds d es :
    add_each num H d (map (fun a : addition => Some (fst (fst a), Some (snd (fst a)), snd a)) es) = (adds d es, None).
  Proof.
    revert d. induction es as [|[[w f] t] es IH]; intros d; simpl; auto.
  Qed.
End Behave.
