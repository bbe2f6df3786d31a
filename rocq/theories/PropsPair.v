(** * C86, C87: the objects that tagging yields; attributes of a POSTokenizer *)
From Coq Require Import Permutation Sorted String.
From Verif Require Import PyBase PyUtf8 ModelPair SpecBase ProofsBase ProofsUtf8 ProofsPvit.

(** ** C86 *)

(** [==] holds between two pairs with the same word and flag, and nothing else equals a
    pair; equal pairs have equal hashes, whatever [hash] is. *)
Theorem C86_equality_and_hash :
  forall (p : ppair) (v : value),
    (p_eq p v = true <-> v = VPair p) /\
    forall (hash : str -> Z) (q : ppair), v = VPair q -> p_eq p v = true -> p_hash hash p = p_hash hash q.
Proof.
  intros [w f] v. split.
  - destruct v as [[w' f']| | |]; cbn [p_eq p_word p_flag]; split; try discriminate.
    + intros E. apply andb_true_iff in E. destruct E as [A B]. apply str_eqb_eq in A, B. subst. reflexivity.
    + intros E; inversion E. now rewrite !str_eqb_refl.
  - intros hash [w' f'] -> E. cbn [p_eq p_word p_flag] in E. apply andb_true_iff in E. destruct E as [A _].
    apply str_eqb_eq in A. unfold p_hash. cbn [p_word]. now rewrite A.
Qed.

(** [<] is a strict weak order of pairs: no pair is before itself, and "not before"
    can be chained. *)
Theorem C86_order :
  forall p q r : ppair,
    p_lt p (VPair p) = Ok false /\
    (p_lt p (VPair q) = Ok true -> p_lt q (VPair r) = Ok true -> p_lt p (VPair r) = Ok true) /\
    (p_lt p (VPair q) = Ok false -> p_lt q (VPair r) = Ok false -> p_lt p (VPair r) = Ok false).
Proof.
  intros [p ?] [q ?] [r ?]. cbn [p_lt p_word]. split; [now rewrite str_ltb_irrefl|]. split.
  - intros A B. injection A as A'. injection B as B'. f_equal. eapply str_ltb_trans; eauto.
  - intros A B. injection A as A'. injection B as B'. f_equal.
    destruct (str_ltb p r) eqn:E; auto. exfalso.
    destruct (str_ltb_total p q) as [L|[L|L]]; [congruence| |].
    + destruct (str_ltb_total q r) as [M|[M|M]]; [congruence| |].
      * pose proof (str_ltb_trans _ _ _ E (str_ltb_trans _ _ _ M L)) as X. rewrite str_ltb_irrefl in X. discriminate.
      * subst. congruence.
    + subst. congruence.
Qed.

Definition of_word (w : str) (l : list ppair) : list ppair := filter (fun p => str_eqb w (p_word p)) l.
Definition not_after (p q : ppair) : Prop := str_ltb (p_word q) (p_word p) = false.

Lemma insert_perm p l : Permutation (p :: l) (insert_asc p_ltb p l).
Proof.
  induction l as [|q l IH]; simpl; auto. destruct (p_ltb q p); auto.
  rewrite perm_swap. apply perm_skip. auto.
Qed.
Lemma not_after_trans p q r : not_after p q -> not_after q r -> not_after p r.
Proof.
  unfold not_after. intros A B. destruct (C86_order r q p) as [_ [_ T]]. cbn [p_lt] in T.
  rewrite A, B in T. specialize (T eq_refl eq_refl). now inversion T.
Qed.
Lemma insert_sorted p l : StronglySorted not_after l -> StronglySorted not_after (insert_asc p_ltb p l).
Proof.
  induction 1 as [|q l S IH F]; simpl; [repeat constructor|]. destruct (p_ltb q p) eqn:E.
  - constructor; auto. rewrite Forall_forall in *. intros x I.
    apply (Permutation_in _ (Permutation_sym (insert_perm p l))) in I. destruct I as [<-|I]; auto.
    unfold not_after, p_ltb in *. destruct (str_ltb (p_word p) (p_word q)) eqn:E2; auto.
    pose proof (str_ltb_trans _ _ _ E E2) as X. rewrite str_ltb_irrefl in X. discriminate.
  - constructor; [constructor; auto|]. constructor; [exact E|]. rewrite Forall_forall in *. intros x I.
    eapply not_after_trans; [exact E|]. auto.
Qed.
Lemma insert_of_word w p l : of_word w (insert_asc p_ltb p l) = of_word w (p :: l).
Proof.
  induction l as [|q l IH]; [reflexivity|]. cbn [insert_asc]. destruct (p_ltb q p) eqn:E; [|reflexivity].
  unfold of_word in *. cbn [filter] in *. rewrite IH.
  destruct (str_eqb w (p_word q)) eqn:E1, (str_eqb w (p_word p)) eqn:E2; auto.
  apply str_eqb_eq in E1, E2. unfold p_ltb in E. rewrite <- E1, <- E2, str_ltb_irrefl in E. discriminate.
Qed.

(** Sorting a list of pairs gives the same pairs, in the order of the words; pairs with
    the same word stay in the order they had.  There is only one such list. *)
Theorem C86_sorting :
  forall l : list ppair,
    let ok l' := Permutation l l' /\ StronglySorted not_after l' /\ forall w, of_word w l' = of_word w l in
    ok (sort_pairs l) /\ forall l', ok l' -> l' = sort_pairs l.
Proof.
  intros l ok.
  assert (P : ok (sort_pairs l)).
  { unfold ok, sort_pairs, sorted_asc. induction l as [|p l [IH1 [IH2 IH3]]]; simpl.
    - repeat split; auto. constructor.
    - split; [|split].
      + eapply perm_trans; [apply perm_skip; exact IH1|apply insert_perm].
      + apply insert_sorted; auto.
      + intros w. rewrite insert_of_word. unfold of_word in *. cbn [filter]. rewrite IH3. reflexivity. }
  split; auto. intros l' Q.
  assert (U : forall a b, StronglySorted not_after a -> StronglySorted not_after b ->
              (forall w, of_word w a = of_word w b) -> a = b).
  { induction a as [|x a IH]; intros b SA SB E.
    - destruct b as [|y b]; auto. specialize (E (p_word y)). unfold of_word in E. cbn [filter] in E.
      rewrite str_eqb_refl in E. discriminate.
    - destruct b as [|y b].
      { specialize (E (p_word x)). unfold of_word in E. cbn [filter] in E. rewrite str_eqb_refl in E. discriminate. }
      inversion SA as [|? ? SA' FA]; inversion SB as [|? ? SB' FB]; subst. rewrite Forall_forall in FA, FB.
      assert (W : p_word x = p_word y).
      { destruct (str_ltb_total (p_word x) (p_word y)) as [L|[L|L]]; auto; exfalso.
        - (* x is in y :: b *)
          pose proof (E (p_word x)) as EX. unfold of_word in EX. cbn [filter] in EX. rewrite str_eqb_refl in EX.
          assert (I : In x (filter (fun p => str_eqb (p_word x) (p_word p)) (y :: b))).
          { cbn [filter]. rewrite <- EX. left; auto. }
          apply filter_In in I. destruct I as [[<-|I] _]; [rewrite str_ltb_irrefl in L; discriminate|].
          apply FB in I. unfold not_after in I. congruence.
        - pose proof (E (p_word y)) as EY. unfold of_word in EY. cbn [filter] in EY. rewrite str_eqb_refl in EY.
          assert (I : In y (filter (fun p => str_eqb (p_word y) (p_word p)) (x :: a))).
          { cbn [filter]. rewrite EY. left; auto. }
          apply filter_In in I. destruct I as [[<-|I] _]; [rewrite str_ltb_irrefl in L; discriminate|].
          apply FA in I. unfold not_after in I. congruence. }
      pose proof (E (p_word x)) as EX. unfold of_word in EX. cbn [filter] in EX.
      assert (Q' : str_eqb (p_word x) (p_word y) = true) by (rewrite W; apply str_eqb_refl).
      rewrite str_eqb_refl, Q' in EX. inversion EX; subst y.
      f_equal. apply IH; auto. intros w. specialize (E w). unfold of_word in *. cbn [filter] in E.
      destruct (str_eqb w (p_word x)); [now inversion E|auto]. }
  apply U; [apply Q|apply P|]. intros w. destruct Q as [_ [_ Q]], P as [_ [_ P]]. rewrite Q, P. auto.
Qed.

(** The text of a pair determines it, if the flag has no slash. *)
Theorem C86_text :
  forall p q : ppair,
    ~ In 47%N (p_flag p) -> ~ In 47%N (p_flag q) -> p_text p = p_text q -> p = q.
Proof.
  intros [w f] [w' f']. cbn [p_flag]. unfold p_text. cbn [p_word p_flag]. intros NF NF' E.
  revert w' E. induction w as [|c w IH]; intros [|c' w'] E; simpl in E; inversion E; subst.
  - reflexivity.
  - exfalso. apply NF. apply in_or_app. right. left. auto.
  - exfalso. apply NF'. apply in_or_app. right. left. auto.
  - specialize (IH w' H1). inversion IH; subst. reflexivity.
Qed.

(** Unpacking gives the word and the flag; these, with a slash between them, are the
    text; the bytes of [encode] decode to the text, and there are none only when the
    word or the flag has none. *)
Theorem C86_unpacking :
  forall w f : str,
    let p := mkPair w f in
    p_iter p = [w; f] /\ p_text p = join_with [47%N] [w; f] /\
    (forall b, p_encode p = Some b -> utf8_decode b = Some (w ++ 47%N :: f)) /\
    (p_encode p = None <-> utf8_encode w = None \/ utf8_encode f = None).
Proof.
  intros w f p. split; [reflexivity|]. split; [reflexivity|]. split.
  - intros b. apply decode_encode.
  - unfold p_encode, p_text, p. cbn [p_word p_flag]. rewrite !encode_app.
    change (utf8_encode [47%N]) with (Some [47%N]).
    destruct (utf8_encode w) as [a|], (utf8_encode f) as [b|]; split; intros E; auto; try discriminate;
      destruct E; discriminate.
Qed.

(** Two pairs can be neither equal nor one before the other. *)
Theorem C86_trichotomy_refuted :
  exists p q : ppair,
    p_eq p (VPair q) = false /\ p_lt p (VPair q) = Ok false /\ p_lt q (VPair p) = Ok false /\
    sort_pairs [p; q] = [p; q] /\ sort_pairs [q; p] = [q; p].
Proof. exists (mkPair [97%N] [110%N]), (mkPair [97%N] [118%N]). repeat split. Qed.

(** With slashes two different pairs have the same text. *)
Theorem C86_text_refuted :
  exists p q : ppair, p_text p = p_text q /\ p_eq p (VPair q) = false.
Proof. exists (mkPair [97; 47; 98]%N [99]%N), (mkPair [97]%N [98; 47; 99]%N). split; reflexivity. Qed.

Example C86_nonvacuous :
  sort_pairs [mkPair [98%N] [110%N]; mkPair [97%N] [118%N]; mkPair [98%N] [97%N]; mkPair [97%N] [97%N]]
  = [mkPair [97%N] [118%N]; mkPair [97%N] [97%N]; mkPair [98%N] [110%N]; mkPair [98%N] [97%N]] /\
  p_text (mkPair [97; 47]%N [110]%N) = [97; 47; 47; 110]%N.
Proof. split; reflexivity. Qed.

(** ** C87 *)

(** With its tokenizer in place: a name of the POSTokenizer's own is its own; the three
    refused names raise NotImplementedError; any other name is the Tokenizer's, or an
    AttributeError. *)
Theorem C87_attributes :
  forall (own toks : list str) (name : str) (fuel : nat),
    let found := p_getattr fuel own toks name in
    In s_tokenizer own -> 2 <= fuel ->
    (In name own -> found = Ok (OwnAttr name)) /\
    (~ In name own -> In name refused -> found = Err NotImplementedError) /\
    (~ In name own -> ~ In name refused -> In name toks -> found = Ok (TokAttr name)) /\
    (~ In name own -> ~ In name refused -> ~ In name toks -> found = Err AttributeError).
Proof.
  intros own toks name [|[|fuel]] found I L; [lia|lia|]. unfold found. cbn [p_getattr].
  assert (N : forall w l, ~ In w l -> str_in w l = false).
  { intros w l NI. apply not_true_iff_false. now rewrite str_in_In. }
  rewrite (proj2 (str_in_In s_tokenizer own) I). cbn [rbind].
  repeat split; intros.
  - now rewrite (proj2 (str_in_In name own)).
  - rewrite (N name own), (proj2 (str_in_In name _) H0); auto.
  - rewrite (N name own), (N name _ H0), (proj2 (str_in_In name toks)); auto.
  - rewrite (N name own), (N name _ H0), (N name toks); auto.
Qed.

(** Of the names of a Tokenizer: the POSTokenizer has its own [__init__], [__repr__],
    [initialize], [cut] and [lcut]; it refuses searching and [tokenize]; adding,
    deleting and looking up words goes to the Tokenizer itself. *)
Theorem C87_names_of_the_tokenizer :
  forall name, In name tokenizer_names ->
    p_getattr 2 pos_names tokenizer_names name =
    if str_in name (map of_string ["__init__"; "__repr__"; "initialize"; "cut"; "lcut"]%string)
    then Ok (OwnAttr name)
    else if str_in name (map of_string ["cut_for_search"; "lcut_for_search"; "tokenize"]%string)
    then Err NotImplementedError
    else Ok (TokAttr name).
Proof.
  assert (F : Forall (fun name => p_getattr 2 pos_names tokenizer_names name =
    if str_in name (map of_string ["__init__"; "__repr__"; "initialize"; "cut"; "lcut"]%string)
    then Ok (OwnAttr name)
    else if str_in name (map of_string ["cut_for_search"; "lcut_for_search"; "tokenize"]%string)
    then Err NotImplementedError
    else Ok (TokAttr name)) tokenizer_names) by (repeat constructor).
  intros name I. rewrite Forall_forall in F. apply F; auto.
Qed.

(** Without it (an object made by [copy] or [pickle], whose [__init__] has not run) a
    name that is not its own is never found: the lookup calls itself for ever. *)
Theorem C87_without_a_tokenizer :
  forall (own toks : list str) (name : str) (fuel : nat),
    ~ In s_tokenizer own -> str_in name own = false ->
    p_getattr fuel own toks name = Err OutOfFuel
    \/ (In name refused /\ p_getattr fuel own toks name = Err NotImplementedError).
Proof.
  intros own toks name fuel NI.
  assert (E : str_in s_tokenizer own = false).
  { apply not_true_iff_false. now rewrite str_in_In. }
  assert (R : forall n, p_getattr n own toks s_tokenizer = Err OutOfFuel).
  { induction n as [|n IH]; [reflexivity|]. cbn [p_getattr]. rewrite E.
    change (str_in s_tokenizer refused) with false. cbv iota. rewrite IH. reflexivity. }
  destruct fuel as [|fuel]; [auto|]. intros N. cbn [p_getattr]. rewrite N.
  destruct (str_in name refused) eqn:T.
  - right. split; auto. now apply str_in_In.
  - left. rewrite R. reflexivity.
Qed.

(** [FREQ] is the Tokenizer's; without a tokenizer it is looked for in vain *)
Example C87_nonvacuous :
  In s_tokenizer pos_names /\
  p_getattr 2 pos_names tokenizer_names (of_string "FREQ") = Ok (TokAttr (of_string "FREQ")) /\
  p_getattr 2 pos_names tokenizer_names (of_string "lcut_all") = Err AttributeError /\
  let class_only := filter (fun n => negb (str_eqb n s_tokenizer)) pos_names in
  ~ In s_tokenizer class_only /\ p_getattr 100 class_only tokenizer_names (of_string "FREQ") = Err OutOfFuel.
Proof.
  repeat split; try reflexivity.
  - apply str_in_In. reflexivity.
  - intros I. apply str_in_In in I. discriminate I.
Qed.

Print Assumptions C86_equality_and_hash.
Print Assumptions C86_order.
Print Assumptions C86_unpacking.
Print Assumptions C86_sorting.
Print Assumptions C86_text.
Print Assumptions C86_trichotomy_refuted.
Print Assumptions C86_text_refuted.
Print Assumptions C87_attributes.
Print Assumptions C87_names_of_the_tokenizer.
Print Assumptions C87_without_a_tokenizer.
