(** * Full mode *)
From Coq Require Import Sorted.
From Verif Require Import PyBase PyRegex PyNum ModelFinalseg ModelSeg SpecBase SpecSeg SpecFull
  ProofsBase ProofsRegex ProofsSplit ProofsDag ProofsFinalseg ProofsSeg ProofsOpt.
Set Implicit Arguments.

(** ** The loop with spans instead of strings *)

Definition span := (nat * nat)%type.
Definition text_of (s : str) (sp : list span) : str :=
  concat (map (fun ab => sub s (fst ab) (snd ab - fst ab)) sp).

Fixpoint words_spans (k : nat) (L : list nat) (old_j : Z) : list (list span) * Z :=
  match L with
  | [] => ([], old_j)
  | j :: L' =>
      if (k <? j)%nat then
        let '(ws, o) := words_spans k L' (Z.of_nat j) in ([(k, j + 1)] :: ws, o)
      else words_spans k L' old_j
  end.

Fixpoint loop_spans (s : str) (k : nat) (dag : list (list nat)) (old_j : Z)
         (eng : bool) (buf : list span) : list (list span) :=
  match dag with
  | [] => if eng then [buf] else []
  | L :: dag' =>
      let flush := eng && negb (eng_match (slice s k (k + 1))) in
      let eng := if flush then false else eng in
      let out0 := if flush then [buf] else [] in
      match L, (old_j <? Z.of_nat k)%Z with
      | [l0], true =>
          let word := slice s k (l0 + 1) in
          let '(eng, buf) :=
            if eng_match word then
              if eng then (true, buf ++ [(k, l0 + 1)]) else (true, [(k, l0 + 1)])
            else (eng, buf) in
          let out1 := if eng then [] else [[(k, l0 + 1)]] in
          out0 ++ out1 ++ loop_spans s (S k) dag' (Z.of_nat l0) eng buf
      | _, _ =>
          let '(ws, o) := words_spans k L old_j in
          out0 ++ ws ++ loop_spans s (S k) dag' o eng buf
      end
  end.

Lemma sub_slice s a b : sub s a (b - a) = slice s a b.
Proof. reflexivity. Qed.

Lemma text_of_app s x y : text_of s (x ++ y) = text_of s x ++ text_of s y.
Proof. unfold text_of. rewrite map_app, concat_app. reflexivity. Qed.

Lemma text_of_one s a b : text_of s [(a, b)] = slice s a b.
Proof. unfold text_of. simpl. apply app_nil_r. Qed.

Lemma words_spans_ok s k L o :
  fst (cut_all_words s k L o) = map (text_of s) (fst (words_spans k L o))
  /\ snd (cut_all_words s k L o) = snd (words_spans k L o).
Proof.
  revert o. induction L as [|j L IH]; intros o; simpl; auto.
  destruct (k <? j); auto.
  destruct (IH (Z.of_nat j)) as [I1 I2].
  destruct (cut_all_words s k L (Z.of_nat j)) as [ws o1], (words_spans k L (Z.of_nat j)) as [ws' o2].
  simpl in *. rewrite I1, text_of_one. auto.
Qed.

Lemma loop_spans_ok s k dag old_j eng buf :
  cut_all_loop s k dag old_j eng (text_of s buf) = map (text_of s) (loop_spans s k dag old_j eng buf).
Proof.
  revert k old_j eng buf. induction dag as [|L dag IH]; intros k old_j eng buf.
  - simpl. destruct eng; reflexivity.
  - cbn [cut_all_loop loop_spans].
    set (fl := eng && negb (eng_match (slice s k (k + 1)))).
    assert (ELSE :
      (let '(ws, o) := cut_all_words s k L old_j in
       (if fl then [text_of s buf] else []) ++ ws
         ++ cut_all_loop s (S k) dag o (if fl then false else eng) (text_of s buf)) =
      map (text_of s) (let '(ws, o) := words_spans k L old_j in
       (if fl then [buf] else []) ++ ws ++ loop_spans s (S k) dag o (if fl then false else eng) buf)).
    { destruct (words_spans_ok s k L old_j) as [W1 W2].
      destruct (cut_all_words s k L old_j) as [ws o], (words_spans k L old_j) as [ws' o'].
      simpl in W1, W2. subst ws o. rewrite !map_app, IH. destruct fl; reflexivity. }
    destruct L as [|l0 [|l1 L]]; [exact ELSE| |exact ELSE].
    destruct (old_j <? Z.of_nat k)%Z; [|exact ELSE].
    destruct (eng_match (slice s k (l0 + 1))).
    + destruct (if fl then false else eng).
      * rewrite !map_app, <- IH, text_of_app, text_of_one. destruct fl; reflexivity.
      * rewrite !map_app, <- IH, text_of_one. destruct fl; reflexivity.
    + rewrite !map_app, <- IH.
      destruct (if fl then false else eng); destruct fl; simpl; rewrite ?text_of_one; reflexivity.
Qed.

(** ** Invariants *)

Section Inv.
  Variable fr : freqs.
  Variable s : str.

  (** spans offered by the word graph *)
  Definition span_ok (ab : span) : Prop :=
    fst ab < length s /\ exists j, In j (dag_at fr s (fst ab)) /\ snd ab = j + 1.

  Definition span_alnum (ab : span) : Prop := eng_match (slice s (fst ab) (snd ab)) = true.

  (** a piece: one span, or several that start with a letter or digit *)
  Definition spans_ok (sp : list span) : Prop :=
    sp <> [] /\ Forall span_ok sp /\ (length sp = 1 \/ Forall span_alnum sp).

  Lemma span_ok_range ab : span_ok ab -> fst ab < snd ab <= length s.
  Proof.
    intros [L [j [HI ->]]]. apply dag_at_range in HI; auto. lia.
  Qed.

  Lemma words_spans_In k L o sp :
    In sp (fst (words_spans k L o)) -> exists j, In j L /\ k < j /\ sp = [(k, j + 1)].
  Proof.
    revert o. induction L as [|j L IH]; intros o; simpl; [contradiction|].
    destruct (k <? j) eqn:E.
    - apply Nat.ltb_lt in E. specialize (IH (Z.of_nat j)).
      destruct (words_spans k L (Z.of_nat j)) as [ws o']. simpl in *.
      intros [<-|HI]; [eauto 6|]. destruct (IH HI) as [j' [A [B C]]]. eauto 6.
    - intros HI. apply IH in HI. destruct HI as [j' [A [B C]]]. eauto 6.
  Qed.

  Lemma words_spans_complete k L o j :
    In j L -> k < j -> In [(k, j + 1)] (fst (words_spans k L o)).
  Proof.
    revert o. induction L as [|j' L IH]; intros o HI LT; simpl; [contradiction|].
    destruct HI as [->|HI].
    - apply Nat.ltb_lt in LT. rewrite LT. destruct (words_spans k L (Z.of_nat j)). left. auto.
    - destruct (k <? j'); auto.
      specialize (IH (Z.of_nat j') HI LT). destruct (words_spans k L (Z.of_nat j')). right. auto.
  Qed.

  (** what [old_j] becomes: an end yielded here, or unchanged *)
  Lemma words_spans_old k L o :
    snd (words_spans k L o) = o \/
    exists j, In j L /\ k < j /\ snd (words_spans k L o) = Z.of_nat j.
  Proof.
    revert o. induction L as [|j L IH]; intros o; simpl; auto.
    destruct (k <? j) eqn:E.
    - apply Nat.ltb_lt in E. specialize (IH (Z.of_nat j)).
      destruct (words_spans k L (Z.of_nat j)) as [ws o']. simpl in *.
      destruct IH as [->|[j' [A [B C]]]]; right; eauto 6.
    - destruct (IH o) as [IH'|[j' [A [B C]]]]; auto. right. eauto 6.
  Qed.

  Lemma skipn_map_seq k n : k <= n ->
    skipn k (map (dag_at fr s) (seq 0 n)) = map (dag_at fr s) (seq k (n - k)).
  Proof.
    intros L. replace n with (k + (n - k)) at 1 by lia.
    rewrite seq_app, map_app, skipn_app. rewrite skipn_all2; [|rewrite map_length, seq_length; lia].
    rewrite map_length, seq_length, Nat.sub_diag. reflexivity.
  Qed.

  Definition dag_from (k : nat) : list (list nat) := map (dag_at fr s) (seq k (length s - k)).

  Lemma dag_from_cons k : k < length s -> dag_from k = dag_at fr s k :: dag_from (S k).
  Proof.
    intros L. unfold dag_from. replace (length s - k) with (S (length s - S k)) by lia. reflexivity.
  Qed.
  Lemma dag_from_end k : length s <= k -> dag_from k = [].
  Proof. intros L. unfold dag_from. replace (length s - k) with 0 by lia. reflexivity. Qed.

  Definition buf_ok (eng : bool) (buf : list span) : Prop :=
    eng = true -> buf <> [] /\ Forall span_ok buf /\ Forall span_alnum buf.

  Lemma buf_spans_ok eng buf : buf_ok eng buf -> eng = true -> spans_ok buf.
  Proof. intros B E. destruct (B E) as [B1 [B2 B3]]. split; auto. Qed.

  (** every span list of the result is well formed *)
  Lemma loop_spans_sound k old_j eng buf :
    buf_ok eng buf -> k <= length s ->
    Forall spans_ok (loop_spans s k (dag_from k) old_j eng buf).
  Proof.
    remember (length s - k) as n eqn:EN. revert k EN old_j eng buf.
    induction n as [|n IH]; intros k EN old_j eng buf B LK.
    - rewrite dag_from_end by lia. simpl. destruct eng; auto. constructor; auto. eapply buf_spans_ok; eauto.
    - rewrite dag_from_cons by lia. cbn [loop_spans].
      set (fl := eng && negb (eng_match (slice s k (k + 1)))).
      assert (F0 : Forall spans_ok (if fl then [buf] else [])).
      { destruct fl eqn:EF; auto. constructor; auto. apply andb_true_iff in EF. destruct EF as [-> _].
        eapply buf_spans_ok; eauto. }
      assert (B' : buf_ok (if fl then false else eng) buf).
      { destruct fl; auto. intros; discriminate. }
      assert (ELSE : Forall spans_ok
        (let '(ws, o) := words_spans k (dag_at fr s k) old_j in
         (if fl then [buf] else []) ++ ws ++ loop_spans s (S k) (dag_from (S k)) o (if fl then false else eng) buf)).
      { pose proof (words_spans_In k (dag_at fr s k) old_j) as WI.
        destruct (words_spans k (dag_at fr s k) old_j) as [ws o]. simpl in WI.
        rewrite !Forall_app. split; auto. split.
        - apply Forall_forall. intros sp HI. destruct (WI _ HI) as [j [HJ [LJ ->]]].
          split; [discriminate|]. split; auto. constructor; auto. split; simpl; [lia|eauto].
        - apply IH; auto; lia. }
      destruct (dag_at fr s k) as [|l0 [|l1 L]] eqn:ED; [exact ELSE| |exact ELSE].
      destruct (old_j <? Z.of_nat k)%Z; [|exact ELSE].
      assert (SO : span_ok (k, l0 + 1)).
      { split; simpl; [lia|]. exists l0. rewrite ED. split; auto. left; auto. }
      destruct (eng_match (slice s k (l0 + 1))) eqn:EM.
      + destruct (if fl then false else eng) eqn:EE.
        * rewrite !Forall_app. split; auto. split; auto. apply IH; try lia.
          intros _. destruct (B' eq_refl) as [B1 [B2 B3]]. split; [|split].
          -- intros E0. apply app_eq_nil in E0. destruct E0; discriminate.
          -- apply Forall_app; auto.
          -- apply Forall_app; auto.
        * rewrite !Forall_app. split; auto. split; auto. apply IH; try lia.
          intros _. split; [discriminate|]. split; auto.
      + rewrite !Forall_app. split; auto. split.
        * destruct (if fl then false else eng); auto. constructor; auto.
          split; [discriminate|]. split; auto.
        * apply IH; auto; lia.
  Qed.

  (** the flag is off when the current character is no letter or digit *)
  Lemma flush_off eng k :
    eng_match (slice s k (k + 1)) = false ->
    (if eng && negb (eng_match (slice s k (k + 1))) then false else eng) = false.
  Proof. intros ->. destruct eng; reflexivity. Qed.

  Lemma eng_match_slice k l : k <= l -> k < length s ->
    eng_match (slice s k (l + 1)) = eng_match (slice s k (k + 1)).
  Proof.
    intros L1 L2. rewrite !eng_match_eq. unfold slice.
    destruct (skipn k s) as [|c t] eqn:E.
    - apply (f_equal (@length _)) in E. rewrite skipn_length in E. simpl in E. lia.
    - replace (l + 1 - k) with (S (l - k)) by lia. replace (k + 1 - k) with 1 by lia. reflexivity.
  Qed.

  (** completeness: a word of at least two characters, not starting with a letter or digit *)
  Lemma loop_spans_complete k old_j eng buf k0 j :
    k <= k0 -> k0 < length s -> In j (dag_at fr s k0) -> k0 < j ->
    eng_match (slice s k0 (k0 + 1)) = false ->
    In [(k0, j + 1)] (loop_spans s k (dag_from k) old_j eng buf).
  Proof.
    remember (length s - k) as n eqn:EN. revert k EN old_j eng buf.
    induction n as [|n IH]; intros k EN old_j eng buf LK L0 HJ LJ NE; [lia|].
    rewrite dag_from_cons by lia. cbn [loop_spans].
    set (fl := eng && negb (eng_match (slice s k (k + 1)))).
    destruct (Nat.eq_dec k k0) as [->|NK].
    - pose proof (flush_off eng k0 NE) as FO. fold fl in FO.
      assert (ELSE : forall X, In [(k0, j + 1)]
        (let '(ws, o) := words_spans k0 (dag_at fr s k0) old_j in
         X ++ ws ++ loop_spans s (S k0) (dag_from (S k0)) o (if fl then false else eng) buf)).
      { intros X. pose proof (@words_spans_complete k0 (dag_at fr s k0) old_j j HJ LJ) as WC.
        destruct (words_spans k0 (dag_at fr s k0) old_j) as [ws o]. simpl in WC.
        apply in_or_app. right. apply in_or_app. left. auto. }
      destruct (dag_at fr s k0) as [|l0 [|l1 L]] eqn:ED; [contradiction| |apply ELSE].
      destruct (old_j <? Z.of_nat k0)%Z; [|apply ELSE].
      destruct HJ as [->|[]]. rewrite (eng_match_slice (k:=k0) (l:=j)), NE by lia. rewrite FO.
      apply in_or_app. right. left. reflexivity.
    - assert (IH' : forall o e b, In [(k0, j + 1)] (loop_spans s (S k) (dag_from (S k)) o e b)).
      { intros. apply IH; auto; lia. }
      assert (ELSE : forall X, In [(k0, j + 1)]
        (let '(ws, o) := words_spans k (dag_at fr s k) old_j in
         X ++ ws ++ loop_spans s (S k) (dag_from (S k)) o (if fl then false else eng) buf)).
      { intros X. destruct (words_spans k (dag_at fr s k) old_j) as [ws o].
        apply in_or_app. right. apply in_or_app. right. auto. }
      destruct (dag_at fr s k) as [|l0 [|l1 L]] eqn:ED; try apply ELSE.
      destruct (old_j <? Z.of_nat k)%Z; [|apply ELSE].
      destruct (eng_match (slice s k (l0 + 1))); [destruct (if fl then false else eng)|];
        apply in_or_app; right; apply in_or_app; right; apply IH'.
  Qed.

  (** coverage *)
  Definition in_spans (i : nat) (sps : list (list span)) : Prop :=
    exists sp a b, In sp sps /\ In (a, b) sp /\ a <= i < b.

  Lemma in_spans_app i x y : in_spans i x \/ in_spans i y -> in_spans i (x ++ y).
  Proof.
    intros [[sp [a [b [A B]]]]|[sp [a [b [A B]]]]]; exists sp, a, b; split; auto; apply in_or_app; auto.
  Qed.

  Definition in_buf (i : nat) (eng : bool) (buf : list span) : Prop :=
    eng = true /\ exists a b, In (a, b) buf /\ a <= i < b.

  (** the buffer is never dropped *)
  Lemma loop_spans_buf k dag old_j eng buf i :
    in_buf i eng buf -> in_spans i (loop_spans s k dag old_j eng buf).
  Proof.
    revert k old_j eng buf. induction dag as [|L dag IH]; intros k old_j eng buf [-> [a [b [HI R]]]].
    - simpl. exists buf, a, b. split; auto. left; auto.
    - cbn [loop_spans]. set (fl := true && negb (eng_match (slice s k (k + 1)))).
      assert (FL : fl = true -> in_spans i [buf]) by (intros _; exists buf, a, b; split; [left|]; auto).
      assert (IB : fl = false -> in_buf i (if fl then false else true) buf).
      { intros ->. split; auto. exists a, b. auto. }
      assert (ELSE : in_spans i
        (let '(ws, o) := words_spans k L old_j in
         (if fl then [buf] else []) ++ ws ++ loop_spans s (S k) dag o (if fl then false else true) buf)).
      { destruct (words_spans k L old_j) as [ws o]. destruct fl.
        - apply in_spans_app. left. auto.
        - apply in_spans_app. right. apply in_spans_app. right. apply IH. auto. }
      destruct L as [|l0 [|l1 L]]; [exact ELSE| |exact ELSE].
      destruct (old_j <? Z.of_nat k)%Z; [|exact ELSE].
      destruct fl.
      + destruct (eng_match (slice s k (l0 + 1))); apply in_spans_app; left; auto.
      + destruct (eng_match (slice s k (l0 + 1))).
        * apply in_spans_app. right. apply in_spans_app. right. apply IH. split; auto.
          exists a, b. split; auto. apply in_or_app. auto.
        * apply in_spans_app. right. apply in_spans_app. right. apply IH. auto.
  Qed.

  (** ends listed by the graph are increasing *)
  Lemma dag_words_sorted k : StronglySorted lt (dag_words fr s k).
  Proof.
    unfold dag_words. generalize (length s - k) as n. intros n.
    assert (S1 : forall p a m, StronglySorted lt (take_while_nat p (seq a m))
              /\ Forall (le a) (take_while_nat p (seq a m))).
    { intros p a m. revert a. induction m as [|m IH]; intros a; simpl.
      - split; constructor.
      - destruct (p a); [|split; constructor]. destruct (IH (S a)) as [I1 I2]. split.
        + constructor; auto.
        + constructor; auto. eapply Forall_impl; [|exact I2]. simpl. intros; lia. }
    destruct (S1 (fun j => smem fr (slice s k (j + 1))) k n) as [SS _].
    induction SS as [|x l SS IH FA]; simpl; [constructor|].
    destruct (freq_true fr (slice s k (x + 1))); auto. constructor; auto.
    apply Forall_forall. intros y HY. apply filter_In in HY. rewrite Forall_forall in FA. apply FA. tauto.
  Qed.

  Lemma dag_at_two k l0 l1 L : dag_at fr s k = l0 :: l1 :: L -> k < length s -> k < l1.
  Proof.
    rewrite dag_at_words. pose proof (dag_words_sorted k) as SS.
    intros E LK. destruct (dag_words fr s k) as [|x l] eqn:EW; [discriminate|].
    subst. inversion SS; subst. rewrite E in *. inversion E; subst.
    inversion H2; subst.
    assert (HI : In l0 (dag_words fr s k)) by (rewrite EW; left; auto).
    apply dag_words_range in HI. lia.
  Qed.

  Lemma loop_spans_covers k old_j eng buf i :
    k <= i < length s -> (old_j < Z.of_nat i)%Z ->
    in_spans i (loop_spans s k (dag_from k) old_j eng buf).
  Proof.
    remember (length s - k) as n eqn:EN. revert k EN old_j eng buf.
    induction n as [|n IH]; intros k EN old_j eng buf LK LO; [lia|].
    rewrite dag_from_cons by lia. cbn [loop_spans].
    set (fl := eng && negb (eng_match (slice s k (k + 1)))).
    assert (ELSE : ((exists l0, dag_at fr s k = [l0]) -> (Z.of_nat k <= old_j)%Z) -> in_spans i
        (let '(ws, o) := words_spans k (dag_at fr s k) old_j in
         (if fl then [buf] else []) ++ ws ++ loop_spans s (S k) (dag_from (S k)) o (if fl then false else eng) buf)).
    { intros NS.
      pose proof (words_spans_old k (dag_at fr s k) old_j) as WO.
      pose proof (fun j => @words_spans_complete k (dag_at fr s k) old_j j) as WC.
      destruct (words_spans k (dag_at fr s k) old_j) as [ws o]. simpl in WO, WC.
      apply in_spans_app. right. apply in_spans_app.
      destruct (Nat.eq_dec i k) as [->|NK].
      - left. destruct (dag_at fr s k) as [|l0 [|l1 L]] eqn:ED.
        + exfalso. apply (@dag_at_nonempty fr s k). auto.
        + exfalso. assert (Z.of_nat k <= old_j)%Z by eauto. lia.
        + assert (L1 : k < l1) by (eapply dag_at_two; eauto; lia).
          exists [(k, l1 + 1)], k, (l1 + 1). split; [|split; [left; auto|lia]].
          apply WC; auto. right. left. auto.
      - destruct WO as [->|[j [HJ [LJ ->]]]].
        + right. apply IH; auto; lia.
        + destruct (Nat.le_gt_cases i j) as [LE|GT].
          * left. exists [(k, j + 1)], k, (j + 1). split; [|split; [left; auto|lia]]. apply WC; auto.
          * right. apply IH; auto; lia. }
    destruct (dag_at fr s k) as [|l0 [|l1 L]] eqn:ED.
    - apply ELSE. intros [l E]. discriminate.
    - destruct (old_j <? Z.of_nat k)%Z eqn:EO; [|apply ELSE; apply Z.ltb_ge in EO; auto].
      assert (LL : k <= l0 < length s) by (apply (@dag_at_range fr s k l0); [lia|rewrite ED; left; auto]).
      destruct (Nat.le_gt_cases i l0) as [LE|GT].
      + destruct (eng_match (slice s k (l0 + 1))) eqn:EM.
        * destruct (if fl then false else eng); apply in_spans_app; right; apply in_spans_app; right;
            apply loop_spans_buf; split; auto; exists k, (l0 + 1); (split; [try (apply in_or_app; right); left; auto|lia]).
        * rewrite eng_match_slice in EM by lia. pose proof (flush_off eng k EM) as FO. fold fl in FO. rewrite FO.
          apply in_spans_app. right. apply in_spans_app. left.
             exists [(k, l0 + 1)], k, (l0 + 1). split; [left; auto|]. split; [left; auto|lia].
      + destruct (eng_match (slice s k (l0 + 1))); [destruct (if fl then false else eng)|];
          apply in_spans_app; right; apply in_spans_app; right; apply IH; auto; lia.
    - apply ELSE. intros [l E]. discriminate.
  Qed.
End Inv.

(** ** One block *)

Lemma get_DAG_from fr s : get_DAG fr s = dag_from fr s 0.
Proof. unfold get_DAG, dag_from. rewrite Nat.sub_0_r. reflexivity. Qed.

Definition block_spans (fr : freqs) (s : str) : list (list span) :=
  loop_spans s 0 (dag_from fr s 0) (-1) false [].

Lemma cut_all_block_eq fr s : cut_all_block fr s = gof (map (text_of s) (block_spans fr s)).
Proof.
  unfold cut_all_block, block_spans. rewrite get_DAG_from. rewrite <- loop_spans_ok. reflexivity.
Qed.

Lemma block_sound fr s : Forall (spans_ok fr s) (block_spans fr s).
Proof. apply loop_spans_sound; [intros; discriminate|lia]. Qed.

Lemma text_of_head_alnum s sp : sp <> [] -> Forall (span_alnum s) sp -> starts_alnum (text_of s sp).
Proof.
  destruct sp as [|[a b] sp]; [congruence|]. intros _ F. inversion F; subst.
  unfold span_alnum in H1. rewrite eng_match_eq in H1. simpl in H1.
  unfold text_of. simpl. rewrite sub_slice. destruct (slice s a b); simpl in *; [discriminate|auto].
Qed.

Lemma block_covers fr s : covers s (map (text_of s) (block_spans fr s)).
Proof.
  exists (block_spans fr s). split.
  - pose proof (block_sound fr s) as SO. revert SO. generalize (block_spans fr s) as l.
    induction l as [|sp l IH]; intros SO; inversion SO; subst; constructor; auto.
    destruct H1 as [N1 [N2 N3]]. split.
    + split; auto. eapply Forall_impl; [|exact N2]. intros ab AB. apply (span_ok_range AB); auto.
    + destruct N3 as [E|FA]; [left; unfold span in *; lia|right]. apply text_of_head_alnum; auto.
  - intros i L. apply (@loop_spans_covers fr s 0 (-1)%Z false [] i); lia.
Qed.

Lemma slice_substring (s : str) a b : a <= b -> b <= length s -> substring (slice s a b) s.
Proof.
  intros L1 L2. exists a, (firstn a s), (skipn b s). split.
  - unfold slice. rewrite <- (firstn_skipn a s) at 1. f_equal.
    rewrite <- (firstn_skipn (b - a) (skipn a s)) at 1. f_equal. rewrite skipn_skipn. f_equal. lia.
  - apply firstn_length_le. lia.
Qed.

Lemma span_word fr s ab : span_ok fr s ab ->
  let w := slice s (fst ab) (snd ab) in
  substring w s /\ w <> [] /\ (is_word (sget fr) w \/ exists c, w = [c] /\ In c s).
Proof.
  intros SO. pose proof (span_ok_range SO) as R. destruct ab as [a b]. simpl in *.
  destruct SO as [L [j [HJ E]]]. simpl in *. subst b.
  split; [apply slice_substring; lia|].
  assert (LEN : length (slice s a (j + 1)) = j + 1 - a).
  { unfold slice. rewrite firstn_length_le; auto. rewrite skipn_length. lia. }
  split. { intros E0. rewrite E0 in LEN. simpl in LEN. lia. }
  rewrite dag_at_words in HJ. destruct (dag_words fr s a) as [|x l] eqn:EW.
  - destruct HJ as [<-|[]]. right.
    destruct (slice s a (a + 1)) as [|c [|d t]] eqn:ES; simpl in LEN; try lia.
    exists c. split; auto. rewrite <- (firstn_skipn a s). apply in_or_app. right.
    rewrite <- (firstn_skipn (a + 1 - a) (skipn a s)). apply in_or_app. left.
    unfold slice in ES. rewrite ES. left; auto.
  - left. rewrite <- EW in HJ. apply dag_words_range in HJ. apply freq_true_word. tauto.
Qed.

Lemma block_pieces fr s p :
  In p (map (text_of s) (block_spans fr s)) -> full_piece (sget fr) s p.
Proof.
  intros HI. apply in_map_iff in HI. destruct HI as [sp [<- HI]].
  pose proof (block_sound fr s) as SO. rewrite Forall_forall in SO.
  destruct (SO _ HI) as [N1 [N2 N3]]. destruct N3 as [E|FA].
  - destruct sp as [|[a b] [|]]; simpl in E; try lia. inversion N2; subst.
    rewrite text_of_one. destruct (span_word H1) as [S1 [S2 [S3|[c [S3 S4]]]]]; simpl in *.
    + apply fp_word; auto.
    + rewrite S3. apply fp_char; auto.
  - apply fp_alnum.
    + destruct sp; simpl; congruence.
    + rewrite Forall_forall in *. intros w HW. apply in_map_iff in HW. destruct HW as [ab [<- HAB]].
      specialize (N2 _ HAB). specialize (FA _ HAB). rewrite sub_slice.
      destruct (span_word N2) as [S1 [S2 S3]]. simpl in *.
      split; [|split]; auto.
      * unfold span_alnum in FA. rewrite eng_match_eq in FA.
        destruct (slice s (fst ab) (snd ab)); simpl in *; [discriminate|auto].
      * destruct S3 as [S3|[c [S3 _]]]; auto. right. rewrite S3. reflexivity.
Qed.

Lemma block_complete fr s a w b :
  prefix_closed (sget fr) -> s = a ++ w ++ b -> is_word (sget fr) w -> 2 <= length w -> ~ starts_alnum w ->
  In w (map (text_of s) (block_spans fr s)).
Proof.
  intros PC E W L2 NA.
  assert (SL : slice s (length a) (length a + length w - 1 + 1) = w).
  { subst s. unfold slice. rewrite skipn_app, skipn_all, Nat.sub_diag. simpl.
    replace (length a + length w - 1 + 1 - length a) with (length w) by lia.
    rewrite firstn_app, Nat.sub_diag, firstn_all. simpl. apply app_nil_r. }
  assert (LA : length a + length w <= length s) by (subst s; rewrite !app_length; lia).
  apply in_map_iff. exists [(length a, length a + length w - 1 + 1)]. split.
  - rewrite text_of_one. exact SL.
  - apply loop_spans_complete; try lia.
    + rewrite dag_at_words.
      assert (HI : In (length a + length w - 1) (dag_words fr s (length a))).
      { apply dag_words_In; auto; [lia|]. split; [lia|]. rewrite SL. auto. }
      destruct (dag_words fr s (length a)); auto. contradiction.
    + rewrite eng_match_eq.
      destruct w as [|c w]; [simpl in L2; lia|].
      replace (slice s (length a) (length a + 1)) with [c].
      * simpl. simpl in NA. destruct (is_alnum c); congruence.
      * subst s. unfold slice. rewrite skipn_app, skipn_all, Nat.sub_diag. simpl.
        replace (length a + 1 - length a) with 1 by lia. reflexivity.
Qed.

(** ** Text outside the word characters *)

Definition kind_other (p : str) : Prop :=
  p = [13; 10]%N \/ (exists c, p = [c] /\ is_space c = true) \/ Forall (fun c => is_space c = false) p.

Lemma cut_other_full_go n0 fuel acc s :
  length s < fuel -> Forall (fun c => is_space c = false) acc ->
  exists ps,
  gfor (re_split_go fuel n0 re_skip_default acc s)
       gone = gof ps
  /\ concat ps = rev acc ++ s /\ Forall kind_other ps.
Proof.
  revert acc s. induction fuel as [|fuel IH]; intros acc s L FA; [lia|].
  assert (KA : kind_other (rev acc)).
  { right. right. apply Forall_rev. auto. }
  assert (PUSH : forall c s', s = c :: s' -> is_space c = false -> exists ps,
    gfor (re_split_go fuel n0 re_skip_default (c :: acc) s')
       gone = gof ps
    /\ concat ps = rev acc ++ s /\ Forall kind_other ps).
  { intros c s' -> SP. simpl in L. destruct (IH (c :: acc) s') as [ps [P1 [P2 P3]]]; [lia|constructor; auto|].
    exists ps. split; auto. split; auto. rewrite P2. simpl. rewrite <- app_assoc. reflexivity. }
  cbn [re_split_go]. destruct s as [|c s].
  - cbn [gfor]. exists [rev acc]. split; auto.
  - rewrite skip_hd.
    assert (CASE : forall m rest, c :: s = m ++ rest -> length rest <= length s -> m <> [] -> kind_other m ->
       exists ps,
       gfor (rev acc :: m :: re_split_go fuel n0 re_skip_default [] rest)
         gone = gof ps
       /\ concat ps = rev acc ++ c :: s /\ Forall kind_other ps).
    { intros m rest E1 LR NM KM. destruct (IH [] rest) as [ps [P1 [P2 P3]]]; [simpl in L; lia|constructor|].
      exists (rev acc :: m :: ps). unfold str in *. cbn [gfor]. rewrite P1. split; auto. split.
      - simpl. rewrite P2. simpl. rewrite E1. reflexivity.
      - constructor; auto. }
    destruct s as [|d s].
    + destruct (is_space c) eqn:SP.
      * cbn [length Nat.ltb Nat.leb]. cbn [Nat.sub firstn].
        apply CASE; [reflexivity|simpl; lia|discriminate|]. right. left. eauto.
      * apply PUSH; auto.
    + destruct ((c =? 13) && (d =? 10))%N eqn:E.
      * replace (length s <? length (c :: d :: s)) with true
          by (symmetry; apply Nat.ltb_lt; simpl; lia).
        rewrite (@firstn_minus_app _ (c :: d :: s) [c; d] s) by reflexivity.
        apply andb_true_iff in E. destruct E as [E1 E2]. apply N.eqb_eq in E1, E2. subst c d.
        apply CASE; [reflexivity|simpl; lia|discriminate|]. left. reflexivity.
      * destruct (is_space c) eqn:SP.
        -- replace (length (d :: s) <? length (c :: d :: s)) with true
             by (symmetry; apply Nat.ltb_lt; simpl; lia).
           rewrite (@firstn_minus_app _ (c :: d :: s) [c] (d :: s)) by reflexivity.
           apply CASE; [reflexivity|simpl; lia|discriminate|]. right. left. eauto.
        -- apply PUSH; auto.
Qed.

Lemma cut_other_true blk : exists ps, cut_other true blk = gof ps /\ concat ps = blk /\ Forall kind_other ps.
Proof.
  unfold cut_other, re_split. simpl negb. 
  rewrite (@gfor_ext _ _ _ _ gone) by (intros x _; destruct (re_matches re_skip_default x); reflexivity).
  apply (cut_other_full_go (length blk) (acc:=[]) blk); auto.
Qed.

(** ** Whole texts *)

Lemma sub_app_l (u v : str) a b : b <= length u -> sub (u ++ v) a (b - a) = sub u a (b - a).
Proof.
  intros L. unfold sub. destruct (Nat.le_gt_cases a (length u)) as [LA|GA].
  - rewrite skipn_app, firstn_app, skipn_length.
    replace (b - a - (length u - a)) with 0 by lia. simpl. apply app_nil_r.
  - replace (b - a) with 0 by lia. reflexivity.
Qed.

Lemma sub_app_r (u v : str) a n : sub (u ++ v) (length u + a) n = sub v a n.
Proof.
  unfold sub. rewrite skipn_app. rewrite skipn_all2 by lia.
  replace (length u + a - length u) with a by lia. reflexivity.
Qed.

Lemma covers_nil : covers [] [].
Proof. exists []. split; [constructor|simpl; lia]. Qed.

Lemma covers_app u v ps qs : covers u ps -> covers v qs -> covers (u ++ v) (ps ++ qs).
Proof.
  intros [sa [A1 A2]] [sb [B1 B2]].
  exists (sa ++ map (map (fun ab => (length u + fst ab, length u + snd ab))) sb). split.
  - apply Forall2_app.
    + clear - A1. induction A1 as [|sp p sa ps [[P1 P2] P3] A1 IH]; constructor; auto. split; auto. split.
      * rewrite P1. f_equal. apply map_ext_in. intros [a b] HI. rewrite Forall_forall in P2.
        specialize (P2 _ HI). simpl in *. rewrite sub_app_l; auto. lia.
      * eapply Forall_impl; [|exact P2]. intros [a b]. simpl. rewrite app_length. lia.
    + clear - B1. induction B1 as [|sp p sb qs [[P1 P2] P3] B1 IH]; constructor; auto. split.
      * split.
        -- rewrite P1, map_map. f_equal. apply map_ext. intros [a b]. simpl.
           replace (length u + b - (length u + a)) with (b - a) by lia. rewrite sub_app_r. reflexivity.
        -- rewrite Forall_map. eapply Forall_impl; [|exact P2]. intros [a b]. simpl. rewrite app_length. lia.
      * unfold simple_unless_alnum in *. rewrite map_length. auto.
  - intros i L. rewrite app_length in L. destruct (Nat.lt_ge_cases i (length u)) as [LT|GE].
    + destruct (A2 i LT) as [sp [a [b [H1 [H2 H3]]]]]. exists sp, a, b. split; auto. apply in_or_app; auto.
    + destruct (B2 (i - length u)) as [sp [a [b [H1 [H2 H3]]]]]; [lia|].
      exists (map (fun ab => (length u + fst ab, length u + snd ab)) sp), (length u + a), (length u + b).
      split; [|split; [|lia]].
      * apply in_or_app. right. apply in_map. auto.
      * apply in_map_iff. exists (a, b). auto.
Qed.

Lemma covers_parts ps : Forall kind_other ps -> covers (concat ps) ps.
Proof.
  induction 1 as [|p ps K F IH]; simpl; [apply covers_nil|].
  apply (covers_app (u:=p) (v:=concat ps) (ps:=[p]) (qs:=ps)); auto.
  destruct p as [|c p].
  - exists [[]]. split; [|simpl; lia]. constructor; auto. split; [split; auto|left; simpl; lia].
  - exists [[(0, length (c :: p))]]. split.
    + constructor; auto. split; [|left; simpl; lia]. split.
      * cbn [map concat fst snd]. rewrite app_nil_r. unfold sub. rewrite Nat.sub_0_r, firstn_all. reflexivity.
      * constructor; auto. simpl. lia.
    + intros i L. exists [(0, length (c :: p))], 0, (length (c :: p)). split; [left; auto|]. split; [left; auto|lia].
Qed.

Lemma run_starts (p : char -> bool) w y :
  w <> [] -> Forall (fun c => p c = true) w ->
  exists b rest, runs p (w ++ y) = (true, w ++ b) :: rest.
Proof.
  intros NW FA. induction w as [|c w IH]; [congruence|]. inversion FA; subst.
  destruct w as [|d w].
  - simpl. rewrite H1. destruct (runs p y) as [|[b r] rest]; [exists [], []; auto|].
    destruct b; simpl; [exists r|exists []]; eauto.
  - destruct IH as [b [rest E]]; auto; [discriminate|].
    cbn [app] in *. cbn [runs] in *. rewrite E, H1. simpl. eauto.
Qed.

Lemma run_contains (p : char -> bool) x w y :
  w <> [] -> Forall (fun c => p c = true) w ->
  exists a b, In (true, a ++ w ++ b) (runs p (x ++ w ++ y)).
Proof.
  intros NW FA. induction x as [|c x [a [b IH]]].
  - destruct (run_starts p y NW FA) as [b [rest E]]. exists [], b. simpl. rewrite E. left; auto.
  - cbn [app runs]. destruct (runs p (x ++ w ++ y)) as [|[b0 r] rest]; [contradiction|].
    destruct (Bool.eqb b0 (p c)) eqn:E.
    + destruct IH as [IH|IH].
      * inversion IH; subst. exists (c :: a), b. left. reflexivity.
      * exists a, b. right. auto.
    + exists a, b. right. auto.
Qed.

Section Whole.
  Variable num : Num.
  Variable H : hmm num.

  Definition full_run (fr : freqs) (br : bool * str) (ps : list str) : Prop :=
    if fst br then ps = map (text_of (snd br)) (block_spans fr (snd br))
    else concat ps = snd br /\ Forall kind_other ps.

  Lemma cut_full_runs fr total force s :
    exists pss, cut num H Full fr total force s = gof (concat pss)
      /\ Forall2 (full_run fr) (runs word_char s) pss.
  Proof.
    rewrite cut_runs. generalize (runs word_char s) as l.
    induction l as [|[b r] l [pss [P1 P2]]]; [exists []; split; auto|].
    cbn [gfor fst snd]. rewrite P1. destruct b.
    - exists (map (text_of r) (block_spans fr r) :: pss). split.
      + cbn [cut_block]. rewrite cut_all_block_eq. reflexivity.
      + constructor; auto. red. simpl. auto.
    - destruct (cut_other_true r) as [ps [Q1 [Q2 Q3]]]. exists (ps :: pss). split.
      + cbn [is_full]. rewrite Q1. reflexivity.
      + constructor; auto. red. simpl. auto.
  Qed.

  Lemma cut_full_covers fr total force s :
    exists ps, cut num H Full fr total force s = gof ps /\ covers s ps.
  Proof.
    destruct (cut_full_runs fr total force s) as [pss [P1 P2]]. exists (concat pss). split; auto.
    rewrite <- (runs_concat word_char s) at 1. revert P2. generalize (runs word_char s) as l. clear P1.
    intros l P2. induction P2 as [|[b r] ps l pss R P2 IH]; simpl; [apply covers_nil|].
    apply covers_app; auto. red in R. simpl in R. destruct b.
    - subst ps. apply block_covers.
    - destruct R as [<- R2]. apply covers_parts; auto.
  Qed.

  Lemma Forall2_In_l {A B} (R : A -> B -> Prop) l m x : Forall2 R l m -> In x l -> exists y, In y m /\ R x y.
  Proof. induction 1; simpl; [contradiction|]. intros [<-|HI]; eauto. destruct (IHForall2 HI) as [y' [? ?]]. eauto. Qed.
  Lemma Forall2_In_r {A B} (R : A -> B -> Prop) l m y : Forall2 R l m -> In y m -> exists x, In x l /\ R x y.
  Proof. induction 1; simpl; [contradiction|]. intros [<-|HI]; eauto. destruct (IHForall2 HI) as [x' [? ?]]. eauto. Qed.

  Lemma cut_full_complete fr total force s x w y :
    prefix_closed (sget fr) -> s = x ++ w ++ y -> Forall (fun c => word_char c = true) w ->
    is_word (sget fr) w -> 2 <= length w -> ~ starts_alnum w ->
    In w (fst (cut num H Full fr total force s)).
  Proof.
    intros PC E FA W L2 NA. destruct (cut_full_runs fr total force s) as [pss [P1 P2]]. rewrite P1. simpl.
    assert (RN : exists a b, In (true, a ++ w ++ b) (runs word_char s)).
    { subst s. apply run_contains; auto. intros ->. simpl in L2. lia. }
    destruct RN as [a [b HR]]. destruct (Forall2_In_l _ P2 HR) as [ps [Q1 Q2]].
    apply in_concat. exists ps. split; auto. red in Q2. simpl in Q2. subst ps.
    eapply block_complete; eauto.
  Qed.

  Lemma cut_full_sound fr total force s p :
    In p (fst (cut num H Full fr total force s)) ->
    (exists r, In (true, r) (runs word_char s) /\ full_piece (sget fr) r p) \/
    (exists r, In (false, r) (runs word_char s) /\ other_piece r p).
  Proof.
    destruct (cut_full_runs fr total force s) as [pss [P1 P2]]. rewrite P1. simpl.
    intros HI. apply in_concat in HI. destruct HI as [ps [HP HI]].
    destruct (Forall2_In_r _ P2 HP) as [[b r] [Q1 Q2]]. red in Q2. simpl in Q2. destruct b.
    - left. exists r. split; auto. subst ps. apply block_pieces; auto.
    - right. exists r. split; auto. destruct Q2 as [Q2 Q3]. split.
      + apply in_split in HI. destruct HI as [l1 [l2 ->]]. exists (length (concat l1)), (concat l1), (concat l2).
        split; auto. rewrite <- Q2, concat_app. reflexivity.
      + rewrite Forall_forall in Q3. apply Q3. auto.
  Qed.
End Whole.
