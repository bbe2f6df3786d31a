(** * Word graph and route *)
From Verif Require Import PyBase PyRegex PyNum ModelFinalseg ModelSeg SpecBase SpecSeg
  ProofsBase ProofsRegex.

(** ** The scan *)

Fixpoint take_while_nat (p : nat -> bool) (l : list nat) : list nat :=
  match l with
  | [] => []
  | x :: l' => if p x then x :: take_while_nat p l' else []
  end.

Lemma dag_scan_spec fuel fr s k i tmp :
  length s - i < fuel -> k <= i ->
  dag_scan fuel fr s k i (slice s k (i + 1)) tmp =
  tmp ++ filter (fun j => freq_true fr (slice s k (j + 1)))
                (take_while_nat (fun j => smem fr (slice s k (j + 1))) (seq i (length s - i))).
Proof.
  revert i tmp. induction fuel as [|fuel IH]; intros i tmp L K; [lia|].
  cbn [dag_scan]. destruct (i <? length s) eqn:E.
  - apply Nat.ltb_lt in E. destruct (length s - i) as [|n] eqn:EN; [lia|].
    cbn [seq take_while_nat andb]. destruct (smem fr (slice s k (i + 1))) eqn:EM.
    + rewrite IH by lia. replace (length s - (i + 1)) with n by lia.
      cbn [filter]. replace (seq (i + 1) n) with (seq (S i) n) by (f_equal; lia).
      destruct (freq_true fr (slice s k (i + 1))) eqn:EF; auto.
      rewrite <- app_assoc. reflexivity.
    + simpl. rewrite app_nil_r. reflexivity.
  - apply Nat.ltb_ge in E. replace (length s - i) with 0 by lia. simpl. rewrite app_nil_r. reflexivity.
Qed.

Lemma take_while_nat_incl p l x : In x (take_while_nat p l) -> In x l.
Proof.
  induction l as [|y l IH]; simpl; auto. destruct (p y); simpl; [|contradiction]. intros [->|]; auto.
Qed.

(** the ends of the words found at [k], before the fallback *)
Definition dag_words (fr : freqs) (s : str) (k : nat) : list nat :=
  filter (fun j => freq_true fr (slice s k (j + 1)))
         (take_while_nat (fun j => smem fr (slice s k (j + 1))) (seq k (length s - k))).

Lemma dag_at_words fr s k :
  dag_at fr s k = match dag_words fr s k with [] => [k] | _ => dag_words fr s k end.
Proof.
  unfold dag_at. rewrite dag_scan_spec by lia. reflexivity.
Qed.

Lemma dag_at_nonempty fr s k : dag_at fr s k <> [].
Proof. rewrite dag_at_words. destruct (dag_words fr s k); discriminate. Qed.

Lemma dag_words_range fr s k x :
  In x (dag_words fr s k) -> k <= x < length s /\ freq_true fr (slice s k (x + 1)) = true.
Proof.
  unfold dag_words. rewrite filter_In. intros [H1 H2]. apply take_while_nat_incl in H1.
  apply in_seq in H1. split; auto. lia.
Qed.

Lemma dag_at_range fr s k x : k < length s -> In x (dag_at fr s k) -> k <= x < length s.
Proof.
  intros L. rewrite dag_at_words. destruct (dag_words fr s k) as [|y l] eqn:E.
  - intros [<-|[]]. lia.
  - intros HI. rewrite <- E in HI. apply dag_words_range in HI. tauto.
Qed.

Lemma get_DAG_length fr s : length (get_DAG fr s) = length s.
Proof. unfold get_DAG. rewrite map_length, seq_length. reflexivity. Qed.

Lemma get_DAG_nth fr s k : k < length s -> nth_error (get_DAG fr s) k = Some (dag_at fr s k).
Proof.
  intros L. unfold get_DAG. apply map_nth_error. rewrite nth_error_nth' with (d := 0).
  - rewrite seq_nth by lia. reflexivity.
  - rewrite seq_length. lia.
Qed.

(** ** Exactness of the graph for prefix-closed dictionaries *)

Lemma freq_true_mem fr w : freq_true fr w = true -> smem fr w = true.
Proof. unfold freq_true. rewrite smem_sget. destruct (sget fr w); auto. Qed.

Lemma freq_true_word fr w : freq_true fr w = true <-> is_word (sget fr) w.
Proof.
  unfold freq_true, is_word. destruct (sget fr w) as [n|].
  - rewrite negb_true_iff, Z.eqb_neq. split.
    + intros. exists n. auto.
    + intros [m [[= ->] Hm]]. auto.
  - split; [discriminate|]. intros [m [HH _]]. discriminate.
Qed.

Lemma filter_take_while (q p : nat -> bool) a n :
  (forall j, p j = true -> q j = true) ->
  (forall i j, a <= i -> i <= j -> j < a + n -> q j = true -> q i = true) ->
  filter p (take_while_nat q (seq a n)) = filter p (seq a n).
Proof.
  revert a. induction n as [|n IH]; intros a PQ MON; simpl; auto.
  destruct (q a) eqn:E.
  - simpl. rewrite IH; auto. intros i j ? ? ? ?. apply (MON i j); lia || auto.
  - simpl. destruct (p a) eqn:Ep; [apply PQ in Ep; congruence|].
    symmetry. assert (ALL : forall j, In j (seq (S a) n) -> p j = false).
    { intros j HJ. apply in_seq in HJ. destruct (p j) eqn:Ej; auto.
      apply PQ in Ej. rewrite (MON a j) in E; auto; lia. }
    clear - ALL. induction (seq (S a) n) as [|x l IH]; simpl; auto.
    rewrite ALL by (left; auto). apply IH. intros; apply ALL; right; auto.
Qed.

Lemma dag_words_exact fr s k :
  prefix_closed (sget fr) ->
  dag_words fr s k = filter (fun j => freq_true fr (slice s k (j + 1))) (seq k (length s - k)).
Proof.
  intros PC. unfold dag_words. apply filter_take_while.
  - intros j. apply freq_true_mem.
  - intros i j L1 L2 L3 HQ. rewrite smem_sget in *.
    rewrite <- (@slice_slice_firstn _ s k (i + 1) (j + 1)) in HQ by lia.
    specialize (PC (slice s k (i + 1)) (slice s (i + 1) (j + 1))).
    destruct (sget fr (slice s k (i + 1))); auto.
    exfalso. apply PC; auto.
    + apply slice_nonempty; lia.
    + intros E. rewrite E in HQ. discriminate.
Qed.

(** ** Route *)

Section Route.
  Variable num : Num.
  Notation F := (F num).

  (** every frequency used for scoring is positive, so that [log] is defined *)
  Definition pos_freqs (fr : freqs) : Prop := forall w n, sget fr w = Some n -> (0 <= n)%Z.

  Lemma freq_or1_pos fr w : pos_freqs fr -> (0 < freq_or1 fr w)%Z.
  Proof.
    intros P. unfold freq_or1. destruct (sget fr w) as [n|] eqn:E; [|lia].
    apply P in E. destruct (n =? 0)%Z eqn:Z0; [lia|]. apply Z.eqb_neq in Z0. lia.
  Qed.

  Lemma max_from_In {A} (gt : A -> A -> bool) x l : In (max_from gt x l) (x :: l).
  Proof.
    unfold max_from. revert x; induction l as [|y l IH]; intros x; simpl; auto.
    destruct (gt y x).
    - right. apply (IH y).
    - destruct (IH x) as [HI|HI]; auto.
  Qed.

  Lemma calc_cands_snd fr lt s idx route xs cs :
    calc_cands num fr lt s idx route xs = Ok cs -> map snd cs = xs.
  Proof.
    revert cs. induction xs as [|x xs IH]; simpl; intros cs.
    - intros [= <-]. auto.
    - destruct (py_log num _) as [lw|]; simpl; [|discriminate].
      destruct (nth_error route (x - idx)) as [r|]; [|discriminate].
      destruct (calc_cands num fr lt s idx route xs) as [cs'|]; simpl; [|discriminate].
      intros [= <-]. simpl. f_equal. auto.
  Qed.

  (** [route] holds valid entries for the positions [n .. N] *)
  Definition route_ok (fr : freqs) (s : str) (n : nat) (route : list (F * nat)) : Prop :=
    length route = length s - n + 1 /\
    forall i r, n <= i < length s -> nth_error route (i - n) = Some r -> In (snd r) (dag_at fr s i).

  Lemma calc_loop_ok fr lt s n route route' :
    n <= length s ->
    route_ok fr s n route ->
    calc_loop num fr lt s (get_DAG fr s) n route = Ok route' -> route_ok fr s 0 route'.
  Proof.
    revert route. induction n as [|idx IH]; intros route L RO; cbn [calc_loop].
    - intros [= <-]. exact RO.
    - rewrite get_DAG_nth by lia.
      destruct (calc_cands num fr lt s idx route (dag_at fr s idx)) as [cs|] eqn:EC; simpl; [|discriminate].
      destruct (py_max (route_gt num) cs) as [r|] eqn:EM; simpl; [|discriminate].
      apply IH; [lia|]. destruct RO as [RL RI]. split.
      + simpl. rewrite RL. lia.
      + intros i r0 LI. destruct (Nat.eq_dec i idx) as [->|NE].
        * rewrite Nat.sub_diag. simpl. intros [= <-].
          apply calc_cands_snd in EC. rewrite <- EC. apply in_map.
          unfold py_max in EM. destruct cs as [|c cs]; [discriminate|].
          injection EM as <-. apply max_from_In.
        * replace (i - idx) with (S (i - S idx)) by lia. simpl. apply RI. lia.
  Qed.

  Lemma calc_ok fr total s route :
    calc num fr total s (get_DAG fr s) = Ok route -> route_ok fr s 0 route.
  Proof.
    unfold calc. destruct (py_log num total); simpl; [|discriminate].
    apply calc_loop_ok; auto. split.
    - simpl. rewrite Nat.sub_diag. reflexivity.
    - intros i r LI. lia.
  Qed.

  Lemma calc_cands_total fr lt s idx route xs :
    pos_freqs fr ->
    length route = length s - S idx + 1 ->
    (forall x, In x xs -> idx <= x < length s) ->
    exists cs, calc_cands num fr lt s idx route xs = Ok cs.
  Proof.
    intros P RL. induction xs as [|x xs IH]; simpl; intros HX; eauto.
    unfold py_log. pose proof (@freq_or1_pos fr (slice s idx (x + 1)) P) as PF.
    replace (freq_or1 fr (slice s idx (x + 1)) <=? 0)%Z with false by (symmetry; apply Z.leb_gt; lia).
    simpl. destruct (nth_error route (x - idx)) as [r|] eqn:E.
    - destruct IH as [cs ->]; auto. simpl. eauto.
    - apply nth_error_None in E. specialize (HX x (or_introl eq_refl)). lia.
  Qed.

  Lemma calc_loop_total fr lt s n route :
    pos_freqs fr -> n <= length s -> length route = length s - n + 1 ->
    exists route', calc_loop num fr lt s (get_DAG fr s) n route = Ok route'.
  Proof.
    intros P. revert route. induction n as [|idx IH]; intros route L RL; cbn [calc_loop]; eauto.
    rewrite get_DAG_nth by lia.
    destruct (@calc_cands_total fr lt s idx route (dag_at fr s idx)) as [cs EC]; auto.
    { intros x HX. apply dag_at_range in HX; lia. }
    rewrite EC. simpl. pose proof (@calc_cands_snd _ _ _ _ _ _ _ EC) as ES.
    destruct cs as [|c cs].
    - exfalso. apply (dag_at_nonempty fr s idx). rewrite <- ES. reflexivity.
    - simpl. apply IH; [lia|]. simpl. lia.
  Qed.

  Lemma calc_total fr total s :
    (0 < total)%Z -> pos_freqs fr ->
    exists route, calc num fr total s (get_DAG fr s) = Ok route.
  Proof.
    intros T P. unfold calc, py_log.
    replace (total <=? 0)%Z with false by (symmetry; apply Z.leb_gt; lia). simpl.
    apply calc_loop_total; auto. simpl. lia.
  Qed.
End Route.
