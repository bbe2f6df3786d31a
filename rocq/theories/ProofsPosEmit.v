(** * Facts about the emission table of the tagger, by computation over the table *)
From Coq Require Import FMapPositive.
From Flocq Require Import BinarySingleNaN.
From Verif Require Import PyBase PyNum ModelPosseg InstB64 B64Lit SpecUnknown DataPosseg DataPossegOk ModelPosTables
  DataPossegEmitB DataPossegEmitE DataPossegEmitM DataPossegEmitS ModelPosEmit ProofsBase ProofsPvit ProofsB64Lit ProofsPosTables.

Lemma emit_rows_length : length pos_emit_rows = 256.
Proof. vm_compute. reflexivity. Qed.

(** ** The numbers *)
Definition emit_number_ok (me : Z * Z) : bool :=
  let '(m, e) := me in
  entry_small (Some me) && (m <=? 0)%Z && (- m <=? Z.shiftl 16 (- e))%Z.
Lemma emit_checked : forallb (forallb (fun p => emit_number_ok (fst p))) pos_emit_rows = true.
Proof. vm_compute. reflexivity. Qed.

Lemma emit_of_In rows y c me : emit_in rows y c = Some me ->
  exists row cs, In (y, row) (combine pos_states rows) /\ In (me, cs) row /\ In c cs.
Proof.
  unfold emit_in. destruct (dget pstate_eqb _ y) as [row|] eqn:E; [|discriminate].
  destruct (find _ row) as [[me' cs]|] eqn:FI; [|discriminate]. cbn [option_map fst]. intros K. injection K as ->.
  apply find_some in FI. destruct FI as [FI X]. cbn [snd] in X. apply existsb_exists in X. destruct X as [c' [I X]].
  apply N.eqb_eq in X. subst c'. apply dget_In in E; [|apply pstate_eqb_ok]. exists row, cs. auto.
Qed.
Lemma emit_of_ok rows y c me :
  forallb (forallb (fun p => emit_number_ok (fst p))) rows = true -> emit_in rows y c = Some me -> emit_number_ok me = true.
Proof.
  intros X E. apply emit_of_In in E. destruct E as (row & cs & I & J & _). apply in_combine_snd in I.
  rewrite forallb_forall in X. specialize (X _ I). rewrite forallb_forall in X. exact (X _ J).
Qed.
Lemma emit_num_ok y c me : pos_emit_num y c = Some me -> emit_number_ok me = true.
Proof. exact (emit_of_ok pos_emit_rows y c me emit_checked). Qed.

(** ** Which states have a number for a character *)
Definition key (c : N) : positive := N.succ_pos c.
Definition states_of_key (k : positive) (t : PositiveMap.t (list N)) : list N := match PositiveMap.find k t with Some l => l | None => [] end.
Definition states_with (c : N) (t : PositiveMap.t (list N)) : list N := states_of_key (key c) t.
Definition note (i : N) (t : PositiveMap.t (list N)) (c : N) : PositiveMap.t (list N) := PositiveMap.add (key c) (i :: states_with c t) t.
Fixpoint note_rows (i : N) (rows : list (list (Z * Z * list N))) (t : PositiveMap.t (list N)) : PositiveMap.t (list N) :=
  match rows with
  | [] => t
  | row :: rows' => note_rows (N.succ i) rows' (fold_left (fun t p => fold_left (note i) (snd p) t) row t)
  end.

Lemma key_inj c d : key c = key d -> c = d.
Proof. unfold key. intros E. apply (f_equal N.pos) in E. rewrite !N.succ_pos_spec in E. lia. Qed.
Lemma note_In i t c d j : In j (states_with d (note i t c)) <-> In j (states_with d t) \/ (d = c /\ j = i).
Proof.
  unfold note, states_with at 1, states_of_key. destruct (N.eq_dec c d) as [->|NE].
  - rewrite PositiveMap.gss. cbn [In]. split; [intros [<-|K]; auto|intros [K|[_ ->]]; auto].
  - rewrite PositiveMap.gso by (intros E; apply key_inj in E; congruence). change (match PositiveMap.find (key d) t with Some l => l | None => [] end) with (states_with d t).
    split; [auto|]. intros [K|[-> _]]; [exact K|congruence].
Qed.
Lemma note_chars_In i cs : forall t d j, In j (states_with d (fold_left (note i) cs t)) <-> In j (states_with d t) \/ (In d cs /\ j = i).
Proof.
  induction cs as [|c cs IH]; intros t d j; cbn [fold_left]; [cbn; tauto|]. rewrite IH, note_In. cbn [In]. intuition congruence.
Qed.
Lemma note_row_In i (row : list (Z * Z * list N)) : forall t d j,
  In j (states_with d (fold_left (fun t p => fold_left (note i) (snd p) t) row t)) <->
  In j (states_with d t) \/ ((exists p, In p row /\ In d (snd p)) /\ j = i).
Proof.
  induction row as [|p row IH]; intros t d j; cbn [fold_left].
  - split; auto. intros [K|[[q [[] _]] _]]. auto.
  - rewrite IH, note_chars_In. split.
    + intros [[K|[K ->]]|[[q [I K]] ->]]; auto; right; split; auto; [exists p|exists q]; cbn; auto.
    + intros [K|[[q [[->|I] K]] ->]]; auto. right. split; auto. exists q. auto.
Qed.
Lemma note_rows_In rows : forall i t d j,
  In j (states_with d (note_rows i rows t)) <->
  In j (states_with d t) \/ exists n row p, nth_error rows n = Some row /\ In p row /\ In d (snd p) /\ j = (i + N.of_nat n)%N.
Proof.
  induction rows as [|row rows IH]; intros i t d j; cbn [note_rows].
  - split; auto. intros [K|(n & row & p & E & _)]; auto. destruct n; discriminate.
  - rewrite IH, note_row_In. split.
    + intros [[K|[[p [I K]] ->]]|(n & r & p & E & I & K & ->)]; auto; right.
      * exists 0, row, p. repeat split; auto. lia.
      * exists (S n), r, p. repeat split; auto. lia.
    + intros [K|(n & r & p & E & I & K & ->)]; auto. destruct n as [|n].
      * cbn in E. injection E as ->. left. right. split; [exists p; auto|lia].
      * right. exists n, r, p. repeat split; auto. lia.
Qed.

Lemma nth_combine {A B} (l : list A) (l' : list B) : forall n a b,
  nth_error (combine l l') n = Some (a, b) -> nth_error l n = Some a /\ nth_error l' n = Some b.
Proof.
  revert l'. induction l as [|x l IH]; intros [|y l'] [|n] a b E; try discriminate; cbn in *.
  - injection E as -> ->. auto.
  - apply IH. exact E.
Qed.
Lemma dget_combine {V} (l : list pstate) : forall (l' : list V) n v y,
  nth_error l n = Some y -> nth_error l' n = Some v -> NoDup l -> dget pstate_eqb (combine l l') y = Some v.
Proof.
  induction l as [|x l IH]; intros [|w l'] [|n] v y E E' ND; try discriminate; cbn in E, E'; cbn [combine dget].
  - injection E as ->. injection E' as ->. rewrite (proj2 (pstate_eqb_ok y y) eq_refl). reflexivity.
  - inversion ND as [|? ? NI ND']; subst. destruct (pstate_eqb y x) eqn:Q; [|eapply IH; eauto].
    apply pstate_eqb_ok in Q. subst x. exfalso. apply NI. apply nth_error_In in E. exact E.
Qed.

Lemma noted rows c i : length rows = 256 ->
  In i (states_with c (note_rows 0 rows (PositiveMap.empty _))) <-> (i < 256)%N /\ exists me, emit_in rows (pos_state i) c = Some me.
Proof.
  intros LR. rewrite note_rows_In.
  assert (E0 : In i (states_with c (PositiveMap.empty (list N))) <-> False).
  { unfold states_with, states_of_key. rewrite PositiveMap.gempty. cbn. tauto. }
  rewrite E0. split.
  - intros [[]|(n & row & p & E & I & K & ->)]. rewrite N.add_0_l.
    assert (L : n < 256) by (rewrite <- LR; apply nth_error_Some; congruence).
    split; [lia|]. unfold emit_in, pos_state. rewrite Nat2N.id.
    rewrite (dget_combine pos_states rows n row _ (nth_error_nth' pos_states (l_S, []) ltac:(rewrite pos_states_length; exact L)) E pos_states_nodup).
    destruct (find _ row) as [q|] eqn:FI; [eexists; reflexivity|]. exfalso.
    pose proof (find_none _ _ FI p I) as X. cbv beta in X. assert (Y : existsb (N.eqb c) (snd p) = true); [|congruence].
    apply existsb_exists. exists c. split; auto. apply N.eqb_refl.
  - intros [L [me E]]. right. apply emit_of_In in E. destruct E as (row & cs & I & J & K).
    apply In_nth_error in I. destruct I as [n I]. apply nth_combine in I. destruct I as [I1 I2].
    exists n, row, (me, cs). split; auto. split; auto. split; auto.
    assert (n = N.to_nat i); [|lia].
    assert (LI : N.to_nat i < length pos_states) by (rewrite pos_states_length; lia).
    assert (LN : n < length pos_states) by (apply nth_error_Some; congruence).
    apply (proj1 (NoDup_nth pos_states (l_S, [])) pos_states_nodup); auto.
    apply (nth_error_nth _ _ (l_S, [])) in I1. exact I1.
Qed.
Definition with_number (c : N) : list N := states_with c (note_rows 0 pos_emit_rows (PositiveMap.empty _)).
Lemma with_number_iff c i : In i (with_number c) <-> (i < 256)%N /\ exists me, pos_emit_num (pos_state i) c = Some me.
Proof. exact (noted pos_emit_rows c i emit_rows_length). Qed.

(** ** char_state_tab.py and prob_emit.py *)

(** the characters whose states in char_state_tab.py are not those with a number *)
Definition odd_characters : list N :=
  [0x4e48; 0x5412; 0x54e9; 0x5925; 0x5f8c; 0x5fb5; 0x65bc; 0x6c88; 0x6e6e; 0x77fd; 0x8457; 0x8ddb; 0x8e60]%N.
Definition row_agrees (t : PositiveMap.t (list N)) (row : N * list N) : bool :=
  let have := states_with (fst row) t in
  forallb (fun i => existsb (N.eqb i) have || ((fst row =? 0x8ddb) && (i =? 192))%N) (snd row)
  && negb (length have =? 0)
  && (existsb (N.eqb (fst row)) odd_characters || forallb (fun i => existsb (N.eqb i) (snd row)) have).
Lemma rows_agree : let t := note_rows 0 pos_emit_rows (PositiveMap.empty _) in forallb (row_agrees t) pos_chars = true.
Proof. vm_compute. reflexivity. Qed.
Lemma row_agrees_all c ys : In (c, ys) pos_chars ->
  (forall i, In i ys -> In i (with_number c) \/ (c = 0x8ddb /\ i = 192)%N) /\ with_number c <> [] /\
  (In c odd_characters \/ forall i, In i (with_number c) -> In i ys).
Proof.
  intros I. pose proof rows_agree as X. cbv zeta in X. rewrite forallb_forall in X. specialize (X _ I).
  unfold row_agrees in X. cbv zeta in X. cbn [fst snd] in X. fold (with_number c) in X.
  apply andb_true_iff in X. destruct X as [X X3]. apply andb_true_iff in X. destruct X as [X1 X2]. split; [|split].
  - intros i J. rewrite forallb_forall in X1. specialize (X1 i J). apply orb_true_iff in X1. destruct X1 as [X1|X1].
    + left. apply existsb_exists in X1. destruct X1 as [k [K E]]. apply N.eqb_eq in E. subst k. exact K.
    + right. apply andb_true_iff in X1. rewrite !N.eqb_eq in X1. exact X1.
  - intros E. rewrite E in X2. discriminate X2.
  - apply orb_true_iff in X3. destruct X3 as [X3|X3]; [left|right].
    + apply existsb_exists in X3. destruct X3 as [k [K E]]. apply N.eqb_eq in E. subst k. exact K.
    + intros i J. rewrite forallb_forall in X3. specialize (X3 i J). apply existsb_exists in X3.
      destruct X3 as [k [K E]]. apply N.eqb_eq in E. subst k. exact K.
Qed.
