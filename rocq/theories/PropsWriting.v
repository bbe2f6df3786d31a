(** * DICT_WRITING, jieba/__init__.py:105-109 and 142-161 (C74) *)
From Coq Require Import Lia.
From Verif Require Import PyBase PyRegex PyNum ModelFinalseg ModelSeg ModelDict ModelInit SpecInit ProofsBase ProofsInit
  DemoInit.

(** thread [t] builds the dictionary [p] or writes its cache: it is inside the [with]
    of line 144 *)
Definition building (p : option path) (c : pc) : bool :=
  match c with
  | PBuild q _ _ | PBuildFreq q _ _ _ | PBuildTotal q _ _ _ | PTemp q _ _ | PDump q _ _ _ _ _
  | PRename q _ _ _ | PWunlock q _ => opath_eqb q p
  | _ => false
  end.

Section Lock.
  Variable e : env.
  Variable tok_of proc_of : nat -> nat.

  Definition held_by_other (s : state) (L : lockid) (b : nat) : Prop :=
    exists u d, s_lock s L = Some (u, d) /\ u <> b.

  Lemma release_other s s' L b d u : s_lock s L = Some (u, d) -> u <> b ->
    s_lock s' L = release (s_lock s L) -> s_lock s' L = None \/ held_by_other s' L b.
  Proof.
    intros E N R. rewrite R, E. destruct d as [|[|d]]; simpl; auto.
    right. exists u, (S d). split; [|exact N]. rewrite R, E. reflexivity.
  Qed.

  Lemma held_step s s' L b t : held_by_other s L b -> t <> b -> step e tok_of proc_of t s s' ->
    s_lock s' L = None \/ held_by_other s' L b.
  Proof.
    intros (u&d&E&N) T X.
    assert (Same : s_lock s' L = s_lock s L -> s_lock s' L = None \/ held_by_other s' L b)
      by (intros R; right; exists u, d; rewrite R; auto).
    assert (Acq : forall l c, acquired s t l c = Some s' -> s_lock s' L = None \/ held_by_other s' L b).
    { intros l c A. unfold acquired in A. destruct (acquire (s_lock s l) t) as [o|] eqn:Q; [|discriminate].
      injection A as <-. destruct (lock_eqb L l) eqn:LE.
      - right. destruct o as [u' d']. exists u', d'. split; [simpl; now rewrite LE|].
        assert (u' = t); [|congruence].
        unfold acquire in Q. destruct (s_lock s l) as [[v dv]|]; [|now injection Q].
        destruct (v =? t)%nat; [now injection Q|discriminate].
      - apply Same. simpl. now rewrite LE. }
    assert (Rel : forall l c, s' = released s t l c -> s_lock s' L = None \/ held_by_other s' L b).
    { intros l c ->. destruct (lock_eqb L l) eqn:LE.
      - assert (L = l) as <-.
        { destruct L, l; simpl in LE; try discriminate.
          - apply Nat.eqb_eq in LE. now subst.
          - apply andb_prop in LE. destruct LE as [L1 L2]. apply Nat.eqb_eq in L1, L2. now subst. }
        eapply release_other; eauto. simpl. now rewrite LE.
      - apply Same. simpl. now rewrite LE. }
    inversion X; subst; eauto; try (apply Same; reflexivity).
    apply Same. now destruct (s_writing _ _ _).
  Qed.
End Lock.

Lemma exec_app e tok_of proc_of may a b c :
  exec e tok_of proc_of may a b -> exec e tok_of proc_of may b c -> exec e tok_of proc_of may a c.
Proof. intros A B. induction B; [exact A|]. eapply exec_snoc; eauto. Qed.

(** A thread looks into DICT_WRITING (line 106) while another one holds the lock that
    is there for its dictionary: it waits, and it goes on only after a moment when
    nobody held that lock (or it is killed). *)
Theorem C74_waits_for_the_writer :
  forall e tok_of proc_of may s0 s s' a b p l d,
    s_pc s0 b = PPeek p ->
    s_writing s0 (proc_of (tok_of b)) p = Some l ->
    s_lock s0 (LWriting (proc_of (tok_of b)) l) = Some (a, d) -> a <> b ->
    step e tok_of proc_of b s0 s ->
    exec e tok_of proc_of may s s' ->
    (s_pc s' b = PPeekLock p l \/ s_pc s' b = PDead) \/
    exists s1, exec e tok_of proc_of may s s1 /\ exec e tok_of proc_of may s1 s' /\
      s_lock s1 (LWriting (proc_of (tok_of b)) l) = None.
Proof.
  intros e tok_of proc_of may s0 s s' a b p l d P W L N X.
  set (LW := LWriting (proc_of (tok_of b)) l) in *.
  assert (S : s_pc s b = PPeekLock p l /\ held_by_other s LW b).
  { inversion X; subst; try congruence;
      try (match goal with H : _ \/ _ |- _ => destruct H as [H|[(?&?&?&H)|(?&H)]]; congruence end).
    match goal with H : s_pc s0 b = PPeek ?q |- _ => rewrite P in H; injection H as <- end.
    simpl. rewrite W. unfold upd. rewrite Nat.eqb_refl. split; [reflexivity|]. exists a, d. auto. }
  clear X P W L N a d s0. intros X.
  assert (Goal : (s_pc s' b = PPeekLock p l \/ s_pc s' b = PDead) /\ held_by_other s' LW b \/
    exists s1, exec e tok_of proc_of may s s1 /\ exec e tok_of proc_of may s1 s' /\ s_lock s1 LW = None).
  { induction X as [|s1 s2 X IH Y]; [left; destruct S; auto|].
    destruct IH as [[Pb Hb]|(s3&X1&X2&Z)].
    2:{ right. exists s3. split; [exact X1|]. split; [|exact Z]. eapply exec_snoc; eauto. }
    inversion Y as [t s2' T|proc|fs now M]; subst.
    - destruct (Nat.eq_dec t b) as [->|Nt].
      + exfalso. destruct Hb as (u&d&E&N). destruct Pb as [Pb|Pb].
        * inversion T; subst; try congruence;
            try (match goal with H : _ \/ _ |- _ => destruct H as [H|[(?&?&?&H)|(?&H)]]; congruence end).
          match goal with H : s_pc s1 b = PPeekLock _ _ |- _ => rewrite Pb in H; injection H as <- <- end.
          match goal with H : acquired _ _ _ _ = Some _ |- _ => unfold acquired in H; fold LW in H;
            rewrite E in H; simpl in H; apply Nat.eqb_neq in N; rewrite N in H; discriminate end.
        * inversion T; subst; try congruence;
            try (match goal with H : _ \/ _ |- _ => destruct H as [H|[(?&?&?&H)|(?&H)]]; congruence end).
      + destruct (held_step e tok_of proc_of s1 s2 LW b t Hb Nt T) as [Z|Z].
        * right. exists s2. split; [eapply exec_snoc; eauto|]. split; [constructor|exact Z].
        * left. split; [|exact Z]. now rewrite (proj1 (step_pc e tok_of proc_of t s1 s2 T) b (not_eq_sym Nt)).
    - left. split; [|exact Hb]. simpl. destruct (_ =? _)%nat; auto.
    - left. split; assumption. }
  destruct Goal as [[Q _]|Q]; auto.
Qed.
Print Assumptions C74_waits_for_the_writer.

(** ** The lock is there to be found

    the dictionary a thread is about to build, or builds, and the lock it does so under *)
Definition under_lock (c : pc) : option (option path * nat) :=
  match c with
  | PWlock q _ l | PBuild q _ l | PBuildFreq q _ l _ | PBuildTotal q _ l _ | PTemp q _ l | PDump q _ l _ _ _
  | PRename q _ l _ | PWunlock q l => Some (q, l)
  | _ => None
  end.

Lemma option_path_dec (a b : option path) : {a = b} + {a <> b}.
Proof. repeat decide equality. Qed.
Lemma opath_eqb_eq a b : opath_eqb a b = true <-> a = b.
Proof.
  destruct a, b; simpl; rewrite ?str_eqb_eq; split; congruence.
Qed.

(** what a step does to DICT_WRITING *)
Lemma step_writing e tok_of proc_of t s s' : step e tok_of proc_of t s s' ->
  s_writing s' = s_writing s \/
  exists p, ((exists c m, s_pc s t = PWset p c m) \/ s_pc s t = PDel p) /\
    forall i q, i <> proc_of (tok_of t) \/ q <> p -> s_writing s' i q = s_writing s i q.
Proof.
  assert (OT : forall p o i q, i <> proc_of (tok_of t) \/ q <> p ->
    upd (s_writing s) (proc_of (tok_of t)) (fun r => if opath_eqb r p then o else s_writing s (proc_of (tok_of t)) r) i q = s_writing s i q).
  { intros p o i q D. unfold upd. destruct (Nat.eqb_spec i (proc_of (tok_of t))) as [->|]; auto.
    destruct (opath_eqb q p) eqn:E; auto. apply opath_eqb_eq in E. subst. destruct D; congruence. }
  intros H. destruct H; try (match goal with H : acquired _ _ _ _ = Some _ |- _ =>
       apply acquired_inv in H; destruct H as (o&?&->) end); try (left; reflexivity).
  - left. now destruct (s_writing _ _ _).
  - right. exists p. split; [left; eauto|]. intros i q D. apply OT. exact D.
  - right. exists p. split; [right; auto|]. intros i q D. apply OT. exact D.
Qed.

Lemma step_own e tok_of proc_of t s s' p l : step e tok_of proc_of t s s' -> under_lock (s_pc s' t) = Some (p, l) ->
  (under_lock (s_pc s t) = Some (p, l) /\ s_writing s' = s_writing s) \/
  (exists c, s_pc s t = PWset p c l /\ s_writing s' (proc_of (tok_of t)) p = Some l).
Proof.
  intros H U. destruct H; try (match goal with H : acquired _ _ _ _ = Some _ |- _ =>
       apply acquired_inv in H; destruct H as (o&?&->) end);
    try (match goal with H : _ \/ _ |- _ => destruct H as [H|[(?&?&?&H)|(?&H)]] end);
    repeat match type of U with context [match ?x with Some _ => _ | None => _ end] => destruct x end;
    repeat match type of U with context [if ?x then _ else _] => destruct x end;
    simpl in U; rewrite ?upd_same in U; simpl in U; try discriminate;
    try (left; split; [match goal with H : s_pc s t = _ |- _ => rewrite H; exact U end|reflexivity]).
  { destruct (_ && _) in U; discriminate. }
  injection U as <- <-. right. eexists. split; [eassumption|]. simpl. unfold upd. rewrite Nat.eqb_refl.
  now rewrite (proj2 (opath_eqb_eq _ _) eq_refl).
Qed.

(** A thread that builds holds its lock, and the lock is in DICT_WRITING under the name
    of the dictionary, unless meanwhile another thread of the process registered a lock
    for the same dictionary or removed it. *)
Theorem C74_builder_is_registered :
  forall e tok_of proc_of may s0 s a p l,
    start s0 -> exec e tok_of proc_of may s0 s -> under_lock (s_pc s a) = Some (p, l) ->
    ((forall c, s_pc s a <> PWlock p c l) -> s_lock s (LWriting (proc_of (tok_of a)) l) = Some (a, 1)) /\
    (s_writing s (proc_of (tok_of a)) p = Some l \/
     exists b s1 s2,
       b <> a /\ proc_of (tok_of b) = proc_of (tok_of a) /\ exec e tok_of proc_of may s0 s1 /\
       step e tok_of proc_of b s1 s2 /\ exec e tok_of proc_of may s2 s /\
       under_lock (s_pc s1 a) = Some (p, l) /\ ((exists c m, s_pc s1 b = PWset p c m) \/ s_pc s1 b = PDel p)).
Proof.
  intros e tok_of proc_of may s0 s a p l ST X U. split.
  - intros NW. apply (@lo_w tok_of proc_of s (locks_exec e tok_of proc_of may s0 s ST X)).
    revert U NW. unfold under_lock, in_w. destruct (s_pc s a); intros E NW; try discriminate; injection E as -> ->; auto.
    exfalso. apply (NW c). reflexivity.
  - revert p l U. induction X as [|s1 s2 X IH Y]; intros p l U.
    { destruct (start_pc s0 ST a) as [E|E]; rewrite E in U; discriminate. }
    assert (KEEP : s_writing s2 (proc_of (tok_of a)) p = s_writing s1 (proc_of (tok_of a)) p ->
      under_lock (s_pc s1 a) = Some (p, l) ->
      s_writing s2 (proc_of (tok_of a)) p = Some l \/
      exists b r1 r2, b <> a /\ proc_of (tok_of b) = proc_of (tok_of a) /\ exec e tok_of proc_of may s0 r1 /\
       step e tok_of proc_of b r1 r2 /\ exec e tok_of proc_of may r2 s2 /\
       under_lock (s_pc r1 a) = Some (p, l) /\ ((exists c m, s_pc r1 b = PWset p c m) \/ s_pc r1 b = PDel p)).
    { intros W U1. destruct (IH p l U1) as [L|(b & r1 & r2 & N & P & X1 & T & X2 & R)]; [left; congruence|].
      right. exists b, r1, r2. split; auto. split; auto. split; auto. split; auto. split; auto. eapply exec_snoc; eauto. }
    inversion Y as [t s2' T|proc|fs now M]; subst.
    + destruct (Nat.eq_dec t a) as [->|N].
      * destruct (step_own _ _ _ _ _ _ _ _ T U) as [[U1 W]|[c [PC W]]]; [apply KEEP; [now rewrite W|exact U1]|left; exact W].
      * assert (PC : s_pc s2 a = s_pc s1 a) by (apply (step_pc e tok_of proc_of t s1 s2 T); auto).
        rewrite PC in U. destruct (step_writing _ _ _ _ _ _ T) as [W|(q & V & W)]; [apply KEEP; [now rewrite W|exact U]|].
        destruct (Nat.eq_dec (proc_of (tok_of t)) (proc_of (tok_of a))) as [EP|NP].
        2: { apply KEEP; [|exact U]. apply W. left. congruence. }
        destruct (option_path_dec q p) as [->|NQ].
        -- right. exists t, s1, s2. split; auto. split; auto. split; auto. split; auto. split; [constructor|]. auto.
        -- apply KEEP; [|exact U]. apply W. right. congruence.
    + apply KEEP; [reflexivity|]. simpl in U. destruct (_ =? _)%nat; [discriminate|exact U].
    + apply KEEP; [reflexivity|exact U].
Qed.
Print Assumptions C74_builder_is_registered.

(** ** That is all: two tokenizers of one process can build the same dictionary at the
    same time *)

(** thread [t] works on tokenizer [t]; one process; all tokenizers have "/u" *)
Definition own : nat -> nat := fun t => t.
Definition one_proc : nat -> nat := fun _ => 0.
Definition writing_start : state :=
  demo_state (one_file path_u file_1 1%Z) 5%Z (fun _ => new_mem demo_env (Some path_u)).
Notation run2 := (runf demo_env own one_proc).

(** both threads look into DICT_WRITING before one of them puts its lock there *)
Definition both_building : state :=
  run2 2 GiveUp 0 (run2 3 GiveUp 1 (run2 1 GiveUp 0 (run2 7 GiveUp 1 (run2 7 GiveUp 0 writing_start)))).

Theorem C74_one_builder_refuted :
  exists e (tok_of proc_of : nat -> nat) s0 s (t u : nat) (p : option path),
    start s0 /\ exec e tok_of proc_of (fun _ _ _ => False) s0 s /\
    t <> u /\ proc_of (tok_of t) = proc_of (tok_of u) /\ tok_of t <> tok_of u /\
    building p (s_pc s t) = true /\ building p (s_pc s u) = true.
Proof.
  exists demo_env, own, one_proc, writing_start, both_building, 0, 1, (Some path_u).
  split; [constructor; intros; try reflexivity; left; reflexivity|].
  split; [unfold both_building; repeat (eapply exec_app; [|apply runf_exec]); constructor|].
  split; [discriminate|]. split; [reflexivity|]. split; [discriminate|].
  split; vm_compute; reflexivity.
Qed.
Print Assumptions C74_one_builder_refuted.

(** the hypotheses of the theorem are met: thread 0 builds, thread 1 comes *)
Definition one_building : state := run2 4 GiveUp 1 (run2 12 GiveUp 0 writing_start).
Example C74_nonvacuous :
  start writing_start /\ exec demo_env own one_proc (fun _ _ _ => False) writing_start one_building /\
  building (Some path_u) (s_pc one_building 0) = true /\ under_lock (s_pc one_building 0) = Some (Some path_u, 0) /\
  s_pc one_building 1 = PPeekLock (Some path_u) 0 /\
  let s0 := run2 3 GiveUp 1 (run2 12 GiveUp 0 writing_start) in
  s_pc s0 1 = PPeek (Some path_u) /\ s_writing s0 0 (Some path_u) = Some 0 /\
  s_lock s0 (LWriting 0 0) = Some (0, 1) /\ s_pc (run2 1 GiveUp 1 s0) 1 = PPeekLock (Some path_u) 0 /\
  s_pc (run2 10 GiveUp 1 one_building) 1 = PPeekLock (Some path_u) 0 /\
  s_pc (run2 40 GiveUp 1 (run2 40 (WriteTo (path_tmp 1)) 0 one_building)) 1 = PGot (fst dict_1) (snd dict_1).
Proof.
  split; [constructor; intros; try reflexivity; left; reflexivity|].
  split; [unfold one_building; repeat (eapply exec_app; [|apply runf_exec]); constructor|].
  cbv zeta. repeat split; vm_compute; reflexivity.
Qed.
