(** * Invariants of the initialisation machine *)
From Coq Require Import Lia.
From Verif Require Import PyBase PyNum ModelSeg ModelDict ModelInit SpecInit.

(** which pcs hold self.lock *)
Definition in_crit (c : pc) : bool :=
  match c with
  | PCheck | PInit _ | PInitSet _ | PInitUnset _ | PInitPath | PLock _
  | PPassed | PGotFreq _ | PGot _ _ | PRaised _ | PDead => false
  | _ => true
  end.

(** which writing lock is held *)
Definition in_w (c : pc) : option nat :=
  match c with
  | PPeekUnlock _ l | PBuild _ _ l | PBuildFreq _ _ l _ | PBuildTotal _ _ l _ | PTemp _ _ l
  | PDump _ _ l _ _ _ | PRename _ _ l _ | PWunlock _ l | PWunlockExn l _ => Some l
  | _ => None
  end.

(** a dictionary was loaded and [initialized] is not yet set: what is known about
    the attributes *)
Definition loaded (c : pc) (m : mem) (x : freqs * Z) : Prop :=
  match c with
  | PLoadFreq _ y | PBuildFreq _ _ _ y => y = x
  | PLoadTotal _ y | PBuildTotal _ _ _ y => y = x /\ m_freq m = fst x
  | PTemp _ _ _ | PRename _ _ _ _ | PWunlock _ _ | PDel _ | PSetInit =>
      m_freq m = fst x /\ m_total m = snd x
  | PDump _ _ _ _ y _ => m_freq m = fst x /\ m_total m = snd x /\ y = x
  | _ => False
  end.

Definition has_loaded (c : pc) : bool :=
  match c with
  | PLoadFreq _ _ | PBuildFreq _ _ _ _ | PLoadTotal _ _ | PBuildTotal _ _ _ _
  | PTemp _ _ _ | PRename _ _ _ _ | PWunlock _ _ | PDel _ | PSetInit | PDump _ _ _ _ _ _ => true
  | _ => false
  end.

(** between the test of line 110 and line 163 *)
Definition loading (c : pc) : bool :=
  match c with
  | PName _ | PIsfile _ _ | PMtime _ _ | PMtime2 _ _ _ | PLoad _ _ | PWget _ _ | PWset _ _ _
  | PWlock _ _ _ | PBuild _ _ _ | PWunlockExn _ _ | PUnlockExn _ => true
  | _ => has_loaded c
  end.

Definition passed (c : pc) : bool :=
  match c with PUnlock | PPassed | PGotFreq _ | PGot _ _ => true | _ => false end.

(** pcs that check_initialized and initialize() reach *)
Definition plain (c : pc) : bool :=
  match c with PInit (Some _) | PInitSet _ | PInitUnset _ => false | _ => true end.

Section Inv.
  Variable e : env.
  Variable tok_of proc_of : nat -> nat.

  Notation proc t := (proc_of (tok_of t)).

  (** *** locks *)
  Record locks_ok (s : state) : Prop := {
    lo_self : forall t, in_crit (s_pc s t) = true -> s_lock s (LSelf (tok_of t)) = Some (t, 1);
    lo_self_inv : forall k t d, s_lock s (LSelf k) = Some (t, d) ->
      tok_of t = k /\ d = 1 /\ (in_crit (s_pc s t) = true \/ s_pc s t = PDead);
    lo_w : forall t l, in_w (s_pc s t) = Some l -> s_lock s (LWriting (proc t) l) = Some (t, 1);
    lo_w_inv : forall i l t d, s_lock s (LWriting i l) = Some (t, d) ->
      proc t = i /\ d = 1 /\ (in_w (s_pc s t) = Some l \/ s_pc s t = PDead);
  }.

  Lemma upd_same {A} (f : nat -> A) i x : upd f i x i = x.
  Proof. unfold upd. now rewrite Nat.eqb_refl. Qed.
  Lemma upd_other {A} (f : nat -> A) i x j : j <> i -> upd f i x j = f j.
  Proof. unfold upd. intros H. apply Nat.eqb_neq in H. now rewrite H. Qed.

  Lemma start_locks s : start s -> locks_ok s.
  Proof.
    intros [H1 H2 H3 H4 H5]. split; intros.
    - destruct (H1 t) as [Q|Q]; rewrite Q in H; discriminate.
    - rewrite H3 in H. discriminate.
    - destruct (H1 t) as [Q|Q]; rewrite Q in H; discriminate.
    - rewrite H3 in H. discriminate.
  Qed.

  Lemma lock_eqb_eq a b : lock_eqb a b = true <-> a = b.
  Proof.
    destruct a, b; simpl; try (split; [discriminate|congruence]).
    - rewrite Nat.eqb_eq. split; congruence.
    - rewrite andb_true_iff, !Nat.eqb_eq. split; [intros []|intros [= -> ->]]; subst; auto.
  Qed.

  (** the three ways a step treats the locks *)
  Definition keeps (t : nat) (s s' : state) : Prop :=
    (forall l, s_lock s' l = s_lock s l) /\ in_crit (s_pc s' t) = in_crit (s_pc s t)
    /\ in_w (s_pc s' t) = in_w (s_pc s t).

  Lemma locks_keeps t s s' : locks_ok s -> keeps t s s' -> (forall u, u <> t -> s_pc s' u = s_pc s u) ->
    s_pc s t <> PDead -> locks_ok s'.
  Proof.
    intros [A B C D] (K1&K2&K3) O ND. split; intros.
    - rewrite K1. apply A. destruct (Nat.eq_dec t0 t) as [->|N]; [congruence|].
      rewrite <- O; auto.
    - rewrite K1 in H. destruct (B _ _ _ H) as (X&Y&Z). split; [exact X|]. split; [exact Y|].
      destruct (Nat.eq_dec t0 t) as [->|N].
      + left. destruct Z; [congruence|contradiction].
      + rewrite (O _ N). exact Z.
    - rewrite K1. apply C. destruct (Nat.eq_dec t0 t) as [->|N]; [congruence|].
      rewrite <- O; auto.
    - rewrite K1 in H. destruct (D _ _ _ _ H) as (X&Y&Z). split; [exact X|]. split; [exact Y|].
      destruct (Nat.eq_dec t0 t) as [->|N].
      + left. destruct Z; [congruence|contradiction].
      + rewrite (O _ N). exact Z.
  Qed.

  Lemma acquire_some o t x : acquire o t = Some x -> (forall d, o <> Some (t, d)) -> o = None /\ x = (t, 1).
  Proof.
    destruct o as [[u d]|]; simpl.
    - destruct (u =? t)%nat eqn:E; [|discriminate]. apply Nat.eqb_eq in E. subst.
      intros _ H. now elim (H d).
    - intros [= <-] _. auto.
  Qed.

  Lemma acquired_inv s t l c s' : acquired s t l c = Some s' ->
    exists o, acquire (s_lock s l) t = Some o /\ s' = goto (with_lock s l (Some o)) t c.
  Proof.
    unfold acquired. destruct (acquire _ t) as [o|]; [|discriminate]. intros [= <-]. eauto.
  Qed.

  Ltac pcs := repeat match goal with
    | H : s_pc _ ?t = _ |- context [s_pc _ ?t] => rewrite H
    | H : s_pc ?s ?t = _, H' : context [s_pc ?s ?t] |- _ =>
        lazymatch type of H' with s_pc s t = _ => fail | _ => rewrite H in H' end
    end.

  Lemma step_pc t s s' : step e tok_of proc_of t s s' ->
    (forall u, u <> t -> s_pc s' u = s_pc s u) /\ s_pc s t <> PDead.
  Proof.
    intros H.
    destruct H; try (match goal with H : acquired _ _ _ _ = Some _ |- _ =>
       apply acquired_inv in H; destruct H as (o&?&->) end);
      (split;
       [ intros u N; repeat match goal with |- context [match ?x with _ => _ end] => destruct x end;
         simpl; now rewrite upd_other
       | try congruence ]).
    destruct H as [H|[(q&x&k&H)|(q&H)]]; congruence.
  Qed.

  Lemma lock_eqb_refl a : lock_eqb a a = true.
  Proof. now apply lock_eqb_eq. Qed.

  Lemma locks_take_self s t c : locks_ok s -> s_lock s (LSelf (tok_of t)) = None ->
    in_crit c = true -> in_w c = None -> in_w (s_pc s t) = None -> s_pc s t <> PDead ->
    locks_ok (goto (with_lock s (LSelf (tok_of t)) (Some (t, 1))) t c).
  Proof.
    intros [A B C D] Hn Hc Hw Hw' ND. split; simpl; intros.
    - destruct (Nat.eq_dec t0 t) as [->|N]; [now rewrite Nat.eqb_refl|].
      rewrite upd_other in H by assumption. apply A in H.
      destruct (tok_of t0 =? tok_of t)%nat eqn:Q; [|exact H].
      apply Nat.eqb_eq in Q. rewrite Q in H. congruence.
    - destruct (k =? tok_of t)%nat eqn:Q.
      + injection H as <- <-. apply Nat.eqb_eq in Q. rewrite upd_same. auto.
      + destruct (B _ _ _ H) as (X&Y&Z). rewrite upd_other. auto. intros ->.
        apply Nat.eqb_neq in Q. congruence.
    - destruct (Nat.eq_dec t0 t) as [->|N]; [rewrite upd_same in H; congruence|].
      rewrite upd_other in H by assumption. auto.
    - destruct (D _ _ _ _ H) as (X&Y&Z). destruct (Nat.eq_dec t0 t) as [->|N].
      + destruct Z; congruence.
      + rewrite upd_other by assumption. auto.
  Qed.

  Lemma locks_drop_self s t c : locks_ok s -> in_crit (s_pc s t) = true ->
    in_crit c = false -> in_w c = None -> in_w (s_pc s t) = None ->
    locks_ok (released s t (LSelf (tok_of t)) c).
  Proof.
    intros L Hc' Hc Hw Hw'. pose proof (lo_self s L _ Hc') as Hh.
    destruct L as [A B C D]. unfold released. rewrite Hh. split; simpl; intros.
    - destruct (Nat.eq_dec t0 t) as [->|N]; [rewrite upd_same in H; congruence|].
      rewrite upd_other in H by assumption. apply A in H.
      destruct (tok_of t0 =? tok_of t)%nat eqn:Q; [|exact H].
      apply Nat.eqb_eq in Q. rewrite Q in H. congruence.
    - destruct (k =? tok_of t)%nat eqn:Q; [discriminate|].
      destruct (B _ _ _ H) as (X&Y&Z). rewrite upd_other. auto. intros ->.
      apply Nat.eqb_neq in Q. congruence.
    - destruct (Nat.eq_dec t0 t) as [->|N]; [rewrite upd_same in H; congruence|].
      rewrite upd_other in H by assumption. auto.
    - destruct (D _ _ _ _ H) as (X&Y&Z). destruct (Nat.eq_dec t0 t) as [->|N].
      + destruct Z as [Z|Z]; rewrite Z in *; discriminate.
      + rewrite upd_other by assumption. auto.
  Qed.

  Lemma locks_take_w s t l c : locks_ok s -> s_lock s (LWriting (proc t) l) = None ->
    in_crit c = in_crit (s_pc s t) -> in_w c = Some l -> in_w (s_pc s t) = None -> s_pc s t <> PDead ->
    locks_ok (goto (with_lock s (LWriting (proc t) l) (Some (t, 1))) t c).
  Proof.
    intros [A B C D] Hn Hc Hw Hw' ND. split; simpl; intros.
    - destruct (Nat.eq_dec t0 t) as [->|N].
      + apply A. rewrite upd_same in H. congruence.
      + rewrite upd_other in H by assumption. auto.
    - destruct (B _ _ _ H) as (X&Y&Z). destruct (Nat.eq_dec t0 t) as [->|N].
      + rewrite upd_same, Hc. destruct Z; [auto|contradiction].
      + rewrite upd_other by assumption. auto.
    - destruct (Nat.eq_dec t0 t) as [->|N].
      + rewrite upd_same in H. rewrite Hw in H. injection H as <-. rewrite !Nat.eqb_refl. reflexivity.
      + rewrite upd_other in H by assumption. apply C in H.
        destruct (_ && _) eqn:Q; [|exact H].
        apply andb_true_iff in Q. rewrite !Nat.eqb_eq in Q. destruct Q as [Q1 Q2].
        rewrite Q1, Q2 in H. congruence.
    - destruct (_ && _) eqn:Q.
      + apply andb_true_iff in Q. rewrite !Nat.eqb_eq in Q. destruct Q as [-> ->].
        injection H as <- <-. rewrite upd_same. auto.
      + destruct (D _ _ _ _ H) as (X&Y&Z). destruct (Nat.eq_dec t0 t) as [->|N].
        * destruct Z; congruence.
        * rewrite upd_other by assumption. auto.
  Qed.

  Lemma locks_drop_w s t l c : locks_ok s ->
    in_crit c = in_crit (s_pc s t) -> in_w c = None -> in_w (s_pc s t) = Some l ->
    locks_ok (released s t (LWriting (proc t) l) c).
  Proof.
    intros L Hc Hw Hw'. pose proof (lo_w s L _ _ Hw') as Hh.
    assert (ND : s_pc s t <> PDead) by (intros Q; rewrite Q in Hw'; discriminate).
    destruct L as [A B C D]. unfold released. rewrite Hh. split; simpl; intros.
    - destruct (Nat.eq_dec t0 t) as [->|N].
      + apply A. rewrite upd_same in H. congruence.
      + rewrite upd_other in H by assumption. auto.
    - destruct (B _ _ _ H) as (X&Y&Z). destruct (Nat.eq_dec t0 t) as [->|N].
      + rewrite upd_same, Hc. destruct Z; [auto|contradiction].
      + rewrite upd_other by assumption. auto.
    - destruct (Nat.eq_dec t0 t) as [->|N]; [rewrite upd_same in H; congruence|].
      rewrite upd_other in H by assumption. apply C in H.
      destruct (_ && _) eqn:Q; [|exact H].
      apply andb_true_iff in Q. rewrite !Nat.eqb_eq in Q. destruct Q as [Q1 Q2].
      rewrite Q1, Q2 in H. congruence.
    - destruct (_ && _) eqn:Q; [discriminate|].
      destruct (D _ _ _ _ H) as (X&Y&Z). destruct (Nat.eq_dec t0 t) as [->|N].
      + exfalso. destruct Z as [Z|Z]; [|contradiction]. rewrite Hw' in Z.
        injection Z as ->. rewrite X, !Nat.eqb_refl in Q. discriminate.
      + rewrite upd_other by assumption. auto.
  Qed.

  Lemma locks_step t s s' : step e tok_of proc_of t s s' -> locks_ok s -> locks_ok s'.
  Proof.
    intros H L. pose proof (step_pc _ _ _ H) as [O ND].
    destruct H; cbv zeta in *;
      try (apply (locks_keeps t s); [exact L| |exact O|exact ND]; split;
           [ intros l'; repeat match goal with |- context [match ?x with _ => _ end] => destruct x end; reflexivity
           | repeat match goal with |- context [match ?x with _ => _ end] =>
               lazymatch x with context [match _ with _ => _ end] => fail | _ => destruct x end end;
             simpl; rewrite upd_same; pcs; split; reflexivity ]).
    - apply acquired_inv in H0. destruct H0 as (o&Ha&->).
      apply acquire_some in Ha.
      2:{ intros d Hd. destruct (lo_self_inv s L _ _ _ Hd) as (_&_&[X|X]); rewrite H in X; discriminate. }
      destruct Ha as [Hn ->]. apply locks_take_self; auto; now rewrite H.
    - apply acquired_inv in H0. destruct H0 as (o&Ha&->).
      apply acquire_some in Ha.
      2:{ intros d Hd. destruct (lo_w_inv s L _ _ _ _ Hd) as (_&_&[X|X]); rewrite H in X; discriminate. }
      destruct Ha as [Hn ->]. apply locks_take_w; auto; now rewrite H.
    - apply locks_drop_w; auto; now rewrite H.
    - apply acquired_inv in H0. destruct H0 as (o&Ha&->).
      apply acquire_some in Ha.
      2:{ intros d Hd. destruct (lo_w_inv s L _ _ _ _ Hd) as (_&_&[X|X]); rewrite H in X; discriminate. }
      destruct Ha as [Hn ->]. apply locks_take_w; auto; now rewrite H.
    - apply (locks_keeps t s); [exact L| |exact O|exact ND].
      split; [reflexivity|]. simpl. rewrite upd_same.
      destruct H as [H|[(q&x&k&H)|(q&H)]]; rewrite H; split; reflexivity.
    - apply locks_drop_w; auto; now rewrite H.
    - apply locks_drop_self; auto; now rewrite H.
    - apply locks_drop_w; auto; now rewrite H.
    - apply locks_drop_self; auto; now rewrite H.
  Qed.

  Lemma locks_kill s i : locks_ok s -> locks_ok (kill tok_of proc_of s i).
  Proof.
    intros [A B C D]. split; simpl; intros.
    - destruct (_ =? i)%nat; [discriminate|auto].
    - destruct (B _ _ _ H) as (X&Y&Z). destruct (_ =? i)%nat; auto.
    - destruct (_ =? i)%nat; [discriminate|auto].
    - destruct (D _ _ _ _ H) as (X&Y&Z). destruct (_ =? i)%nat; auto.
  Qed.

  Lemma locks_exec may s s' : start s -> exec e tok_of proc_of may s s' -> locks_ok s'.
  Proof.
    intros S X. induction X; [now apply start_locks|].
    destruct H.
    - eapply locks_step; eauto.
    - now apply locks_kill.
    - destruct IHX as [A B C D]. split; simpl; auto.
  Qed.

  (** *** data *)
  Definition got_ok (c : pc) (m : mem) : Prop :=
    match c with
    | PGotFreq fr => fr = m_freq m
    | PGot fr total => fr = m_freq m /\ total = m_total m
    | _ => True
    end.

  Definition complete (x : freqs * Z) : Prop :=
    (exists b, gen_pfdict (file_lines b) = Ok x) \/ (exists b, e_load e b = Some x).

  Record data_ok (s : state) : Prop := {
    do_plain : forall t, plain (s_pc s t) = true;
    do_loading : forall t, loading (s_pc s t) = true -> m_init (s_tok s (tok_of t)) = false;
    do_passed : forall t, passed (s_pc s t) = true -> m_init (s_tok s (tok_of t)) = true;
    do_init : forall k, m_init (s_tok s k) = true ->
      exists x, loads s k = [x] /\ m_freq (s_tok s k) = fst x /\ m_total (s_tok s k) = snd x;
    do_uninit : forall k, m_init (s_tok s k) = false ->
      loads s k = [] \/ exists u, tok_of u = k /\ (has_loaded (s_pc s u) = true \/ s_pc s u = PDead);
    do_loaded : forall t, has_loaded (s_pc s t) = true ->
      exists x, loads s (tok_of t) = [x] /\ loaded (s_pc s t) (s_tok s (tok_of t)) x;
    do_got : forall t, got_ok (s_pc s t) (s_tok s (tok_of t));
    do_dead : forall t u, s_pc s t = PDead -> proc u = proc t -> s_pc s u = PDead;
    do_log : forall k x, In (k, x) (s_log s) -> complete x;
    do_once : forall k, length (loads s k) <= 1;
  }.

  Lemma start_data s : start s -> data_ok s.
  Proof.
    intros [H1 H2 H3 H4 H5]. split; intros;
      try (destruct (H1 t) as [Q|Q]; rewrite Q in *; simpl in *; (discriminate || reflexivity || exact I)).
    - rewrite H2 in H. discriminate.
    - left. unfold loads. now rewrite H5.
    - rewrite H5 in H. destruct H.
    - unfold loads. rewrite H5. simpl. lia.
  Qed.

  Lemma has_loaded_loading c : has_loaded c = true -> loading c = true.
  Proof. destruct c; simpl; auto. Qed.
  Lemma loading_crit c : loading c = true -> in_crit c = true.
  Proof. destruct c; simpl; intros; (reflexivity || discriminate). Qed.
  Lemma loaded_has c m x : loaded c m x -> has_loaded c = true.
  Proof. destruct c; simpl; intros; (reflexivity || contradiction). Qed.

  Lemma crit_unique s t u : locks_ok s -> in_crit (s_pc s t) = true -> in_crit (s_pc s u) = true ->
    tok_of u = tok_of t -> u = t.
  Proof.
    intros L A B E. pose proof (lo_self s L _ A). pose proof (lo_self s L _ B). rewrite E in H0. congruence.
  Qed.

  (** steps that change nothing of a tokenizer *)
  Lemma data_silent t s s' : data_ok s -> s_pc s t <> PDead -> (forall u, u <> t -> s_pc s' u = s_pc s u) ->
    s_tok s' = s_tok s -> s_log s' = s_log s ->
    plain (s_pc s' t) = true -> s_pc s' t <> PDead ->
    (loading (s_pc s' t) = true -> m_init (s_tok s (tok_of t)) = false) ->
    (passed (s_pc s' t) = true -> m_init (s_tok s (tok_of t)) = true) ->
    got_ok (s_pc s' t) (s_tok s (tok_of t)) ->
    has_loaded (s_pc s' t) = has_loaded (s_pc s t) ->
    (forall x, loaded (s_pc s t) (s_tok s (tok_of t)) x -> loaded (s_pc s' t) (s_tok s (tok_of t)) x) ->
    data_ok s'.
  Proof.
    intros [D1 D2 D3 D4 D5 D6 D7 D8 D9 D10] ND O ET EL P ND' HL HP HG HH HX.
    assert (EO : forall k, loads s' k = loads s k) by (intros k; unfold loads; now rewrite EL).
    split; intros; rewrite ?ET, ?EO in *;
      try (match goal with x : nat |- _ => destruct (Nat.eq_dec x t) as [->|N]; [|rewrite (O _ N) in *] end; auto; fail).
    - auto.
    - destruct (D5 _ H) as [|(u&U1&U2)]; [auto|]. right. exists u. split; [exact U1|].
      destruct (Nat.eq_dec u t) as [->|N]; [|rewrite (O _ N); auto].
      rewrite HH. destruct U2; [auto|contradiction].
    - destruct (Nat.eq_dec t0 t) as [->|N].
      + rewrite HH in H. destruct (D6 _ H) as (x&X1&X2). exists x. auto.
      + rewrite (O _ N) in *. auto.
    - assert (N : t0 <> t) by congruence. rewrite (O _ N) in H.
      destruct (Nat.eq_dec u t) as [->|N']; [|rewrite (O _ N'); eauto].
      elim ND. eauto.
    - rewrite EL in H. eauto.
    - rewrite ?EO. auto.
  Qed.

  (** a dictionary was loaded or built *)
  Lemma data_load t s s' x : locks_ok s -> data_ok s -> (forall u, u <> t -> s_pc s' u = s_pc s u) ->
    s_tok s' = s_tok s -> s_log s' = (tok_of t, x) :: s_log s -> complete x ->
    loading (s_pc s t) = true -> has_loaded (s_pc s t) = false ->
    plain (s_pc s' t) = true -> s_pc s' t <> PDead -> got_ok (s_pc s' t) (s_tok s (tok_of t)) ->
    passed (s_pc s' t) = false ->
    loaded (s_pc s' t) (s_tok s (tok_of t)) x ->
    data_ok s'.
  Proof.
    intros L [D1 D2 D3 D4 D5 D6 D7 D8 D9 D10] O ET EL CX A1 A2 P ND' HG HP HX.
    assert (ND : s_pc s t <> PDead) by (intros Q; rewrite Q in A1; discriminate).
    assert (E0 : loads s (tok_of t) = []).
    { destruct (D5 _ (D2 _ A1)) as [|(u&U1&[U2|U2])]; [assumption| |].
      - assert (u = t) by (apply (crit_unique s); auto using loading_crit, has_loaded_loading).
        subst. congruence.
      - elim ND. eapply D8; [exact U2|]. now rewrite U1. }
    assert (EO : forall k, k <> tok_of t -> loads s' k = loads s k).
    { intros k N. unfold loads. rewrite EL. simpl.
      destruct (tok_of t =? k)%nat eqn:Q; [apply Nat.eqb_eq in Q; congruence|reflexivity]. }
    assert (E1 : loads s' (tok_of t) = [x]).
    { unfold loads in *. rewrite EL. simpl. rewrite Nat.eqb_refl. simpl. now rewrite E0. }
    split; intros; rewrite ?ET in *.
    - destruct (Nat.eq_dec t0 t) as [->|N]; [assumption|rewrite (O _ N); auto].
    - destruct (Nat.eq_dec t0 t) as [->|N]; [auto|rewrite (O _ N) in *; auto].
    - destruct (Nat.eq_dec t0 t) as [->|N]; [congruence|rewrite (O _ N) in *; auto].
    - destruct (Nat.eq_dec k (tok_of t)) as [->|N].
      + rewrite (D2 _ A1) in H. discriminate.
      + rewrite EO by assumption. auto.
    - destruct (Nat.eq_dec k (tok_of t)) as [->|N].
      + right. exists t. split; [reflexivity|]. left. eapply loaded_has; eauto.
      + rewrite EO by assumption. destruct (D5 _ H) as [|(u&U1&U2)]; [auto|]. right. exists u.
        split; [exact U1|]. rewrite O by congruence. exact U2.
    - destruct (Nat.eq_dec t0 t) as [->|N].
      + exists x. auto.
      + rewrite (O _ N) in *. destruct (Nat.eq_dec (tok_of t0) (tok_of t)) as [Q|Q].
        * elim N. apply (crit_unique s); auto using loading_crit, has_loaded_loading.
        * rewrite EO by assumption. auto.
    - destruct (Nat.eq_dec t0 t) as [->|N]; [assumption|rewrite (O _ N); auto].
    - assert (N : t0 <> t) by congruence. rewrite (O _ N) in H.
      destruct (Nat.eq_dec u t) as [->|N']; [|rewrite (O _ N'); eauto].
      elim ND. eauto.
    - rewrite EL in H. destruct H as [[= <- <-]|H]; [assumption|eauto].
    - destruct (Nat.eq_dec k (tok_of t)) as [->|N].
      + rewrite E1. simpl. lia.
      + rewrite EO by assumption. auto.
  Qed.

  (** the loading thread stores an attribute *)
  Lemma data_store t s s' m x : locks_ok s -> data_ok s -> (forall u, u <> t -> s_pc s' u = s_pc s u) ->
    (forall k, k <> tok_of t -> s_tok s' k = s_tok s k) -> s_tok s' (tok_of t) = m -> s_log s' = s_log s ->
    loaded (s_pc s t) (s_tok s (tok_of t)) x ->
    plain (s_pc s' t) = true -> s_pc s' t <> PDead -> got_ok (s_pc s' t) m ->
    loaded (s_pc s' t) m x /\ m_init m = false /\ passed (s_pc s' t) = false \/
    (m_init m = true /\ loading (s_pc s' t) = false /\ has_loaded (s_pc s' t) = false /\
     m_freq m = fst x /\ m_total m = snd x) ->
    data_ok s'.
  Proof.
    intros L [D1 D2 D3 D4 D5 D6 D7 D8 D9 D10] O ET EM EL A1 P ND' HG HX.
    pose proof (loaded_has _ _ _ A1) as A2. pose proof (has_loaded_loading _ A2) as A3.
    pose proof (loading_crit _ A3) as A4.
    assert (ND : s_pc s t <> PDead) by (intros Q; rewrite Q in A3; discriminate).
    assert (E0 : loads s (tok_of t) = [x]).
    { destruct (D6 _ A2) as (y&Y1&Y2). rewrite Y1. f_equal.
      destruct (s_pc s t) eqn:Epc; simpl in *; try contradiction; intuition; subst; try congruence;
        destruct x, y; simpl in *; congruence. }
    assert (EO : forall k, loads s' k = loads s k) by (intros k; unfold loads; now rewrite EL).
    split; intros; rewrite ?EO in *.
    - destruct (Nat.eq_dec t0 t) as [->|N]; [assumption|rewrite (O _ N); auto].
    - destruct (Nat.eq_dec t0 t) as [->|N].
      + rewrite EM. intuition congruence.
      + rewrite (O _ N) in *. destruct (Nat.eq_dec (tok_of t0) (tok_of t)) as [Q|Q].
        * elim N. apply (crit_unique s); auto using loading_crit.
        * rewrite ET by assumption. auto.
    - destruct (Nat.eq_dec t0 t) as [->|N].
      + rewrite EM. intuition congruence.
      + rewrite (O _ N) in *. destruct (Nat.eq_dec (tok_of t0) (tok_of t)) as [Q|Q].
        * apply D3 in H. rewrite Q, (D2 _ A3) in H. discriminate.
        * rewrite ET by assumption. auto.
    - destruct (Nat.eq_dec k (tok_of t)) as [->|N].
      + rewrite EM in *. exists x. intuition congruence.
      + rewrite ET in * by assumption. auto.
    - destruct (Nat.eq_dec k (tok_of t)) as [->|N].
      + rewrite EM in H. right. exists t. split; [reflexivity|]. left.
        destruct HX as [(X&_)|(X&_)]; [|congruence]. eapply loaded_has; eauto.
      + rewrite ET in H by assumption. destruct (D5 _ H) as [|(u&U1&U2)]; [auto|]. right. exists u.
        split; [exact U1|]. rewrite O by congruence. exact U2.
    - destruct (Nat.eq_dec t0 t) as [->|N].
      + exists x. rewrite EM. split; [assumption|]. intuition congruence.
      + rewrite (O _ N) in *. destruct (Nat.eq_dec (tok_of t0) (tok_of t)) as [Q|Q].
        * elim N. apply (crit_unique s); auto using loading_crit, has_loaded_loading.
        * rewrite ET by assumption. auto.
    - destruct (Nat.eq_dec t0 t) as [->|N]; [now rewrite EM|].
      rewrite (O _ N). destruct (Nat.eq_dec (tok_of t0) (tok_of t)) as [Q|Q].
      + destruct (passed (s_pc s t0)) eqn:Hp.
        * apply D3 in Hp. rewrite Q, (D2 _ A3) in Hp. discriminate.
        * destruct (s_pc s t0); simpl in *; (discriminate || exact I).
      + rewrite ET by assumption. auto.
    - assert (N : t0 <> t) by congruence. rewrite (O _ N) in H.
      destruct (Nat.eq_dec u t) as [->|N']; [|rewrite (O _ N'); eauto].
      elim ND. eauto.
    - rewrite EL in H. eauto.
    - rewrite ?EO. auto.
  Qed.

  Ltac dm := repeat match goal with |- context [match ?x with _ => _ end] =>
               lazymatch x with context [match _ with _ => _ end] => fail | _ => destruct x eqn:? end end.

  Lemma data_step t s s' : step e tok_of proc_of t s s' -> locks_ok s -> data_ok s -> data_ok s'.
  Proof.
    intros H L D. pose proof (step_pc _ _ _ H) as [O ND].
    pose proof (do_plain s D t) as Pl. pose proof (do_loading s D t) as Ld.
    pose proof (do_passed s D t) as Ps. pose proof (do_got s D t) as Gt.
    destruct H; cbv zeta in *;
      try (match goal with H : acquired _ _ _ _ = Some _ |- _ =>
             apply acquired_inv in H; destruct H as (o&?&->) end);
      try match goal with H : _ \/ (exists q x k, _) \/ _ |- _ => destruct H as [H|[(q&x&k&H)|(q&H)]] end;
      match goal with H : s_pc s t = _ |- _ => rewrite H in Pl, Ld, Ps, Gt; rename H into HPC end;
      simpl in Pl, Ld, Ps, Gt; try discriminate Pl;
      try (apply (data_silent t s);
           [ exact D | exact ND | exact O
           | dm; reflexivity | dm; reflexivity
           | dm; simpl; rewrite upd_same; reflexivity
           | dm; simpl; rewrite upd_same; discriminate
           | dm; simpl; rewrite upd_same; simpl; (exact Ld || discriminate || congruence)
           | dm; simpl; rewrite upd_same; simpl; (exact Ps || discriminate || congruence)
           | dm; simpl; rewrite upd_same; simpl; (exact I || reflexivity || auto)
           | dm; simpl; rewrite upd_same, HPC; reflexivity
           | dm; simpl; rewrite upd_same, HPC; simpl; tauto ]; fail).
    - apply (data_load t s _ x); auto; simpl; rewrite ?upd_same, ?HPC; try reflexivity; try discriminate; try exact I.
      right. eauto.
    - destruct (do_loaded s D t) as (y&Y1&Y2); [now rewrite HPC|]. rewrite HPC in Y2. simpl in Y2. subst y.
      apply (data_store t s _ (set_freq (s_tok s (tok_of t)) (fst x)) x); auto; simpl;
        rewrite ?upd_same, ?HPC; simpl; try reflexivity; try discriminate; auto;
        try (intros k N; now rewrite upd_other).
    - destruct (do_loaded s D t) as (y&Y1&Y2); [now rewrite HPC|]. rewrite HPC in Y2. simpl in Y2. destruct Y2 as [<- Y2].
      apply (data_store t s _ (set_total (s_tok s (tok_of t)) (snd x)) x); auto; simpl;
        rewrite ?upd_same, ?HPC; simpl; try reflexivity; try discriminate; auto;
        try (intros k N; now rewrite upd_other).
    - apply (data_load t s _ x); auto; simpl; rewrite ?upd_same, ?HPC; try reflexivity; try discriminate; try exact I.
      left. unfold build in H0. destruct (s_fs s _) as [f|]; [eauto|discriminate].
    - destruct (do_loaded s D t) as (y&Y1&Y2); [now rewrite HPC|]. rewrite HPC in Y2. simpl in Y2. subst y.
      apply (data_store t s _ (set_freq (s_tok s (tok_of t)) (fst x)) x); auto; simpl;
        rewrite ?upd_same, ?HPC; simpl; try reflexivity; try discriminate; auto;
        try (intros k N; now rewrite upd_other).
    - destruct (do_loaded s D t) as (y&Y1&Y2); [now rewrite HPC|]. rewrite HPC in Y2. simpl in Y2. destruct Y2 as [<- Y2].
      apply (data_store t s _ (set_total (s_tok s (tok_of t)) (snd x)) x); auto; simpl;
        rewrite ?upd_same, ?HPC; simpl; try reflexivity; try discriminate; auto;
        try (intros k N; now rewrite upd_other).
    - apply (data_silent t s); auto; simpl; rewrite ?upd_same, ?HPC; try reflexivity; try discriminate; auto.
      simpl. intros x [A B]. split; [exact A|]. split; [exact B|]. rewrite A, B. now destruct x.
    - destruct (do_loaded s D t) as (y&Y1&Y2); [now rewrite HPC|]. rewrite HPC in Y2. simpl in Y2. destruct Y2 as [Y2 Y3].
      apply (data_store t s _ (set_init (s_tok s (tok_of t)) true) y); auto; simpl;
        rewrite ?upd_same, ?HPC; simpl; try reflexivity; try discriminate; auto;
        try (intros k N; now rewrite upd_other).
      right. auto 10.
  Qed.

  Lemma data_kill s i : data_ok s -> data_ok (kill tok_of proc_of s i).
  Proof.
    intros [D1 D2 D3 D4 D5 D6 D7 D8 D9 D10].
    split; simpl; intros; unfold loads in *; simpl in *;
      try (destruct (_ =? i)%nat; [first [discriminate|reflexivity|exact I]|eauto]; fail).
    - auto.
    - destruct (D5 _ H) as [|(u&U1&U2)]; [auto|]. right. exists u. split; [exact U1|].
      destruct (_ =? i)%nat; auto.
    - destruct (proc t =? i)%nat eqn:Q.
      + apply Nat.eqb_eq in Q. rewrite H0, Q, Nat.eqb_refl. reflexivity.
      + destruct (proc u =? i)%nat; [reflexivity|eauto].
    - eauto.
    - apply D10.
  Qed.

  Lemma data_exec may s s' : start s -> exec e tok_of proc_of may s s' -> data_ok s'.
  Proof.
    intros S X. pose proof (fun s1 => locks_exec may s s1 S) as LX.
    induction X; [now apply start_data|].
    destruct H.
    - eapply data_step; eauto.
    - now apply data_kill.
    - destruct IHX as [D1 D2 D3 D4 D5 D6 D7 D8 D9 D10]. split; simpl; eauto.
  Qed.

  (** *** progress *)
  Definition can_step (s : state) (t : nat) : Prop := exists s', step e tok_of proc_of t s s'.

  Definition waits (c : pc) : bool :=
    match c with PLock _ | PPeekLock _ _ | PWlock _ _ _ => true | _ => false end.

  Lemma acquired_free s t l c : s_lock s l = None -> exists s', acquired s t l c = Some s'.
  Proof. unfold acquired. intros ->. simpl. eauto. Qed.

  Lemma step_ready s t : data_ok s -> locks_ok s -> ~ finished (s_pc s t) -> waits (s_pc s t) = false -> can_step s t.
  Proof.
    intros D L F W. pose proof (do_plain s D t) as Pl. unfold can_step.
    destruct (s_pc s t) eqn:E; simpl in *; try discriminate; try (elim F; exact I);
      try (eexists; econstructor; eauto; fail).
    - destruct arg; [discriminate|]. eexists; eapply st_init_none; eauto.
    - destruct (s_fs s c) as [f|] eqn:Ef.
      + destruct (e_load e (f_bytes f)) as [x|] eqn:El.
        * eexists; eapply st_load_ok; eauto.
        * eexists; eapply st_load_fail; eauto. now rewrite Ef.
      + eexists; eapply st_load_fail; eauto. now rewrite Ef.
    - destruct (build e (s_fs s) (m_dict (s_tok s (tok_of t)))) as [x|x] eqn:Eb.
      + eexists; eapply st_build_ok; eauto.
      + eexists; eapply st_build_err; eauto.
    - exists (goto s t (PWunlock p l)). apply st_dump_fail with c. right. left. eauto.
  Qed.

  Lemma step_w s t l : data_ok s -> locks_ok s -> in_w (s_pc s t) = Some l -> can_step s t.
  Proof.
    intros D L W. apply step_ready; auto; destruct (s_pc s t); simpl in *; try discriminate; auto.
  Qed.

  Lemma step_wait_w s t l c : data_ok s -> locks_ok s ->
    s_pc s t = PPeekLock c l \/ (exists d, s_pc s t = PWlock c d l) ->
    can_step s t \/ exists v, proc v = proc t /\ can_step s v /\ in_crit (s_pc s v) = true.
  Proof.
    intros D L Q. destruct (s_lock s (LWriting (proc t) l)) as [[v d]|] eqn:E.
    - right. destruct (lo_w_inv s L _ _ _ _ E) as (A&_&[B|B]).
      + exists v. split; [exact A|]. split; [eapply step_w; eauto|]. destruct (s_pc s v); simpl in *; congruence.
      + exfalso. pose proof (do_dead s D v t B (eq_sym A)). destruct Q as [Q|[d' Q]]; congruence.
    - left. destruct Q as [Q|[d Q]].
      + destruct (acquired_free s t _ (PPeekUnlock c l) E) as [s' H]. exists s'. eapply st_peek_lock; eauto.
      + destruct (acquired_free s t _ (PBuild c d l) E) as [s' H]. exists s'. eapply st_wlock; eauto.
  Qed.

  Lemma progress s t : data_ok s -> locks_ok s -> ~ finished (s_pc s t) ->
    can_step s t \/ exists v, proc v = proc t /\ can_step s v /\ in_crit (s_pc s v) = true.
  Proof.
    intros D L F. destruct (waits (s_pc s t)) eqn:W; [|left; now apply step_ready].
    destruct (s_pc s t) eqn:E; try discriminate.
    - destruct (s_lock s (LSelf (tok_of t))) as [[u d]|] eqn:El.
      + right. destruct (lo_self_inv s L _ _ _ El) as (A&_&[B|B]).
        * assert (Pu : proc u = proc t) by now rewrite A.
          destruct (waits (s_pc s u)) eqn:Wu.
          -- destruct (s_pc s u) eqn:Eu; try discriminate.
             ++ destruct (step_wait_w s u l p0 D L) as [C|(v&V1&V2)]; [auto| |].
                ** exists u. rewrite Eu. auto.
                ** exists v. split; [congruence|exact V2].
             ++ destruct (step_wait_w s u l p0 D L) as [C|(v&V1&V2)]; [eauto| |].
                ** exists u. rewrite Eu. auto.
                ** exists v. split; [congruence|exact V2].
          -- exists u. split; [exact Pu|]. split; [|exact B]. apply step_ready; auto.
             destruct (s_pc s u); simpl in *; try discriminate; auto.
        * exfalso. pose proof (do_dead s D u t B). rewrite A in H. specialize (H eq_refl). congruence.
      + left. destruct (acquired_free s t _ (PPeek p) El) as [s' H]. exists s'. eapply st_lock; eauto.
    - eapply step_wait_w; eauto.
    - eapply step_wait_w; eauto.
  Qed.

  (** *** termination *)
  Definition rank (c : pc) : nat :=
    match c with
    | PInit _ => 40 | PInitSet _ => 39 | PInitUnset _ => 38 | PCheck => 38 | PInitPath => 37 | PLock _ => 36
    | PPeek _ => 35 | PPeekLock _ _ => 34 | PPeekUnlock _ _ => 33 | PTest _ => 32 | PName _ => 31
    | PIsfile _ _ => 30 | PMtime _ _ => 29 | PMtime2 _ _ _ => 28 | PLoad _ _ => 27 | PLoadFreq _ _ => 26
    | PLoadTotal _ _ => 25 | PWget _ _ => 24 | PWset _ _ _ => 23 | PWlock _ _ _ => 22 | PBuild _ _ _ => 21
    | PBuildFreq _ _ _ _ => 20 | PBuildTotal _ _ _ _ => 19 | PTemp _ _ _ => 18 | PDump _ _ _ _ _ _ => 17
    | PRename _ _ _ _ => 16 | PWunlock _ _ => 15 | PDel _ => 14 | PSetInit => 13 | PUnlock => 12
    | PWunlockExn _ _ => 11 | PUnlockExn _ => 10 | PPassed => 9 | PGotFreq _ => 8 | PGot _ _ => 7
    | PRaised _ => 6 | PDead => 5
    end.
  Definition rest (c : pc) : nat :=
    match c with PDump _ _ _ _ x k => length (e_dump e x) - k | _ => 0 end.

  Lemma rank_step t s s' : step e tok_of proc_of t s s' ->
    rank (s_pc s' t) < rank (s_pc s t) \/
    rank (s_pc s' t) = rank (s_pc s t) /\ rest (s_pc s' t) < rest (s_pc s t).
  Proof.
    intros H. destruct H; cbv zeta in *;
      try (match goal with H : acquired _ _ _ _ = Some _ |- _ =>
             apply acquired_inv in H; destruct H as (o&?&->) end);
      try match goal with H : _ \/ (exists q x k, _) \/ _ |- _ => destruct H as [H|[(q&x&k&H)|(q&H)]] end;
      match goal with H : s_pc s t = _ |- _ => rewrite H end;
      dm; simpl; rewrite ?upd_same; simpl; lia.
  Qed.
End Inv.
