(** * The one-step [initialize] of ModelWorld agrees with the small steps of ModelInit *)
From Coq Require Import Lia.
From Verif Require Import PyBase PyNum ModelFinalseg ModelSeg ModelDict ModelInit ModelWorld SpecInit ProofsBase ProofsInit ProofsCache.

(** thread [t] runs alone *)
Inductive alone (e : env) (tok_of proc_of : nat -> nat) (t : nat) (s : state) : state -> Prop :=
| alone_nil : alone e tok_of proc_of t s s
| alone_snoc s1 s2 : alone e tok_of proc_of t s s1 -> step e tok_of proc_of t s1 s2 -> alone e tok_of proc_of t s s2.

Section Solo.
  Variable e : env.
  Variable tok_of proc_of : nat -> nat.
  Variable t : nat.
  Notation k := (tok_of t).

  Variable m0 : mem.
  Variable fs0 : path -> option file.
  Variable now : Z.
  Variable arg : option path.

  (* after lines 94-102 *)
  Variable m1 : mem.
  Hypothesis M1 : init_arg e m0 arg = Some m1.

  Notation p1 := (m_dict m1).
  Notation c1 := (cache_path e m1 (m_dict m1)).
  Definition half (x : freqs * Z) : mem := set_freq m1 (fst x).
  Definition full (x : freqs * Z) : mem := set_total (set_freq m1 (fst x)) (snd x).

  Definition same_fs (fs fs' : path -> option file) : Prop := forall r, fs r = fs' r.

  (** what the run has done when it is at [c] *)
  Definition at_pc (c : pc) (m : mem) (fs : path -> option file) : Prop :=
    let pre := m = m1 /\ same_fs fs fs0 in
    match c with
    | PInit a => a = arg /\ m = m0 /\ same_fs fs fs0
    | PInitSet a => Some m1 = Some (set_init (set_dict m0 (Some a)) false) /\ m = m0 /\ same_fs fs fs0
    | PInitUnset a => m1 = set_init m false /\ p1 = Some a /\ same_fs fs fs0
    | PInitPath => pre
    | PLock p | PPeek p | PPeekLock p _ | PPeekUnlock p _ | PTest p => pre /\ p = p1
    | PName p => pre /\ p = p1 /\ m_init m1 = false
    | PIsfile p c => pre /\ p = p1 /\ m_init m1 = false /\ c = c1
    | PMtime p c => pre /\ p = p1 /\ m_init m1 = false /\ c = c1 /\ p1 <> None /\ exists f, fs0 c1 = Some f
    | PMtime2 p c tm => pre /\ p = p1 /\ m_init m1 = false /\ c = c1 /\ p1 <> None /\
        exists f, fs0 c1 = Some f /\ tm = f_mtime f
    | PLoad p c => pre /\ p = p1 /\ m_init m1 = false /\ c = c1 /\
        exists f, fs0 c1 = Some f /\ from_cache e fs0 p1 c1 = Ok (e_load e (f_bytes f))
    | PLoadFreq p x => pre /\ m_init m1 = false /\ from_cache e fs0 p1 c1 = Ok (Some x)
    | PLoadTotal p x => m = half x /\ same_fs fs fs0 /\ m_init m1 = false /\ from_cache e fs0 p1 c1 = Ok (Some x)
    | PWget p c | PWset p c _ | PWlock p c _ | PBuild p c _ =>
        pre /\ p = p1 /\ m_init m1 = false /\ c = c1 /\ from_cache e fs0 p1 c1 = Ok None
    | PBuildFreq p c _ x => pre /\ c = c1 /\ m_init m1 = false /\ from_cache e fs0 p1 c1 = Ok None /\
        build e fs0 p1 = Ok x
    | PBuildTotal p c _ x => m = half x /\ same_fs fs fs0 /\ c = c1 /\ m_init m1 = false /\
        from_cache e fs0 p1 c1 = Ok None /\ build e fs0 p1 = Ok x
    | PTemp p c _ => c = c1 /\ m_init m1 = false /\ from_cache e fs0 p1 c1 = Ok None /\
        exists x, build e fs0 p1 = Ok x /\ m = full x /\ same_fs fs fs0
    | PDump p c _ q x n => c = c1 /\ m_init m1 = false /\ from_cache e fs0 p1 c1 = Ok None /\
        build e fs0 p1 = Ok x /\ m = full x /\ fs0 q = None /\
        same_fs fs (upd_fs fs0 q (Some (mkFile (firstn n (e_dump e x)) now)))
    | PRename p c _ q => c = c1 /\ m_init m1 = false /\ from_cache e fs0 p1 c1 = Ok None /\
        exists x, build e fs0 p1 = Ok x /\ m = full x /\ fs0 q = None /\
        same_fs fs (upd_fs fs0 q (Some (mkFile (e_dump e x) now)))
    | PWunlock _ _ | PDel _ => exists how, exists x, m_init m1 = false /\ from_cache e fs0 p1 c1 = Ok None /\
        build e fs0 p1 = Ok x /\ m = full x /\ same_fs fs (dumped_fs e how fs0 now c1 x)
    | PSetInit => exists how fs', load_dict e how fs0 now m1 = (set_init m true, fs', None) /\ same_fs fs fs'
    | PUnlock | PPassed | PGotFreq _ | PGot _ _ =>
        exists how fs', load_dict e how fs0 now m1 = (m, fs', None) /\ same_fs fs fs'
    | PWunlockExn _ x | PUnlockExn x | PRaised x =>
        exists how fs', load_dict e how fs0 now m1 = (m, fs', Some x) /\ same_fs fs fs'
    | PCheck | PDead => False
    end.

  Definition at_state (s : state) : Prop :=
    at_pc (s_pc s t) (s_tok s k) (s_fs s) /\ s_now s = now.

  Lemma same_build fs p : same_fs fs fs0 -> build e fs p = build e fs0 p.
  Proof. unfold build. intros H. now rewrite H. Qed.

  Ltac dm := repeat match goal with |- context [match ?x with _ => _ end] =>
               lazymatch x with context [match _ with _ => _ end] => fail | _ => destruct x eqn:? end end.

  Lemma same_upd fs fs' q x : same_fs fs fs' -> same_fs (upd_fs fs q x) (upd_fs fs' q x).
  Proof. intros H r. unfold upd_fs. destruct (str_eqb r q); auto. Qed.

  Lemma solo_step s s' : at_state s -> step e tok_of proc_of t s s' -> at_state s'.
  Proof.
    intros [A N] H. unfold at_state. destruct H; cbv zeta in *;
      try (match goal with H : acquired _ _ _ _ = Some _ |- _ =>
             apply acquired_inv in H; destruct H as (o&?&->) end);
      try match goal with H : _ \/ (exists q x k, _) \/ _ |- _ => destruct H as [H|[(q&x&n&H)|(q&H)]] end;
      match goal with H : s_pc s t = _ |- _ => rewrite H in A; rename H into HPC end;
      cbn [at_pc] in A; try (elim A; fail);
      (split; [|dm; exact N]).
    - (* PInit None *)
      simpl. rewrite upd_same. cbn [at_pc]. destruct A as (->&->&A). unfold init_arg in M1.
      destruct arg as [[|ch a]|].
      + injection M1 as <-. auto.
      + destruct H0 as [E|E]; discriminate.
      + injection M1 as <-. auto.
    - (* PInit Some *)
      simpl. rewrite upd_same. destruct A as (E&->&A). rewrite <- E in M1. unfold init_arg in M1.
      destruct a as [|ch a]; [now elim H0|].
      destruct (opath_eqb _ _ && _); [discriminate|]. cbn [at_pc]. auto.
    - (* PInitSet *)
      simpl. rewrite !upd_same. cbn [at_pc]. destruct A as (E&->&A). injection E as E. rewrite E. simpl. auto.
    - (* PInitUnset *)
      simpl. rewrite !upd_same. cbn [at_pc]. destruct A as (E&P&A). auto.
    - (* PInitPath *)
      simpl. rewrite !upd_same. cbn [at_pc]. destruct A as (->&A). auto.
    - simpl. rewrite !upd_same. exact A.
    - simpl. rewrite !upd_same. destruct (s_writing _ _ _); exact A.
    - simpl. rewrite !upd_same. exact A.
    - simpl. rewrite !upd_same. exact A.
    - (* PTest *)
      simpl. rewrite !upd_same. destruct A as ((E&A)&->). rewrite E.
      destruct (m_init m1) eqn:Ei; cbn [at_pc]; [|auto].
      exists Dumped, fs0. unfold load_dict. rewrite Ei. auto.
    - (* PName *)
      simpl. rewrite !upd_same. cbn [at_pc]. destruct A as ((E&A)&->&Ei). rewrite E. auto.
    - (* PIsfile *)
      simpl. rewrite !upd_same. destruct A as ((E&A)&->&Ei&->). rewrite (A c1).
      destruct (fs0 c1) as [f|] eqn:Ef.
      + destruct p1 as [a|] eqn:Ep; cbn [at_pc]; rewrite ?Ep.
        * split; [auto|]. split; [auto|]. split; [auto|]. split; [auto|]. split; [discriminate|]. eauto.
        * split; [auto|]. split; [auto|]. split; [auto|]. split; [auto|]. exists f. split; [auto|].
          unfold from_cache. now rewrite Ef.
      + cbn [at_pc]. split; [auto|]. split; [auto|]. split; [auto|]. split; [auto|]. unfold from_cache. now rewrite Ef.
    - (* PMtime *)
      simpl. rewrite !upd_same. destruct A as ((E&A)&->&Ei&->&Np&(f&Ef)). rewrite (A c1), Ef. cbn [at_pc]. eauto 10.
    - (* PMtime2 *)
      simpl. rewrite !upd_same. destruct A as ((E&A)&->&Ei&->&Np&(f&Ef&->)). rewrite (A (dict_path e p1)).
      destruct p1 as [a|] eqn:Ep; [|now elim Np]. simpl.
      destruct (fs0 a) as [d|] eqn:Ed.
      + destruct (f_mtime d <? f_mtime f)%Z eqn:Et; cbn [at_pc]; rewrite ?Ep.
        * split; [auto|]. split; [auto|]. split; [auto|]. split; [auto|]. exists f. split; [auto|].
          unfold from_cache. now rewrite Ef, Ed, Et.
        * split; [auto|]. split; [auto|]. split; [auto|]. split; [auto|].
          unfold from_cache. now rewrite Ef, Ed, Et.
      + cbn [at_pc]. exists Dumped, fs0. split; [|auto]. unfold load_dict. rewrite Ei, Ep.
        unfold from_cache. rewrite Ef, Ed, E. reflexivity.
    - (* PLoad ok *)
      simpl. rewrite !upd_same. destruct A as ((E&A)&->&Ei&->&(g&Eg&Fc)). cbn [at_pc].
      rewrite (A c1), Eg in H0. injection H0 as <-. rewrite H1 in Fc. auto.
    - (* PLoad fail *)
      simpl. rewrite !upd_same. destruct A as ((E&A)&->&Ei&->&(g&Eg&Fc)). cbn [at_pc].
      rewrite (A c1), Eg in H0. rewrite H0 in Fc. auto 10.
    - (* PLoadFreq *)
      simpl. rewrite !upd_same. cbn [at_pc]. destruct A as ((E&A)&Ei&Fc). rewrite E. auto.
    - (* PLoadTotal *)
      simpl. rewrite !upd_same. cbn [at_pc]. destruct A as (E&A&Ei&Fc). exists Dumped, fs0.
      unfold load_dict. rewrite Ei, Fc, E. auto.
    - (* PWget *) destruct (s_writing s (proc_of (tok_of t)) p); simpl; rewrite upd_same; exact A.
    - simpl. rewrite !upd_same. exact A.
    - simpl. rewrite !upd_same. exact A.
    - (* build ok *)
      simpl. rewrite !upd_same. cbn [at_pc]. destruct A as ((E&A)&->&Ei&->&Fc).
      rewrite E, same_build in H0 by exact A. auto 10.
    - (* build err *)
      simpl. rewrite !upd_same. cbn [at_pc]. destruct A as ((E&A)&->&Ei&->&Fc).
      rewrite E, same_build in H0 by exact A. exists Dumped, fs0. unfold load_dict. rewrite Ei, Fc, H0, E. auto.
    - (* PBuildFreq *)
      simpl. rewrite !upd_same. cbn [at_pc]. destruct A as ((E&A)&->&Ei&Fc&B). rewrite E. auto 10.
    - (* PBuildTotal *)
      simpl. rewrite !upd_same. cbn [at_pc]. destruct A as (E&A&->&Ei&Fc&B). rewrite E.
      split; [auto|]. split; [auto|]. split; [auto|]. exists x. auto.
    - (* dump fail at PTemp *)
      simpl. rewrite !upd_same. cbn [at_pc]. destruct A as (->&Ei&Fc&x&B&E&A).
      exists (NotDumped None), x. auto 10.
    - simpl. rewrite !upd_same. cbn [at_pc]. destruct A as (->&Ei&Fc&B&E&Q&A).
      exists (NotDumped (Some (q, firstn n (e_dump e x)))), x. auto 10.
    - simpl. rewrite !upd_same. cbn [at_pc]. destruct A as (->&Ei&Fc&x&B&E&Q&A).
      exists (NotDumped (Some (q, e_dump e x))), x. auto 10.
    - (* PTemp *)
      simpl. rewrite !upd_same. cbn [at_pc]. destruct A as (->&Ei&Fc&x&B&E&A).
      assert (Ex : (m_freq (s_tok s k), m_total (s_tok s k)) = x) by (rewrite E; simpl; now destruct x).
      rewrite Ex. split; [auto|]. split; [auto|]. split; [auto|]. split; [auto|]. split; [auto|]. split.
      + rewrite <- (A q). assumption.
      + rewrite N. now apply same_upd.
    - (* PDump *)
      simpl. rewrite !upd_same. cbn [at_pc]. destruct A as (->&Ei&Fc&B&E&Q&A).
      split; [auto|]. split; [auto|]. split; [auto|]. split; [auto|]. split; [auto|]. split; [auto|].
      intros r. rewrite N. unfold upd_fs. destruct (str_eqb r q) eqn:Er; [reflexivity|].
      rewrite (A r). unfold upd_fs. now rewrite Er.
    - (* dumped *)
      simpl. rewrite !upd_same. cbn [at_pc]. destruct A as (->&Ei&Fc&B&E&Q&A).
      rewrite firstn_all in A. eauto 10.
    - (* rename *)
      simpl. rewrite !upd_same. cbn [at_pc]. destruct A as (->&Ei&Fc&x&B&E&Q&A).
      exists Dumped, x. split; [auto|]. split; [auto|]. split; [auto|]. split; [auto|].
      rewrite (A q) in H0. rewrite upd_fs_same in H0. injection H0 as <-.
      intros r. simpl. unfold upd_fs at 1 3. destruct (str_eqb r c1); [reflexivity|].
      unfold upd_fs. destruct (str_eqb r q) eqn:Er.
      + apply str_eqb_eq in Er. subst. auto.
      + rewrite (A r). unfold upd_fs. now rewrite Er.
    - simpl. rewrite !upd_same. exact A.
    - (* PDel *)
      simpl. rewrite !upd_same. cbn [at_pc]. destruct A as (how&x&Ei&Fc&B&E&A).
      exists how, (dumped_fs e how fs0 now c1 x). split; [|exact A].
      unfold load_dict. rewrite Ei, Fc, B, E. reflexivity.
    - simpl. rewrite !upd_same. exact A.
    - simpl. rewrite !upd_same. exact A.
    - simpl. rewrite !upd_same. exact A.
    - simpl. rewrite !upd_same. exact A.
    - simpl. rewrite !upd_same. exact A.
    - simpl. rewrite !upd_same. exact A.
  Qed.
End Solo.

(** Running alone from the beginning of initialize(arg), a thread ends as the
    one-step [initialize] says for some outcome of writing the cache. *)
Theorem initialize_alone :
  forall e tok_of proc_of t s s' arg,
    s_pc s t = PInit arg -> alone e tok_of proc_of t s s' ->
    (s_pc s' t = PPassed ->
       exists how fs', initialize e how (s_fs s) (s_now s) (s_tok s (tok_of t)) arg
                       = (s_tok s' (tok_of t), fs', None) /\ forall r, s_fs s' r = fs' r) /\
    (forall x, s_pc s' t = PRaised x ->
       exists how fs', initialize e how (s_fs s) (s_now s) (s_tok s (tok_of t)) arg
                       = (s_tok s' (tok_of t), fs', Some x) /\ forall r, s_fs s' r = fs' r).
Proof.
  intros e tok_of proc_of t s s' arg P A.
  destruct (init_arg e (s_tok s (tok_of t)) arg) as [m1|] eqn:M1.
  - assert (I : at_state e tok_of t (s_tok s (tok_of t)) (s_fs s) (s_now s) arg m1 s').
    { induction A.
      - split; [|reflexivity]. rewrite P. cbn [at_pc]. repeat split.
      - eapply solo_step; eauto. }
    destruct I as [I _]. unfold initialize. rewrite M1. split.
    + intros Q. rewrite Q in I. exact I.
    + intros x Q. rewrite Q in I. exact I.
  - (* the early return of line 97 *)
    assert (I : (s' = s) \/ ((s_pc s' t = PPassed \/ (exists fr, s_pc s' t = PGotFreq fr) \/ (exists fr n, s_pc s' t = PGot fr n))
                /\ s_tok s' = s_tok s /\ s_fs s' = s_fs s)).
    { unfold init_arg in M1. destruct arg as [[|ch a]|]; try discriminate.
      destruct (opath_eqb _ _ && _) eqn:E; [|discriminate].
      induction A as [|s1 s2 A [->|([Q|[[fr Q]|(fr&n&Q)]]&I2&I3)] H]; [auto| | | |].
      - right. destruct H; try congruence.
        + rewrite P in H. injection H as <-. destruct H0; discriminate.
        + rewrite P in H. injection H as <-. simpl. rewrite E, upd_same. auto.
        + destruct H as [H|[(?&?&?&H)|(?&H)]]; congruence.
      - right. destruct H; try congruence.
        + destruct H as [H|[(?&?&?&H)|(?&H)]]; congruence.
        + simpl. rewrite upd_same. eauto 10.
      - right. destruct H; try congruence.
        + destruct H as [H|[(?&?&?&H)|(?&H)]]; congruence.
        + simpl. rewrite upd_same. eauto 10.
      - destruct H; try congruence.
        destruct H as [H|[(?&?&?&H)|(?&H)]]; congruence. }
    unfold initialize. rewrite M1. destruct I as [->|([Q|[[fr Q]|(fr&n&Q)]]&I2&I3)];
      (split; [intros Q'|intros x Q']); try congruence.
    exists Dumped, (s_fs s). rewrite I2, I3. auto.
Qed.

Print Assumptions initialize_alone.
