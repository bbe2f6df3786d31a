(** * The cache file invariant of initialize() *)
From Coq Require Import Lia.
From Verif Require Import PyBase PyNum ModelSeg ModelDict ModelInit SpecInit ProofsBase ProofsInit.

(** local variables of a thread *)
Definition pc_path (c : pc) : option (option path) :=
  match c with
  | PLock p | PPeek p | PPeekLock p _ | PPeekUnlock p _ | PTest p | PName p | PIsfile p _ | PMtime p _
  | PMtime2 p _ _ | PLoad p _ | PLoadFreq p _ | PLoadTotal p _ | PWget p _ | PWset p _ _ | PWlock p _ _
  | PBuild p _ _ | PBuildFreq p _ _ _ | PBuildTotal p _ _ _ | PTemp p _ _ | PDump p _ _ _ _ _
  | PRename p _ _ _ | PWunlock p _ | PDel p => Some p
  | _ => None
  end.
Definition pc_cache (c : pc) : option path :=
  match c with
  | PIsfile _ c | PMtime _ c | PMtime2 _ c _ | PLoad _ c | PWget _ c | PWset _ c _ | PWlock _ c _
  | PBuild _ c _ | PBuildFreq _ c _ _ | PBuildTotal _ c _ _ | PTemp _ c _ | PDump _ c _ _ _ _
  | PRename _ c _ _ => Some c
  | _ => None
  end.
Definition pc_temp (c : pc) : option path :=
  match c with PDump _ _ _ q _ _ | PRename _ _ _ q => Some q | _ => None end.

Section Cache.
  Variable e : env.
  Variable tok_of proc_of : nat -> nat.
  Variable s0 : state.
  Hypothesis SU : setup e s0.
  (* whether the caches are known to be right at the beginning *)
  Variable R : Prop.

  Notation dc k := (dict_of s0 k).
  Notation cc k := (cache_of e s0 k).

  (** what a thread relies on about the files *)
  Definition file_fact (c : pc) (m : mem) (fs : path -> option file) (p : option path) (cp : path) : Prop :=
    match c with
    | PMtime _ _ => exists f, fs cp = Some f
    | PMtime2 _ _ tm => exists f, fs cp = Some f /\
        forall d x, R -> fs (dict_path e p) = Some d -> (f_mtime d < tm)%Z -> e_load e (f_bytes f) = Some x ->
                    build e fs p = Ok x
    | PLoad _ _ => forall f x, R -> fs cp = Some f -> e_load e (f_bytes f) = Some x -> build e fs p = Ok x
    | PBuildFreq _ _ _ x => build e fs p = Ok x
    | PBuildTotal _ _ _ x => build e fs p = Ok x /\ m_freq m = fst x
    | PTemp _ _ _ => build e fs p = Ok (m_freq m, m_total m)
    | PDump _ _ _ q x k => build e fs p = Ok x /\ exists f, fs q = Some f /\ f_bytes f = firstn k (e_dump e x)
    | PRename _ _ _ q => exists x f, build e fs p = Ok x /\ fs q = Some f /\ f_bytes f = e_dump e x
    | PWunlockExn _ y | PUnlockExn y => build e fs p = Err y
    | _ => True
    end.

  Record cache_ok (s : state) : Prop := {
    co_dict : forall k, dict_of s k = dc k;
    co_cache : forall k, cache_path e (s_tok s k) (dc k) = cc k;
    co_time : forall q f, s_fs s q = Some f -> (f_mtime f <= s_now s)%Z;
    co_right : R -> caches_right e s0 (s_fs s);
    co_path : forall t p, pc_path (s_pc s t) = Some p -> p = dc (tok_of t);
    co_pcache : forall t c, pc_cache (s_pc s t) = Some c -> c = cc (tok_of t);
    co_temp : forall t q, pc_temp (s_pc s t) = Some q -> (exists c, e_temp e c q = true) /\ exists f, s_fs s q = Some f;
    co_temp2 : forall t u q, pc_temp (s_pc s t) = Some q -> pc_temp (s_pc s u) = Some q -> t = u;
    co_fact : forall t, file_fact (s_pc s t) (s_tok s (tok_of t)) (s_fs s) (dc (tok_of t)) (cc (tok_of t));
  }.

  Lemma start_cache : start s0 -> (R -> caches_right e s0 (s_fs s0)) -> cache_ok s0.
  Proof.
    intros [H1 H2 H3 H4 H5] CR. split; intros; auto;
      try (destruct (H1 t) as [Q|Q]; rewrite Q in *; simpl in *; (discriminate || exact I)).
    eapply su_time; eauto.
  Qed.

  (** writing a temporary file does not touch dictionaries and caches *)
  Lemma temp_apart q c k : e_temp e c q = true -> q <> dict_path e (dc k) /\ q <> cc k.
  Proof.
    intros H. split; intros ->.
    - rewrite (su_temp_dict e s0 SU) in H. discriminate.
    - rewrite (su_temp_cache e s0 SU) in H. discriminate.
  Qed.

  Lemma upd_fs_same fs q x : upd_fs fs q x q = x.
  Proof. unfold upd_fs. now rewrite (proj2 (str_eqb_eq q q) eq_refl). Qed.
  Lemma upd_fs_other fs q x r : r <> q -> upd_fs fs q x r = fs r.
  Proof.
    unfold upd_fs. intros N. destruct (str_eqb r q) eqn:E; [|reflexivity].
    apply str_eqb_eq in E. contradiction.
  Qed.

  Lemma build_ext fs fs' p : fs' (dict_path e p) = fs (dict_path e p) -> build e fs' p = build e fs p.
  Proof. unfold build. now intros ->. Qed.

  Lemma usable_ext fs fs' p f : fs' (dict_path e p) = fs (dict_path e p) -> usable e fs' p f -> usable e fs p f.
  Proof. unfold usable, dict_path. destruct p; [|auto]. now intros ->. Qed.

  (** the facts survive changes elsewhere *)
  Lemma fact_ext c m fs fs' p cp :
    fs' (dict_path e p) = fs (dict_path e p) -> fs' cp = fs cp ->
    (forall q, pc_temp c = Some q -> fs' q = fs q) ->
    file_fact c m fs p cp -> file_fact c m fs' p cp.
  Proof.
    intros A B C. pose proof (build_ext fs fs' p A) as E.
    destruct c; simpl in *; rewrite ?A, ?B, ?E, ?C by reflexivity; auto.
  Qed.

  Definition mem_fact (c : pc) : bool :=
    match c with PBuildTotal _ _ _ _ | PTemp _ _ _ => true | _ => false end.

  Lemma mem_fact_crit c : mem_fact c = true -> in_crit c = true.
  Proof. destruct c; simpl; intros; (reflexivity || discriminate). Qed.

  Lemma fact_mem c m m' fs p cp : mem_fact c = false -> file_fact c m fs p cp -> file_fact c m' fs p cp.
  Proof. destruct c; simpl; intros A B; (discriminate || exact B). Qed.

  Definition same_setup (m m' : mem) : Prop :=
    m_dict m' = m_dict m /\ m_tmpdir m' = m_tmpdir m /\ m_cache m' = m_cache m.

  Lemma same_refl m : same_setup m m.
  Proof. repeat split. Qed.

  (** a step that does not touch the files *)
  Lemma cache_nofs t s s' : locks_ok tok_of proc_of s -> cache_ok s ->
    (forall u, u <> t -> s_pc s' u = s_pc s u) -> s_fs s' = s_fs s -> s_now s' = s_now s ->
    (forall k, same_setup (s_tok s k) (s_tok s' k)) ->
    (forall k, k <> tok_of t \/ in_crit (s_pc s t) = false -> s_tok s' k = s_tok s k) ->
    (forall p, pc_path (s_pc s' t) = Some p -> p = dc (tok_of t)) ->
    (forall c, pc_cache (s_pc s' t) = Some c -> c = cc (tok_of t)) ->
    (forall q, pc_temp (s_pc s' t) = Some q -> pc_temp (s_pc s t) = Some q) ->
    file_fact (s_pc s' t) (s_tok s' (tok_of t)) (s_fs s) (dc (tok_of t)) (cc (tok_of t)) ->
    cache_ok s'.
  Proof.
    intros L [C1 C2 C3 C4 C5 C6 C7 C8 C9] O EF EN ES EM HP HC HT HF.
    split; intros; rewrite ?EF, ?EN in *.
    - unfold dict_of in *. destruct (ES k) as (-> &_). apply C1.
    - rewrite <- (C2 k). unfold cache_path. destruct (ES k) as (_& -> & ->). reflexivity.
    - eauto.
    - auto.
    - destruct (Nat.eq_dec t0 t) as [->|N]; [auto|]. rewrite (O _ N) in H. auto.
    - destruct (Nat.eq_dec t0 t) as [->|N]; [auto|]. rewrite (O _ N) in H. auto.
    - destruct (Nat.eq_dec t0 t) as [->|N]; [eauto|]. rewrite (O _ N) in H. eauto.
    - destruct (Nat.eq_dec t0 t) as [->|N], (Nat.eq_dec u t) as [->|N']; auto.
      + rewrite (O _ N') in H0. eapply C8; eauto.
      + rewrite (O _ N) in H. eapply C8; eauto.
      + rewrite (O _ N) in H. rewrite (O _ N') in H0. eapply C8; eauto.
    - destruct (Nat.eq_dec t0 t) as [->|N]; [auto|]. rewrite (O _ N).
      destruct (Nat.eq_dec (tok_of t0) (tok_of t)) as [Q|Q].
      + destruct (in_crit (s_pc s t)) eqn:Hc.
        * apply (fact_mem _ (s_tok s (tok_of t0))); [|apply C9].
          destruct (mem_fact (s_pc s t0)) eqn:Hm; [|reflexivity].
          elim N. eapply crit_unique; eauto. now apply mem_fact_crit.
        * rewrite EM by auto. apply C9.
      + rewrite EM by auto. apply C9.
  Qed.

  (** a step that changes files other than dictionaries *)
  Lemma cache_fs t s s' : cache_ok s ->
    (forall u, u <> t -> s_pc s' u = s_pc s u) -> s_now s' = s_now s -> s_tok s' = s_tok s ->
    (forall k, s_fs s' (dict_path e (dc k)) = s_fs s (dict_path e (dc k))) ->
    (forall q f, s_fs s' q = Some f -> s_fs s q = Some f \/ (f_mtime f <= s_now s)%Z) ->
    (forall k, s_fs s' (cc k) = s_fs s (cc k) \/
       exists x f, s_fs s' (cc k) = Some f /\ build e (s_fs s) (dc k) = Ok x /\ f_bytes f = e_dump e x) ->
    (forall u q, u <> t -> pc_temp (s_pc s u) = Some q -> s_fs s' q = s_fs s q) ->
    (forall p, pc_path (s_pc s' t) = Some p -> p = dc (tok_of t)) ->
    (forall c, pc_cache (s_pc s' t) = Some c -> c = cc (tok_of t)) ->
    (forall q, pc_temp (s_pc s' t) = Some q -> (exists c, e_temp e c q = true) /\ (exists f, s_fs s' q = Some f)
        /\ (pc_temp (s_pc s t) = Some q \/ s_fs s q = None)) ->
    file_fact (s_pc s' t) (s_tok s (tok_of t)) (s_fs s') (dc (tok_of t)) (cc (tok_of t)) ->
    cache_ok s'.
  Proof.
    intros [C1 C2 C3 C4 C5 C6 C7 C8 C9] O EN ET ED EQ EC EX HP HC HT HF.
    assert (EB : forall k, build e (s_fs s') (dc k) = build e (s_fs s) (dc k)) by (intros; now apply build_ext).
    split; intros; rewrite ?EN, ?ET in *.
    - unfold dict_of in *. rewrite ET. apply C1.
    - apply C2.
    - destruct (EQ _ _ H); eauto.
    - intros k f x Hf Hu Hl. rewrite EB. destruct (EC k) as [Q|(y&g&Q&B&D)].
      + rewrite Q in Hf. eapply C4; eauto. eapply usable_ext; [|exact Hu]. apply ED.
      + rewrite Q in Hf. injection Hf as <-. rewrite D, (su_marshal e s0 SU) in Hl. congruence.
    - destruct (Nat.eq_dec t0 t) as [->|N]; [auto|]. rewrite (O _ N) in H. auto.
    - destruct (Nat.eq_dec t0 t) as [->|N]; [auto|]. rewrite (O _ N) in H. auto.
    - destruct (Nat.eq_dec t0 t) as [->|N].
      + destruct (HT _ H) as (A&B&_). auto.
      + rewrite (O _ N) in H. destruct (C7 _ _ H) as [A B]. split; [exact A|].
        rewrite (EX _ _ N H). exact B.
    - assert (W : forall v q', v <> t -> pc_temp (s_pc s v) = Some q' -> pc_temp (s_pc s' t) = Some q' -> False).
      { intros v q' N A B. destruct (HT _ B) as (_&_&[T|T]).
        - elim N. eapply C8; eauto.
        - destruct (C7 _ _ A) as [_ [f Hf]]. congruence. }
      destruct (Nat.eq_dec t0 t) as [->|N], (Nat.eq_dec u t) as [->|N']; auto.
      + rewrite (O _ N') in H0. elim (W _ _ N' H0 H).
      + rewrite (O _ N) in H. elim (W _ _ N H H0).
      + rewrite (O _ N) in H. rewrite (O _ N') in H0. eapply C8; eauto.
    - destruct (Nat.eq_dec t0 t) as [->|N]; [auto|]. rewrite (O _ N). specialize (C9 t0).
      destruct (EC (tok_of t0)) as [Q|(y&g&Q&B&D)].
      + eapply fact_ext; [apply ED|exact Q| |exact C9]. intros q Hq. eapply EX; eauto.
      + pose proof (EB (tok_of t0)) as E1. pose proof (ED (tok_of t0)) as E2.
        pose proof (fun q => EX t0 q N) as E3.
        destruct (s_pc s t0) eqn:Epc; simpl in *; rewrite ?E1, ?E2, ?Q; auto.
        * eauto.
        * exists g. split; [reflexivity|]. intros d x _ _ _ Hl. rewrite D, (su_marshal e s0 SU) in Hl. congruence.
        * intros f x _ [= <-] Hl. rewrite D, (su_marshal e s0 SU) in Hl. congruence.
        * rewrite E3; auto.
        * rewrite E3; auto.
  Qed.

  Ltac dm := repeat match goal with |- context [match ?x with _ => _ end] =>
               lazymatch x with context [match _ with _ => _ end] => fail | _ => destruct x eqn:? end end.

  Lemma cache_step t s s' : step e tok_of proc_of t s s' -> locks_ok tok_of proc_of s ->
    data_ok e tok_of proc_of s -> cache_ok s -> cache_ok s'.
  Proof.
    intros H L D C. pose proof (step_pc _ _ _ _ _ _ H) as [O ND].
    pose proof (do_plain _ _ _ s D t) as Pl.
    pose proof (co_path s C t) as CP. pose proof (co_pcache s C t) as CC. pose proof (co_fact s C t) as CF.
    pose proof (co_dict s C (tok_of t)) as CD. pose proof (co_cache s C (tok_of t)) as CK.
    destruct H; cbv zeta in *;
      try (match goal with H : acquired _ _ _ _ = Some _ |- _ =>
             apply acquired_inv in H; destruct H as (o&?&->) end);
      try match goal with H : _ \/ (exists q x k, _) \/ _ |- _ => destruct H as [H|[(q&x&k&H)|(q&H)]] end;
      match goal with H : s_pc s t = _ |- _ => rewrite H in Pl, CP, CC, CF; rename H into HPC end;
      simpl in Pl, CP, CC, CF; try discriminate Pl;
      try specialize (CP _ eq_refl); try specialize (CC _ eq_refl); try subst p; try subst c;
      try (apply (cache_nofs t s);
           [ exact L | exact C | exact O
           | dm; reflexivity | dm; reflexivity
           | intros kk; dm; simpl; unfold upd; dm; repeat split;
             match goal with H : (kk =? tok_of t)%nat = true |- _ => apply Nat.eqb_eq in H; subst kk; reflexivity | _ => reflexivity end
           | intros kk [N|N]; [dm; simpl; rewrite ?upd_other by assumption; reflexivity
                             | rewrite HPC in N; dm; first [discriminate N | reflexivity]]
           | dm; simpl; rewrite upd_same; simpl; intros ? [= <-]; first [reflexivity|exact CD]
           | dm; simpl; rewrite upd_same; simpl; intros ? [= <-]; first [reflexivity|exact CK]
           | dm; simpl; rewrite upd_same, HPC; simpl; (discriminate || auto)
           | dm; simpl; rewrite ?upd_same; simpl; try exact I ]).
    - eauto.
    - intros f0 x r Hf Hl. rewrite <- Heqo0 in *. eapply (co_right s C); eauto.
      rewrite Heqo0. exact I.
    - exists f. split; [assumption|]. intros d x r Hd Hm Hl.
      eapply (co_right s C); eauto. unfold usable. destruct (dc (tok_of t)); [|exact I].
      exists d. auto.
    - destruct CF as [f Hf]. congruence.
    - destruct CF as (f1&Hf&HX). intros f0 x r Hf0 Hl. rewrite Hf0 in Hf. injection Hf as <-.
      eapply HX; eauto. now apply Z.ltb_lt.
    - unfold build. match goal with H : s_fs s (dict_path _ _) = None |- _ => now rewrite H end.
    - unfold dict_of in CD at 1. now rewrite <- CD.
    - unfold dict_of in CD at 1. now rewrite <- CD.
    - auto.
    - destruct CF as [-> ->]. now destruct x.
    - destruct (temp_apart q (cc (tok_of t)) (tok_of t) H0) as [T1 T2].
      apply (cache_fs t s); auto; simpl; rewrite ?upd_same; simpl.
      + intros kk. apply upd_fs_other. intros E. symmetry in E. revert E. now apply (temp_apart q (cc (tok_of t)) kk).
      + intros r f. destruct (str_eqb r q) eqn:E.
        * apply str_eqb_eq in E. subst. rewrite upd_fs_same. intros [= <-]. right. simpl. lia.
        * rewrite upd_fs_other; [auto|]. intros ->. rewrite str_eqb_refl in E. discriminate.
      + intros kk. left. apply upd_fs_other. intros E. symmetry in E. revert E. now apply (temp_apart q (cc (tok_of t)) kk).
      + intros u r N Hr. apply upd_fs_other. intros ->. destruct (co_temp s C _ _ Hr) as [_ [f Hf]]. congruence.
      + now intros ? [= <-].
      + now intros ? [= <-].
      + intros r [= <-]. split; [eauto|]. split; [|auto]. rewrite upd_fs_same. eauto.
      + split; [|exists (mkFile [] (s_now s)); split; [apply upd_fs_same|reflexivity]].
        rewrite <- CF. apply build_ext. apply upd_fs_other. congruence.
    - destruct (co_temp s C t q) as [[c0 T] _]; [now rewrite HPC|].
      destruct (temp_apart q c0 (tok_of t) T) as [T1 T2]. destruct CF as [CF _].
      apply (cache_fs t s); auto; simpl; rewrite ?upd_same; simpl.
      + intros kk. apply upd_fs_other. intros E. symmetry in E. revert E. now apply (temp_apart q c0 kk).
      + intros r f. destruct (str_eqb r q) eqn:E.
        * apply str_eqb_eq in E. subst. rewrite upd_fs_same. intros [= <-]. right. simpl. lia.
        * rewrite upd_fs_other; [auto|]. intros ->. rewrite str_eqb_refl in E. discriminate.
      + intros kk. left. apply upd_fs_other. intros E. symmetry in E. revert E. now apply (temp_apart q c0 kk).
      + intros u r N Hr. apply upd_fs_other. intros ->. elim N. eapply (co_temp2 s C); [exact Hr|now rewrite HPC].
      + now intros ? [= <-].
      + now intros ? [= <-].
      + intros r [= <-]. split; [eauto|]. rewrite HPC. simpl. split; [|auto]. rewrite upd_fs_same. eauto.
      + split; [|eexists; split; [apply upd_fs_same|reflexivity]].
        rewrite <- CF. apply build_ext. apply upd_fs_other. congruence.
    - destruct CF as [CF (f&F1&F2)]. exists x, f. rewrite firstn_all in F2. auto.
    - destruct (co_temp s C t q) as [[c0 T] _]; [now rewrite HPC|].
      destruct CF as (x&g&B&F1&F2). rewrite F1 in H0. injection H0 as <-.
      assert (ED : forall kk, upd_fs (upd_fs (s_fs s) q None) (cc (tok_of t)) (Some g) (dict_path e (dc kk))
                              = s_fs s (dict_path e (dc kk))).
      { intros kk. rewrite !upd_fs_other; auto.
        - intros E. symmetry in E. revert E. now apply (temp_apart q c0 kk).
        - apply (su_dict_cache e s0 SU). }
      apply (cache_fs t s); auto; simpl; rewrite ?upd_same; simpl; try discriminate.
      + intros r f. destruct (str_eqb r (cc (tok_of t))) eqn:E.
        * apply str_eqb_eq in E. subst. rewrite upd_fs_same. intros [= <-]. right.
          eapply (co_time s C); eauto.
        * rewrite upd_fs_other by (intros ->; rewrite str_eqb_refl in E; discriminate).
          destruct (str_eqb r q) eqn:E'.
          -- apply str_eqb_eq in E'. subst. rewrite upd_fs_same. discriminate.
          -- rewrite upd_fs_other by (intros ->; rewrite str_eqb_refl in E'; discriminate). auto.
      + intros kk. destruct (str_eqb (cc kk) (cc (tok_of t))) eqn:E.
        * apply str_eqb_eq in E. right. exists x, g. rewrite E, upd_fs_same.
          rewrite (su_shared e s0 SU _ _ E). auto.
        * left. rewrite upd_fs_other by (intros Q; rewrite Q, str_eqb_refl in E; discriminate).
          apply upd_fs_other. intros Q. symmetry in Q. revert Q. now apply (temp_apart q c0 kk).
      + intros u r N Hr. rewrite upd_fs_other.
        * apply upd_fs_other. intros ->. elim N. eapply (co_temp2 s C); [exact Hr|now rewrite HPC].
        * intros ->. destruct (co_temp s C _ _ Hr) as [[c1 T1] _].
          rewrite (su_temp_cache e s0 SU) in T1. discriminate.
      + now intros ? [= <-].
      + exact I.
    - exact CF.
  Qed.

  Lemma cache_kill s i : cache_ok s -> cache_ok (kill tok_of proc_of s i).
  Proof.
    intros [C1 C2 C3 C4 C5 C6 C7 C8 C9].
    split; simpl; intros;
      try (destruct (_ =? i)%nat; [first [discriminate|reflexivity|exact I]|eauto]; fail); eauto.
    - destruct (_ =? i)%nat; [discriminate|]. destruct (_ =? i)%nat; [discriminate|]. eauto.
  Qed.

  Lemma cache_outside s fs now : tidy e tok_of s0 s fs now -> cache_ok s -> cache_ok (outside s fs now).
  Proof.
    intros [T1 T2] [C1 C2 C3 C4 C5 C6 C7 C8 C9].
    assert (KC : forall k, fs (cc k) = s_fs s (cc k)).
    { intros k. destruct (T2 (cc k)) as [Q|(Q&_)]; [exact Q|]. elim (Q k eq_refl). }
    assert (KT : forall c q, e_temp e c q = true -> fs q = s_fs s q).
    { intros c q H. destruct (T2 q) as [Q|(_&Q&_)]; [exact Q|]. rewrite Q in H. discriminate. }
    split; simpl; eauto.
    - intros q f Hf. destruct (T2 q) as [Q|(_&_&Q&_)].
      + rewrite Q in Hf. apply C3 in Hf. lia.
      + rewrite (Q _ Hf). lia.
    - intros r k f x Hf Hu Hl. rewrite KC in Hf.
      destruct (T2 (dict_path e (dc k))) as [Q|(_&_&Q1&Q2&_)].
      + rewrite (build_ext _ _ _ Q). eapply C4; eauto. now apply (usable_ext _ _ _ _ Q).
      + specialize (Q2 k eq_refl). unfold usable in Hu. destruct (dc k) as [a|] eqn:Ek; [|now elim Q2].
        destruct Hu as (d&Hd&Hm). rewrite <- Ek in *. unfold dict_path in Q1. rewrite Ek in Q1.
        rewrite (Q1 _ Hd) in Hm. apply C3 in Hf. lia.
    - intros t q H. destruct (C7 _ _ H) as [[c A] B]. split; [eauto|]. now rewrite (KT _ _ A).
    - intros t. specialize (C9 t). destruct (inside (s_pc s t)) eqn:Hi.
      + apply (fact_ext _ _ (s_fs s)); auto.
        * destruct (T2 (dict_path e (dc (tok_of t)))) as [Q|(_&_&_&_&Q)]; [exact Q|].
          specialize (Q t eq_refl). congruence.
        * intros q Hq. destruct (C7 _ _ Hq) as [[c A] _]. eauto.
      + destruct (s_pc s t); try discriminate; exact I.
  Qed.

  Lemma cache_exec s : start s0 -> (R -> caches_right e s0 (s_fs s0)) ->
    exec e tok_of proc_of (tidy e tok_of s0) s0 s -> cache_ok s.
  Proof.
    intros S CR X.
    pose proof (fun s1 => locks_exec e tok_of proc_of (tidy e tok_of s0) s0 s1 S) as LX.
    pose proof (fun s1 => data_exec e tok_of proc_of (tidy e tok_of s0) s0 s1 S) as DX.
    induction X.
    - now apply start_cache.
    - destruct H.
      + eapply cache_step; eauto.
      + now apply cache_kill.
      + now apply cache_outside.
  Qed.
End Cache.
