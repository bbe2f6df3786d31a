(** * The cache of the packaged dictionary is never refreshed *)
From Coq Require Import Lia.
From Verif Require Import PyBase PyNum ModelSeg ModelDict ModelInit SpecInit ProofsBase ProofsInit ProofsCache ProofsInit2.

(** where a thread that finds its cache can be *)
Definition with_cache (c : pc) : bool :=
  match c with
  | PMtime _ _ | PMtime2 _ _ _ | PWget _ _ | PWset _ _ _ | PWlock _ _ _ | PBuild _ _ _ | PBuildFreq _ _ _ _
  | PBuildTotal _ _ _ _ | PTemp _ _ _ | PDump _ _ _ _ _ _ | PRename _ _ _ _ | PWunlockExn _ _ => false
  | _ => true
  end.

Section Stale.
  Variable e : env.
  Variable tok_of proc_of : nat -> nat.
  Variable s0 : state.
  Variable c0 : path.
  Variable f0 : file.
  Variable x0 : freqs * Z.
  Variable may : state -> (path -> option file) -> Z -> Prop.
  Hypothesis MAY : forall s fs now, may s fs now -> fs c0 = s_fs s c0.
  Hypothesis TEMP : forall c, e_temp e c c0 = false.
  Hypothesis SHARED : forall k, cache_of e s0 k = c0 -> dict_of s0 k = None.
  Hypothesis LOAD : e_load e (f_bytes f0) = Some x0.
  Hypothesis FILE : s_fs s0 c0 = Some f0.
  Hypothesis ST : start s0.

  Notation dc k := (dict_of s0 k).
  Notation cc k := (cache_of e s0 k).

  Record stale_ok (s : state) : Prop := {
    so_dict : forall k, dict_of s k = dc k;
    so_cache : forall k, cache_path e (s_tok s k) (dc k) = cc k;
    so_file : s_fs s c0 = Some f0;
    so_path : forall t p, pc_path (s_pc s t) = Some p -> p = dc (tok_of t);
    so_pcache : forall t c, pc_cache (s_pc s t) = Some c -> c = cc (tok_of t);
    so_temp : forall t q, pc_temp (s_pc s t) = Some q -> q <> c0;
    so_pc : forall t, cc (tok_of t) = c0 -> with_cache (s_pc s t) = true;
    so_log : forall k x, In (k, x) (s_log s) -> cc k = c0 -> x = x0;
  }.

  Lemma stale_start : stale_ok s0.
  Proof.
    destruct ST as [H1 H2 H3 H4 H5]. split; intros; auto;
      try (destruct (H1 t) as [Q|Q]; rewrite Q in *; simpl in *; (discriminate || reflexivity)).
    rewrite H5 in H. destruct H.
  Qed.

  Ltac dm := repeat match goal with |- context [match ?x with _ => _ end] =>
               lazymatch x with context [match _ with _ => _ end] => fail | _ => destruct x eqn:? end end.

  Lemma stale_gen t s s' : stale_ok s -> (forall u, u <> t -> s_pc s' u = s_pc s u) ->
    (forall k, same_setup (s_tok s k) (s_tok s' k)) -> s_fs s' c0 = s_fs s c0 ->
    (forall p, pc_path (s_pc s' t) = Some p -> p = dc (tok_of t)) ->
    (forall c, pc_cache (s_pc s' t) = Some c -> c = cc (tok_of t)) ->
    (forall q, pc_temp (s_pc s' t) = Some q -> q <> c0) ->
    (cc (tok_of t) = c0 -> with_cache (s_pc s' t) = true) ->
    (s_log s' = s_log s \/ exists x, s_log s' = (tok_of t, x) :: s_log s /\ (cc (tok_of t) = c0 -> x = x0)) ->
    stale_ok s'.
  Proof.
    intros [C1 C2 C3 C4 C5 C6 C7 C8] O ES EF H1 H2 H3 H4 H5. split; intros.
    - unfold dict_of in *. destruct (ES k) as (-> &_). apply C1.
    - rewrite <- (C2 k). unfold cache_path. destruct (ES k) as (_& -> & ->). reflexivity.
    - congruence.
    - destruct (Nat.eq_dec t0 t) as [->|N]; [auto|]. rewrite (O _ N) in H. auto.
    - destruct (Nat.eq_dec t0 t) as [->|N]; [auto|]. rewrite (O _ N) in H. auto.
    - destruct (Nat.eq_dec t0 t) as [->|N]; [auto|]. rewrite (O _ N) in H. eauto.
    - destruct (Nat.eq_dec t0 t) as [->|N]; [auto|]. rewrite (O _ N). auto.
    - destruct H5 as [E|(y&E&Y)]; rewrite E in H; [eauto|]. destruct H as [[= <- <-]|H]; eauto.
  Qed.

  Lemma stale_step t s s' : step e tok_of proc_of t s s' -> data_ok e tok_of proc_of s -> stale_ok s -> stale_ok s'.
  Proof.
    intros H D C. pose proof (step_pc _ _ _ _ _ _ H) as [O ND].
    pose proof (do_plain _ _ _ s D t) as Pl.
    pose proof (so_path s C t) as CP. pose proof (so_pcache s C t) as CC. pose proof (so_pc s C t) as CW.
    pose proof (so_dict s C (tok_of t)) as CD. pose proof (so_cache s C (tok_of t)) as CK.
    pose proof (so_file s C) as CF. pose proof (so_temp s C t) as CT.
    assert (SH : cc (tok_of t) = c0 -> dc (tok_of t) = None) by apply SHARED.
    destruct H; cbv zeta in *;
      try (match goal with H : acquired _ _ _ _ = Some _ |- _ =>
             apply acquired_inv in H; destruct H as (o&?&->) end);
      try match goal with H : _ \/ (exists q x k, _) \/ _ |- _ => destruct H as [H|[(q&x&k&H)|(q&H)]] end;
      match goal with H : s_pc s t = _ |- _ => rewrite H in Pl, CP, CC, CW, CT; rename H into HPC end;
      simpl in Pl, CP, CC, CW, CT; try discriminate Pl;
      try specialize (CP _ eq_refl); try specialize (CC _ eq_refl); try subst p; try subst c;
      (apply (stale_gen t s);
           [ exact C | exact O
           | intros kk; dm; simpl; unfold upd; dm; repeat split;
             match goal with H : (kk =? tok_of t)%nat = true |- _ => apply Nat.eqb_eq in H; subst kk; reflexivity | _ => reflexivity end
           | try (dm; reflexivity)
           | dm; simpl; rewrite upd_same; simpl; intros ? [= <-]; first [reflexivity|exact CD]
           | dm; simpl; rewrite upd_same; simpl; intros ? [= <-]; first [reflexivity|exact CK]
           | dm; simpl; rewrite upd_same; simpl; try discriminate; auto
           | dm; simpl; rewrite ?upd_same; simpl; auto; try (intros Q; discriminate (CW Q))
           | try (left; dm; reflexivity) ]).
    - intros Q. specialize (SH Q). congruence.
    - intros Q. rewrite <- Q in CF. rewrite Heqo in CF. discriminate.
    - right. exists x. split; [reflexivity|]. intros Q. rewrite Q in H0. rewrite CF in H0. injection H0 as <-. congruence.
    - intros Q. rewrite Q, CF, LOAD in H0. discriminate.
    - right. exists x. split; [reflexivity|]. intros Q. discriminate (CW Q).
    - apply upd_fs_other. intros <-. rewrite TEMP in H0. discriminate.
    - intros r [= <-] ->. rewrite TEMP in H0. discriminate.
    - apply upd_fs_other. intros Q. elim (CT _ eq_refl). auto.
    - simpl. rewrite !upd_fs_other; [reflexivity| |].
      + intros Q. elim (CT _ eq_refl). auto.
      + intros Q. symmetry in Q. discriminate (CW Q).
  Qed.

  Lemma stale_exec s : exec e tok_of proc_of may s0 s -> stale_ok s.
  Proof.
    intros X. pose proof (fun s1 => data_exec e tok_of proc_of may s0 s1 ST) as DX.
    induction X; [apply stale_start|]. destruct H.
    - eapply stale_step; eauto.
    - destruct IHX as [C1 C2 C3 C4 C5 C6 C7 C8]. split; simpl; auto;
        intros; try (destruct (_ =? _)%nat; [first [discriminate|reflexivity]|eauto]; fail).
    - destruct IHX as [C1 C2 C3 C4 C5 C6 C7 C8]. split; simpl; auto.
      rewrite (MAY _ _ _ H). assumption.
  Qed.
End Stale.
