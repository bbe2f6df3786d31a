(** * Consequences of the invariants *)
From Coq Require Import Lia.
From Verif Require Import PyBase PyNum ModelSeg ModelDict ModelInit SpecInit ProofsBase ProofsDict ProofsInit ProofsCache.

Section Conseq.
  Variable e : env.
  Variable tok_of proc_of : nat -> nat.

  Lemma exec_weaken (may may' : state -> (path -> option file) -> Z -> Prop) s s' :
    (forall s fs now, may s fs now -> may' s fs now) ->
    exec e tok_of proc_of may s s' -> exec e tok_of proc_of may' s s'.
  Proof.
    intros W X. induction X; [constructor|]. eapply exec_snoc; [exact IHX|].
    destruct H; [eapply sys_thread; eauto|apply sys_kill|apply sys_outside; auto].
  Qed.

  Ltac dm := repeat match goal with |- context [match ?x with _ => _ end] =>
               lazymatch x with context [match _ with _ => _ end] => fail | _ => destruct x eqn:? end end.

  Ltac cases H := destruct H; cbv zeta in *;
      try (match goal with H : acquired _ _ _ _ = Some _ |- _ =>
             apply acquired_inv in H; destruct H as (o&?&->) end);
      try match goal with H : _ \/ (exists q x k, _) \/ _ |- _ => destruct H as [H|[(q&x&k&H)|(q&H)]] end.

  (** how the log grows *)
  Lemma step_log t s s' : step e tok_of proc_of t s s' ->
    s_log s' = s_log s \/
    exists p c x, s_log s' = (tok_of t, x) :: s_log s /\
      ((s_pc s t = PLoad p c /\ exists f, s_fs s c = Some f /\ e_load e (f_bytes f) = Some x) \/
       (exists l, s_pc s t = PBuild p c l) /\ build e (s_fs s) (m_dict (s_tok s (tok_of t))) = Ok x).
  Proof.
    intros H. cases H; try (left; dm; reflexivity; fail).
    - right. exists p, c, x. split; [reflexivity|]. left. eauto.
    - right. exists p, c, x. split; [reflexivity|]. right. eauto.
  Qed.

  Lemma cons_neq {A} (x : A) l : x :: l <> l.
  Proof. intros H. apply (f_equal (@length A)) in H. simpl in H. lia. Qed.

  (** [initialized] and the tables change only after a successful load *)
  Lemma tok_unchanged s0 s may k : start s0 -> exec e tok_of proc_of may s0 s ->
    loads s k = [] -> s_tok s k = s_tok s0 k.
  Proof.
    intros S X. pose proof (fun s1 => data_exec e tok_of proc_of may s0 s1 S) as DX.
    induction X; [reflexivity|]. intros L.
    assert (L1 : loads s1 k = []).
    { destruct H; [|exact L|exact L]. destruct (step_log _ _ _ H) as [E|(p&c&x&E&_)];
        unfold loads in *; rewrite E in L; [exact L|].
      simpl in L. destruct (tok_of t =? k)%nat; [discriminate|exact L]. }
    rewrite <- (IHX L1). destruct H; [|reflexivity|reflexivity].
    pose proof (DX _ X) as D. pose proof (do_loaded _ _ _ _ D t) as DL. pose proof (do_plain _ _ _ _ D t) as Pl.
    destruct (Nat.eq_dec k (tok_of t)) as [->|N].
    - assert (NL : has_loaded (s_pc s1 t) = false).
      { destruct (has_loaded (s_pc s1 t)) eqn:Hh; [|reflexivity]. destruct (DL eq_refl) as (x&A&_). congruence. }
      clear - H NL Pl.
      cases H; try (dm; reflexivity);
        match goal with H : s_pc _ t = _ |- _ => rewrite H in NL, Pl; try discriminate NL; discriminate Pl end.
    - clear - H N. cases H; dm; simpl; rewrite ?upd_other by assumption; reflexivity.
  Qed.

  Section Files.
    Variable s0 : state.
    Hypothesis SU : setup e s0.
    Hypothesis ST : start s0.
    Notation dc k := (dict_of s0 k).
    Notation cc k := (cache_of e s0 k).
    Notation tidy_exec := (exec e tok_of proc_of (tidy e tok_of s0)).
    Notation stable_exec := (exec e tok_of proc_of (stable e tok_of s0)).

    Lemma stable_tidy s : stable_exec s0 s -> tidy_exec s0 s.
    Proof. apply exec_weaken. intros ? ? ? []. assumption. Qed.

    (** threads write only temporary files and complete caches *)
    Lemma step_files R t s s' : cache_ok e tok_of s0 R s -> step e tok_of proc_of t s s' ->
      (forall k, s_fs s' (dict_path e (dc k)) = s_fs s (dict_path e (dc k))) /\
      (forall k, s_fs s' (cc k) = s_fs s (cc k) \/
         exists f x, s_fs s' (cc k) = Some f /\ f_bytes f = e_dump e x /\ build e (s_fs s) (dc k) = Ok x).
    Proof.
      intros C H. pose proof (co_temp _ _ _ _ _ C t) as CT. pose proof (co_fact _ _ _ _ _ C t) as CF.
      pose proof (co_pcache _ _ _ _ _ C t) as CC.
      cases H; try (split; intros; [|left]; dm; reflexivity; fail).
      - split; intros; [|left]; apply upd_fs_other; intros E; subst q.
        + rewrite (su_temp_dict _ _ SU) in H0. discriminate.
        + rewrite (su_temp_cache _ _ SU) in H0. discriminate.
      - destruct (CT q) as [[c' T] _]; [now rewrite H|].
        split; intros; [|left]; apply upd_fs_other; intros E; subst q.
        + rewrite (su_temp_dict _ _ SU) in T. discriminate.
        + rewrite (su_temp_cache _ _ SU) in T. discriminate.
      - destruct (CT q) as [[c' T] _]; [now rewrite H|]. rewrite H in CF, CC. simpl in CF, CC.
        specialize (CC _ eq_refl). subst c. destruct CF as (x&g&B&F1&F2). rewrite F1 in H0. injection H0 as <-.
        split; intros k; simpl.
        + rewrite !upd_fs_other; auto.
          * intros E; subst q. rewrite (su_temp_dict _ _ SU) in T. discriminate.
          * apply (su_dict_cache _ _ SU).
        + destruct (str_eqb (cc k) (cc (tok_of t))) eqn:E.
          * apply str_eqb_eq in E. right. exists g, x. rewrite E, upd_fs_same, (su_shared _ _ SU _ _ E). auto.
          * left. rewrite upd_fs_other by (intros Q; rewrite Q, str_eqb_refl in E; discriminate).
            apply upd_fs_other. intros Q. subst q. rewrite (su_temp_cache _ _ SU) in T. discriminate.
    Qed.

    Lemma build_same fs fs' k : fs' (dict_path e (dc k)) = fs (dict_path e (dc k)) ->
      build e fs' (dc k) = build e fs (dc k).
    Proof. apply build_ext. Qed.

    Lemma no_right : (False -> caches_right e s0 (s_fs s0)).
    Proof. intros []. Qed.

    Lemma stable_dicts s : stable_exec s0 s -> forall k, s_fs s (dict_path e (dc k)) = s_fs s0 (dict_path e (dc k)).
    Proof.
      intros X. induction X; [reflexivity|]. intros k. rewrite <- IHX.
      pose proof (cache_exec e tok_of proc_of s0 SU False s1 ST no_right (stable_tidy _ X)) as C.
      destruct H.
      - now apply (step_files False t s1 s').
      - reflexivity.
      - destruct H as [_ H]. apply H.
    Qed.

    Lemma stable_caches s : stable_exec s0 s -> forall k, s_fs s (cc k) = s_fs s0 (cc k) \/
      exists f x, s_fs s (cc k) = Some f /\ f_bytes f = e_dump e x /\ build e (s_fs s0) (dc k) = Ok x.
    Proof.
      intros X. induction X; [auto|]. intros k.
      pose proof (cache_exec e tok_of proc_of s0 SU False s1 ST no_right (stable_tidy _ X)) as C.
      pose proof (build_same _ _ k (stable_dicts _ X k)) as EB.
      destruct H.
      - destruct (step_files False t s1 s' C H) as [_ A]. destruct (A k) as [B|(f&x&B)].
        + rewrite B. apply IHX.
        + right. exists f, x. rewrite <- EB. exact B.
      - apply IHX.
      - destruct H as [[_ T] _]. simpl. destruct (T (cc k)) as [E|(E&_)].
        + rewrite E. apply IHX.
        + elim (E k eq_refl).
    Qed.

    Hypothesis CR : caches_right e s0 (s_fs s0).

    Lemma tidy_ok s : tidy_exec s0 s -> cache_ok e tok_of s0 True s.
    Proof. apply cache_exec; auto. Qed.

    (** whatever is loaded is what the dictionary file says now *)
    Lemma tidy_loads s t s' k x : tidy_exec s0 s -> step e tok_of proc_of t s s' ->
      s_log s' = (k, x) :: s_log s -> k = tok_of t /\ build e (s_fs s) (dc k) = Ok x.
    Proof.
      intros X H L. pose proof (tidy_ok _ X) as C.
      pose proof (co_fact _ _ _ _ _ C t) as CF. pose proof (co_pcache _ _ _ _ _ C t) as CC.
      pose proof (co_dict _ _ _ _ _ C (tok_of t)) as CD.
      destruct (step_log _ _ _ H) as [E|(p&c&y&E&[[P (f&F1&F2)]|[[l P] B]])].
      - rewrite E in L. symmetry in L. elim (cons_neq _ _ L).
      - rewrite E in L. injection L as <- <-. split; [reflexivity|].
        rewrite P in CF, CC. simpl in CF, CC. specialize (CC _ eq_refl). subst c.
        eapply CF; eauto.
      - rewrite E in L. injection L as <- <-. split; [reflexivity|]. rewrite <- CD. exact B.
    Qed.

    (** a thread fails only if the file is missing or malformed now *)
    Lemma tidy_raises s t s' x : tidy_exec s0 s -> step e tok_of proc_of t s s' ->
      s_pc s' t = PRaised x -> build e (s_fs s) (dc (tok_of t)) = Err x.
    Proof.
      intros X H P. pose proof (tidy_ok _ X) as C. pose proof (co_fact _ _ _ _ _ C t) as CF.
      revert P. cases H; dm; simpl; rewrite upd_same; try discriminate.
      intros [= <-]. rewrite H in CF. exact CF.
    Qed.

    Lemma stable_log s : stable_exec s0 s -> forall k x, In (k, x) (s_log s) -> build e (s_fs s0) (dc k) = Ok x.
    Proof.
      intros X. induction X; intros k x I.
      - rewrite (start_log _ ST) in I. destruct I.
      - destruct H; [|eauto|eauto]. destruct (step_log _ _ _ H) as [E|(p&c&y&E&_)]; rewrite E in I; [eauto|].
        destruct I as [[= <- <-]|I]; [|eauto].
        rewrite <- (build_same _ _ (tok_of t) (stable_dicts _ X (tok_of t))).
        eapply tidy_loads; eauto using stable_tidy.
    Qed.

    Lemma stable_raised s : stable_exec s0 s -> forall t x, s_pc s t = PRaised x ->
      build e (s_fs s0) (dc (tok_of t)) = Err x.
    Proof.
      intros X. induction X; intros t x P.
      - destruct (start_pc _ ST t); congruence.
      - destruct H; [|simpl in P; destruct (_ =? _)%nat; [discriminate|eauto]|eauto].
        destruct (Nat.eq_dec t t0) as [->|N].
        + rewrite <- (build_same _ _ (tok_of t0) (stable_dicts _ X (tok_of t0))).
          eapply tidy_raises; eauto using stable_tidy.
        + destruct (step_pc _ _ _ _ _ _ H) as [O _]. rewrite (O _ N) in P. eauto.
    Qed.
  End Files.

  Lemma passed_loads s0 s may t : start s0 -> exec e tok_of proc_of may s0 s -> passed (s_pc s t) = true ->
    exists x, loads s (tok_of t) = [x] /\ s_tok s (tok_of t) = s_tok s (tok_of t)
      /\ m_freq (s_tok s (tok_of t)) = fst x /\ m_total (s_tok s (tok_of t)) = snd x.
  Proof.
    intros S X P. pose proof (data_exec _ _ _ _ _ _ S X) as D.
    destruct (do_init _ _ _ _ D _ (do_passed _ _ _ _ D _ P)) as (x&A&B&C). eauto.
  Qed.

  Lemma loads_log s k x : loads s k = [x] -> In (k, x) (s_log s).
  Proof.
    unfold loads. intros H. assert (I : In x (map snd (filter (fun a : nat * (freqs * Z) => fst a =? k) (s_log s))))
      by (rewrite H; now left).
    apply in_map_iff in I. destruct I as ([k' x']&E&I). apply filter_In in I. destruct I as [I E'].
    simpl in *. apply Nat.eqb_eq in E'. congruence.
  Qed.

  Lemma got_loads s0 s may t fr total : start s0 -> exec e tok_of proc_of may s0 s -> s_pc s t = PGot fr total ->
    loads s (tok_of t) = [(fr, total)].
  Proof.
    intros S X P. pose proof (data_exec _ _ _ _ _ _ S X) as D.
    pose proof (do_got _ _ _ _ D t) as G. rewrite P in G. destruct G as [-> ->].
    destruct (do_init _ _ _ _ D (tok_of t)) as (x&A&B&C).
    - apply (do_passed _ _ _ _ D). now rewrite P.
    - rewrite A, B, C. now destruct x.
  Qed.

  (** *** termination *)
  Section Term.
    Variable ts : list nat.
    Definition moves (s' s : state) : Prop := exists t, In t ts /\ step e tok_of proc_of t s s'.

    Definition weight (s : state) (t : nat) : nat * nat := (rank (s_pc s t), rest e (s_pc s t)).

    (* lexicographic order on pairs, then the product over the threads *)
    Definition lex (a b : nat * nat) : Prop := fst a < fst b \/ fst a = fst b /\ snd a < snd b.

    Lemma lex_wf : well_founded lex.
    Proof.
      assert (A : forall n m, Acc lex (n, m)).
      { induction n as [n IHn] using lt_wf_ind. induction m as [m IHm] using lt_wf_ind.
        constructor. intros [a b] [H|[H1 H2]]; simpl in *; [auto|subst; auto]. }
      intros [n m]. apply A.
    Qed.

    (* one component goes down, the others stay *)
    Inductive down : list (nat * nat) -> list (nat * nat) -> Prop :=
    | down_here a b l : lex a b -> down (a :: l) (b :: l)
    | down_there a l l' : down l l' -> down (a :: l) (a :: l').

    Lemma down_wf : well_founded down.
    Proof.
      intros l. induction l as [|a l IH].
      - constructor. intros l' H. inversion H.
      - revert a. induction IH as [l _ IHl]. intros a.
        induction (lex_wf a) as [a _ IHa]. constructor. intros l' H. inversion H; subst; auto.
    Qed.

  End Term.

  Lemma rank_other t s s' u : step e tok_of proc_of t s s' -> u <> t -> s_pc s' u = s_pc s u.
  Proof. intros H N. now apply (step_pc _ _ _ _ _ _ H). Qed.

  Lemma weights_down ts s s' : NoDup ts -> moves ts s' s -> down (map (weight s') ts) (map (weight s) ts).
  Proof.
    intros ND (t&I&H). induction ts as [|u ts IH]; [destruct I|].
    inversion ND; subst. simpl. destruct I as [->|I].
    - replace (map (weight s') ts) with (map (weight s) ts).
      + apply down_here. unfold lex, weight. simpl. now apply (rank_step e tok_of proc_of).
      + apply map_ext_in. intros v Hv. unfold weight. rewrite (rank_other _ _ _ v H); [reflexivity|]. intros ->. contradiction.
    - replace (weight s' u) with (weight s u).
      + apply down_there. auto.
      + unfold weight. rewrite (rank_other _ _ _ u H); [reflexivity|]. intros ->. contradiction.
  Qed.

  Lemma moves_wf ts s : Acc (moves ts) s.
  Proof.
    assert (A : forall ts, NoDup ts -> forall s, Acc (moves ts) s).
    { clear. intros ts ND s. remember (map (weight s) ts) as l eqn:E. revert s E.
      induction (down_wf l) as [l _ IH]. intros s ->. constructor. intros s' H.
      eapply IH; [|reflexivity]. now apply weights_down. }
    specialize (A (nodup Nat.eq_dec ts) (NoDup_nodup _ _) s).
    induction A as [s _ IH]. constructor. intros s' (t&I&H). apply IH. exists t. split; [|exact H].
    now apply nodup_In.
  Qed.
End Conseq.
