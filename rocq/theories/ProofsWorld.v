(** * Several Tokenizers: lemmas *)
From Coq Require Import Lia.
From Verif Require Import PyBase PyRegex PyNum ModelFinalseg ModelSeg ModelDict ModelApi ModelInit ModelWorld SpecWorld ProofsBase ProofsInit ProofsCache.

Lemma same_world_refl w : same_world w w.
Proof. repeat split. Qed.

Section W.
  Variable e : env.
  Variable num : Num.
  Variable H : hmm num.
  Notation do_event := (do_event e num H).
  Notation do_events := (do_events e num H).
  Notation do_call := (do_call e num H).

  Lemma query_same d o : query o = true -> fst (do_op num H d o) = d.
  Proof.
    destruct o; simpl; try discriminate; intros Q; auto.
    destruct tune; [discriminate|]. unfold suggest_freq.
    destruct (suggest_freq_value _ _ _ _ _ _); reflexivity.
  Qed.

  Lemma put_same w k : same_world (put_dstate w k (dstate_of w k)) w.
  Proof.
    repeat split. intros j. simpl. unfold upd. destruct (j =? k)%nat eqn:E; [|reflexivity].
    apply Nat.eqb_eq in E. subst. now destruct (w_tok w k).
  Qed.

  Lemma without_hmm_query o : without_hmm o = true -> query o = true.
  Proof. destruct o; simpl; auto; discriminate. Qed.

  Lemma without_hmm_force fr total tags tags' force force' o : without_hmm o = true ->
    snd (do_op num H (mkD fr total tags force) o) = snd (do_op num H (mkD fr total tags' force') o).
  Proof.
    destruct o; simpl; try discriminate; intros Q; auto.
    - destruct cut_all, hmm; try discriminate; reflexivity.
    - destruct hmm; try discriminate; reflexivity.
    - destruct hmm; try discriminate; reflexivity.
  Qed.

  (** what initialize() would load *)
  Definition would_load (fs : path -> option file) (m : mem) : res (freqs * Z) :=
    match from_cache e fs (m_dict m) (cache_path e m (m_dict m)) with
    | Err x => Err x
    | Ok (Some x) => Ok x
    | Ok None => build e fs (m_dict m)
    end.

  Lemma load_dict_would how fs now m : m_init m = false ->
    match would_load fs m with
    | Ok x => fst (fst (load_dict e how fs now m)) = loaded_mem m x /\ snd (load_dict e how fs now m) = None
    | Err x => load_dict e how fs now m = (m, fs, Some x)
    end.
  Proof.
    intros I. unfold load_dict, would_load. rewrite I.
    destruct (from_cache _ _ _ _) as [[x|]|x]; simpl; auto.
    destruct (build _ _ _); simpl; auto.
  Qed.

  Lemma load_dict_fs how fs now m :
    snd (fst (load_dict e how fs now m)) = fs \/
    exists x, from_cache e fs (m_dict m) (cache_path e m (m_dict m)) = Ok None /\
      build e fs (m_dict m) = Ok x /\
      snd (fst (load_dict e how fs now m)) = dumped_fs e how fs now (cache_path e m (m_dict m)) x.
  Proof.
    unfold load_dict. destruct (m_init m); [auto|]. destruct (from_cache _ _ _ _) as [[x|]|x]; simpl; auto.
    destruct (build _ _ _) eqn:B; simpl; eauto.
  Qed.

  Lemma call_initialised w k o how : m_init (w_tok w k) = true ->
    do_call w k o how = (let '(d, r) := do_op num H (dstate_of w k) o in (put_dstate w k d, r)).
  Proof.
    intros I. unfold do_call, do_check. rewrite I. now destruct (needs_dict o).
  Qed.

  (** the result of a call without HMM, from what the tokenizer has or would load *)
  Lemma call_result w k o how : without_hmm o = true ->
    snd (do_call w k o how) =
      (let m := w_tok w k in
       let on fr total := snd (do_op num H (mkD fr total [] []) o) in
       if m_init m || negb (needs_dict o) then on (m_freq m) (m_total m)
       else match would_load (w_fs w) m with Ok x => on (fst x) (snd x) | Err x => OutExn x end).
  Proof.
    intros Q. cbv zeta. unfold do_call, do_check.
    destruct (m_init (w_tok w k)) eqn:I; simpl.
    { assert (E : (if needs_dict o then (w, None) else (w, None)) = (w, @None exn)) by now destruct (needs_dict o).
      rewrite E. unfold dstate_of.
      destruct (do_op _ _ _ _) as [d r] eqn:D. simpl.
      rewrite (without_hmm_force _ _ [] (m_tags (w_tok w k)) [] (w_force w)) by exact Q. now rewrite D. }
    destruct (needs_dict o) eqn:N; simpl.
    - unfold initialize. simpl. pose proof (load_dict_would how (w_fs w) (w_now w) (w_tok w k) I) as L.
      destruct (load_dict _ _ _ _ _) as [[m fs] x]. simpl in L.
      destruct (would_load _ _) as [y|y].
      + destruct L as [-> ->]. unfold dstate_of. simpl. rewrite upd_same. simpl.
        destruct (do_op _ _ _ _) as [d r] eqn:D. simpl.
        rewrite (without_hmm_force _ _ [] (m_tags (w_tok w k)) [] (w_force w)) by exact Q. now rewrite D.
      + injection L as -> -> ->. reflexivity.
    - unfold dstate_of. destruct (do_op _ _ _ _) as [d r] eqn:D. simpl.
      rewrite (without_hmm_force _ _ [] (m_tags (w_tok w k)) [] (w_force w)) by exact Q. now rewrite D.
  Qed.

  Lemma upd_other (A : Type) (f : nat -> A) k x j : j <> k -> upd f k x j = f j.
  Proof. unfold upd. intros N. apply Nat.eqb_neq in N. now rewrite N. Qed.

  Lemma check_fs w k how : w_fs (fst (do_check e w k how)) =
    (if m_init (w_tok w k) then w_fs w else snd (fst (load_dict e how (w_fs w) (w_now w) (w_tok w k)))).
  Proof.
    unfold do_check. destruct (m_init (w_tok w k)); [reflexivity|]. unfold initialize. simpl.
    now destruct (load_dict _ _ _ _ _) as [[m fs] x].
  Qed.

  Lemma call_fs w k o how : w_fs (fst (do_call w k o how)) =
    (if needs_dict o then w_fs (fst (do_check e w k how)) else w_fs w).
  Proof.
    unfold do_call. destruct (needs_dict o); [|simpl; now destruct (do_op _ _ _ _)].
    destruct (do_check e w k how) as [w1 [x|]]; simpl; [reflexivity|]. now destruct (do_op _ _ _ _).
  Qed.

  Lemma check_tok w k how j : j <> k -> w_tok (fst (do_check e w k how)) j = w_tok w j.
  Proof.
    intros N. unfold do_check. destruct (m_init (w_tok w k)); [reflexivity|].
    destruct (initialize _ _ _ _ _ _) as [[m fs] x]. simpl. now apply upd_other.
  Qed.

  Lemma elsewhere_tok w ev i : elsewhere i ev -> w_tok (fst (do_event w ev)) i = w_tok w i.
  Proof.
    destruct ev; simpl; intros N; try reflexivity.
    - apply upd_other. auto.
    - destruct (initialize _ _ _ _ _ _) as [[m fs] x]. simpl. apply upd_other. auto.
    - unfold set_dictionary. destruct (w_fs w _); simpl; [|reflexivity]. apply upd_other. auto.
    - unfold do_call. destruct (needs_dict o).
      + pose proof (check_tok w k how i) as C. destruct (do_check e w k how) as [w1 [x|]]; simpl in *.
        * apply C. auto.
        * destruct (do_op _ _ _ _) as [d r]. simpl. rewrite upd_other by auto. apply C. auto.
      + destruct (do_op _ _ _ _) as [d r]. simpl. apply upd_other. auto.
  Qed.

  Lemma elsewhere_toks evs i : forall w, Forall (elsewhere i) evs -> w_tok (do_events w evs) i = w_tok w i.
  Proof.
    induction evs as [|ev evs IH]; intros w F; [reflexivity|]. inversion F; subst. simpl.
    unfold ModelWorld.do_events in *. rewrite IH by assumption. now apply elsewhere_tok.
  Qed.

  Section Keep.
    Hypothesis marshal : forall x, e_load e (e_dump e x) = Some x.

    Lemma dumped_would how fs now m m' x :
      let c := cache_path e m' (m_dict m') in
      c <> dict_path e (m_dict m) ->
      (c = cache_path e m (m_dict m) -> m_dict m' = m_dict m) ->
      (forall q b, how = NotDumped (Some (q, b)) -> q <> dict_path e (m_dict m) /\ q <> cache_path e m (m_dict m)) ->
      from_cache e fs (m_dict m') c = Ok None -> build e fs (m_dict m') = Ok x ->
      would_load (dumped_fs e how fs now c x) m = would_load fs m.
    Proof.
      cbv zeta. intros Nd Sc Nq Fc B.
      assert (K : forall fs', fs' (dict_path e (m_dict m)) = fs (dict_path e (m_dict m)) ->
                    fs' (cache_path e m (m_dict m)) = fs (cache_path e m (m_dict m)) ->
                    would_load fs' m = would_load fs m).
      { intros fs' E1 E2. unfold would_load, from_cache, build. rewrite E2, E1.
        destruct (fs (cache_path e m (m_dict m))); [|reflexivity].
        destruct (m_dict m) as [a|]; [|reflexivity]. simpl in E1. now rewrite E1. }
      destruct how as [|[[q b]|]]; simpl.
      - destruct (list_eq_dec N.eq_dec (cache_path e m' (m_dict m')) (cache_path e m (m_dict m))) as [E|E].
        + specialize (Sc E). rewrite <- E in *. rewrite Sc in *.
          unfold would_load. rewrite <- E. rewrite Fc.
          unfold from_cache at 1. rewrite upd_fs_same. simpl.
          assert (B' : build e (upd_fs fs (cache_path e m' (m_dict m)) (Some (mkFile (e_dump e x) now))) (m_dict m)
                       = build e fs (m_dict m)).
          { unfold build. rewrite upd_fs_other by auto. reflexivity. }
          destruct (m_dict m) as [a|] eqn:Ed.
          * rewrite upd_fs_other by (simpl in Nd; congruence).
            destruct (fs a) as [d|] eqn:Ea.
            -- destruct (_ <? _)%Z.
               ++ now rewrite marshal, B.
               ++ exact B'.
            -- unfold build in B. simpl in B. rewrite Ea in B. discriminate.
          * now rewrite marshal, B.
        + apply K; apply upd_fs_other; auto.
      - destruct (Nq q b eq_refl) as [N1 N2]. apply K; apply upd_fs_other; auto.
      - reflexivity.
    Qed.

    Lemma keep_would w ev m : keeps_off e m w ev ->
      would_load (w_fs (fst (do_event w ev))) m = would_load (w_fs w) m.
    Proof.
      intros [Nf K]. destruct ev as [k p|k arg how|k p|k o how|fs now]; simpl in K |- *.
      - reflexivity.
      - unfold initialize. destruct (init_arg e (w_tok w k) arg) as [m'|] eqn:A; [|reflexivity].
        destruct (load_dict_fs how (w_fs w) (w_now w) m') as [E|(x&Fc&B&E)];
          destruct (load_dict _ _ _ _ _) as [[m2 fs2] r]; simpl in E |- *; subst fs2; [reflexivity|].
        destruct (K m' how eq_refl) as (K1&K2&K3). now apply dumped_would.
      - unfold set_dictionary. now destruct (w_fs w _).
      - rewrite call_fs. destruct (needs_dict o); [|reflexivity]. rewrite check_fs.
        destruct (m_init (w_tok w k)); [reflexivity|].
        destruct (load_dict_fs how (w_fs w) (w_now w) (w_tok w k)) as [E|(x&Fc&B&E)]; rewrite E; [reflexivity|].
        destruct (K (w_tok w k) how eq_refl) as (K1&K2&K3). now apply dumped_would.
      - now elim (Nf fs now).
    Qed.

    Lemma keep_woulds m evs : forall w, all_keep_off e num H m w evs ->
      would_load (w_fs (do_events w evs)) m = would_load (w_fs w) m.
    Proof.
      induction evs as [|ev evs IH]; intros w A; [reflexivity|]. simpl in A. destruct A as [A1 A2].
      unfold ModelWorld.do_events in *. simpl. rewrite IH by assumption. now apply keep_would.
    Qed.
  End Keep.
End W.
