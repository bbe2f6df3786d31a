(** * Computing the exact choice of small examples

    [chosen numR] is defined over real logarithms and does not compute; here the
    candidates of a short text are listed and compared by integers. *)
From Coq Require Import Reals Lra Lia.
From Verif Require Import PyBase PyRegex PyNum ModelFinalseg ModelSeg ModelDict SpecBase SpecSeg SpecNum SpecScore SpecDict SpecHealth InstR
  ProofsBase ProofsRegex ProofsSplit ProofsDag ProofsSeg ProofsOpt ProofsNoHmm ProofsSuggest.
Set Implicit Arguments.

Section Pick.
  Variable fr : freqs.

  Definition word_at (s : str) : bool := existsb (fun j => freq_true fr (firstn (S j) s)) (seq 0 (length s)).
  Fixpoint cands (fuel : nat) (s : str) : list (list str) :=
    match fuel, s with
    | _, [] => [[]]
    | O, _ => []
    | S fuel', _ =>
        flat_map (fun j => let u := firstn (S j) s in
                  if freq_true fr u || ((j =? 0) && negb (word_at s)) then map (cons u) (cands fuel' (skipn (S j) s)) else [])
                 (seq 0 (length s))
    end.

  Lemma word_at_false s : no_word_starts (sget fr) s -> word_at s = false.
  Proof.
    intros N. unfold word_at. destruct (existsb _ _) eqn:E; auto. apply existsb_exists in E. destruct E as [j [J W]].
    apply in_seq in J. apply freq_true_word in W. exfalso. apply (N (firstn (S j) s)); auto.
    - destruct s; [cbn in J; lia|discriminate].
    - exists (skipn (S j) s). symmetry. apply firstn_skipn.
  Qed.

  Lemma cands_all ws : forall s fuel, length s <= fuel -> candidate (sget fr) s ws -> In ws (cands fuel s).
  Proof.
    induction ws as [|w ws IH]; intros s fuel L C.
    - cbn in C. subst. destruct fuel; left; reflexivity.
    - cbn in C. destruct C as [t [E [NE [W C]]]]. destruct w as [|c w]; [congruence|]. subst s.
      destruct fuel as [|fuel]; [cbn in L; lia|]. cbn [cands app]. apply in_flat_map. exists (length w).
      assert (F : firstn (S (length w)) (c :: w ++ t) = c :: w).
      { cbn [firstn]. f_equal. rewrite firstn_app, firstn_all, Nat.sub_diag. cbn. apply app_nil_r. }
      assert (K : skipn (S (length w)) (c :: w ++ t) = t).
      { cbn [skipn]. rewrite skipn_app, skipn_all, Nat.sub_diag. reflexivity. }
      split; [apply in_seq; cbn; rewrite app_length; lia|]. cbv zeta. rewrite F, K.
      assert (B : freq_true fr (c :: w) || (length w =? 0) && negb (word_at (c :: w ++ t)) = true).
      { destruct W as [W|[W1 W2]]; [apply freq_true_word in W; rewrite W; reflexivity|].
        apply orb_true_iff. right. apply word_at_false in W2. cbn [app] in W2. rewrite W2. cbn in W1. injection W1 as ->. reflexivity. }
      rewrite B. apply in_map. apply IH; auto. cbn in L. rewrite app_length in L. lia.
  Qed.

  (** [ws] is better than every other candidate *)
  Definition beats (T : Z) (s : str) (ws : list str) : bool :=
    forallb (fun c => (if list_eq_dec (list_eq_dec N.eq_dec) c ws then true else
                       weights (sget fr) c * T ^ Z.of_nat (length ws) <? weights (sget fr) ws * T ^ Z.of_nat (length c)))%Z
            (cands (length s) s).

  Lemma pick T s ws :
    healthy fr T -> candidate (sget fr) s ws -> beats T s ws = true -> chosen numR fr T s = ws.
  Proof.
    intros HE C B. pose proof HE as [PC [P _]]. pose proof (healthy_sane HE) as SA.
    pose proof (chosen_candidate numR s SA PC) as CC. pose proof (@chosen_prob fr T s ws SA PC C) as L.
    apply (@cands_all _ s (length s) (le_n _)) in CC. unfold beats in B. rewrite forallb_forall in B. specialize (B _ CC).
    destruct (list_eq_dec (list_eq_dec N.eq_dec) (chosen numR fr T s) ws) as [E|NE]; auto. exfalso. apply Z.ltb_lt in B.
    rewrite !prob_words in L by auto. apply IZR_lt in B. rewrite !mult_IZR in B.
    rewrite <- !pow_IZR in B. assert (P0 : (0 < IZR T)%R) by (apply IZR_lt; auto).
    set (a := chosen numR fr T s) in *.
    pose proof (pow_lt _ (length a) P0) as PA. pose proof (pow_lt _ (length ws) P0) as PW.
    set (x := (IZR T ^ length a)%R) in *. set (y := (IZR T ^ length ws)%R) in *.
    assert (XY : (0 < x * y)%R) by (apply Rmult_lt_0_compat; auto).
    apply (Rmult_le_compat_r (x * y)) in L; [|lra].
    match type of L with (?p / _ * _ <= ?q / _ * _)%R => set (p0 := p) in *; set (q0 := q) in * end.
    replace (p0 / y * (x * y))%R with (p0 * x)%R in L by (field; lra).
    replace (q0 / x * (x * y))%R with (q0 * y)%R in L by (field; lra). assert (B1 : (q0 * y < p0 * x)%R) by exact B. lra.
  Qed.
End Pick.

(** the candidates that are listed are candidates *)
Fixpoint candb (fr : freqs) (s : str) (ws : list str) : bool :=
  match ws with
  | [] => match s with [] => true | _ => false end
  | w :: ws' =>
      negb (length w =? 0) && str_eqb (firstn (length w) s) w
      && (freq_true fr w || ((length w =? 1) && negb (word_at fr s))) && candb fr (skipn (length w) s) ws'
  end.
Lemma candb_ok fr ws : forall s, candb fr s ws = true -> candidate (sget fr) s ws.
Proof.
  induction ws as [|w ws IH]; intros s B; cbn in *.
  - destruct s; [reflexivity|discriminate].
  - apply andb_true_iff in B. destruct B as [B B4]. apply andb_true_iff in B. destruct B as [B B3].
    apply andb_true_iff in B. destruct B as [B1 B2]. apply str_eqb_eq in B2.
    exists (skipn (length w) s). split; [rewrite <- B2 at 1; symmetry; apply firstn_skipn|].
    split; [destruct w; [discriminate|discriminate]|]. split; auto.
    apply orb_true_iff in B3. destruct B3 as [B3|B3]; [left; apply freq_true_word; auto|right].
    apply andb_true_iff in B3. destruct B3 as [L W]. split; [apply Nat.eqb_eq; auto|].
    intros u NU [t E] WU. apply negb_true_iff in W. apply not_true_iff_false in W. apply W. unfold word_at.
    apply freq_true_word in WU. apply existsb_exists. exists (length u - 1).
    assert (0 < length u) by (destruct u; [congruence|cbn; lia]).
    split; [apply in_seq; rewrite E, app_length; lia|]. replace (S (length u - 1)) with (length u) by lia.
    rewrite E, firstn_app, firstn_all, Nat.sub_diag. cbn. rewrite app_nil_r. auto.
Qed.

(** the exact result of [cut(s, HMM=False)] for a run of word characters *)
Lemma pick_cut (H : hmm numR) fr T force s ws :
  healthy fr T -> s <> [] -> Forall (fun c => word_char c = true) s -> candb fr s ws = true -> beats fr T s ws = true ->
  cut numR H (mode_of false false) fr T force s = gof (merge_eng [] ws).
Proof.
  intros HE NE FW C B. cbn [mode_of]. rewrite cut_nohmm_text by (apply healthy_sane; auto).
  rewrite (@runs_whole word_char s true NE FW). cbn [flat_map fst snd]. rewrite app_nil_r.
  rewrite (@pick fr T s ws HE (candb_ok _ _ _ C) B). reflexivity.
Qed.
