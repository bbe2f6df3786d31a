(** * C93 in binary64 *)
From Coq Require Import Reals Lra Lia.
From Verif Require Import PyBase PyRegex PyNum ModelFinalseg ModelSeg ModelDict SpecBase SpecSeg SpecNum SpecScore
  SpecDict SpecHealth SpecLog SpecRoundErr InstR InstB64
  ProofsBase ProofsRegex ProofsSplit ProofsNoHmm ProofsSuggest ProofsPick ProofsSearch Demo ProofsDemo ProofsHealth PropsTotal PropsRoundErr.
Local Open Scope R_scope.

Section Scale.
  Variables (fr fr' : freqs) (k T : Z).
  Hypothesis K : (0 < k)%Z.
  Hypothesis SC : forall w, sget fr' w = option_map (Z.mul k) (sget fr w).

  Lemma scale_word w : is_word (sget fr') w <-> is_word (sget fr) w.
  Proof.
    unfold is_word. rewrite SC. destruct (sget fr w) as [n|]; cbn [option_map].
    - split; intros (m & E & NZ); injection E as <-; [exists n|exists (k * n)%Z]; split; auto; nia.
    - split; intros (m & E & _); discriminate E.
  Qed.

  Lemma scale_candidate ws : forall s, candidate (sget fr') s ws <-> candidate (sget fr) s ws.
  Proof.
    induction ws as [|w ws IH]; intros s; [reflexivity|]. cbn [candidate].
    assert (NS : no_word_starts (sget fr') s <-> no_word_starts (sget fr) s).
    { unfold no_word_starts. split; intros N u NE P W; apply (N u NE P), scale_word, W. }
    split; intros (s' & E & NE & W & C); exists s'; (split; [exact E|]); (split; [exact NE|]).
    - split; [|apply IH; exact C]. rewrite NS, scale_word in W. exact W.
    - split; [|apply IH; exact C]. rewrite NS, scale_word. exact W.
  Qed.

  Lemma scale_prob ws : (0 < T)%Z -> Forall (is_word (sget fr)) ws -> prob (sget fr') (k * T) ws = prob (sget fr) T ws.
  Proof.
    intros TP. induction 1 as [|w ws W _ IH]; [reflexivity|]. unfold prob in *. cbn [fold_right]. rewrite IH. f_equal.
    destruct W as (n & E & NZ). unfold weight_of. rewrite SC, E. cbn [option_map].
    assert ((n =? 0)%Z = false) as -> by (now apply Z.eqb_neq). assert ((k * n =? 0)%Z = false) as -> by (apply Z.eqb_neq; nia).
    rewrite !mult_IZR. assert (0 < IZR k) by (now apply IZR_lt). assert (0 < IZR T) by (now apply IZR_lt). field. lra.
  Qed.

  Lemma scale_words s ws : Forall (fun c => is_word (sget fr) [c]) s -> candidate (sget fr) s ws -> Forall (is_word (sget fr)) ws.
  Proof.
    revert s. induction ws as [|w ws IH]; intros s F C; [constructor|]. destruct C as (s' & -> & NE & W & C).
    apply Forall_app in F. destruct F as [F1 F2]. constructor; [|eapply IH; eauto].
    destruct W as [W|[L N]]; auto. destruct w as [|c [|d w]]; try discriminate L. inversion F1; auto.
  Qed.
End Scale.

(** ** C93 in binary64, for texts with a clear winner *)
Theorem C93_binary64 :
  forall (lg : Z -> b64), log_ok lg -> log_close lg ->
  forall (H : hmm (numB lg)) (fr fr' : freqs) (k total : Z) (force : list str) (s : str),
    (0 < k)%Z -> (forall w, sget fr' w = option_map (Z.mul k) (sget fr w)) ->
    healthy fr total -> healthy fr' (k * total) -> (k * total <= 2 ^ 44)%Z ->
    Forall (fun c => word_char c = true -> is_word (sget fr) [c]) s ->
    (forall r, In (true, r) (runs word_char s) ->
       (length r <= 2 ^ 21)%nat /\ exists ws, clear_winner (sget fr) total r ws) ->
    cut (numB lg) H (mode_of false false) fr' (k * total) force s = cut (numB lg) H (mode_of false false) fr total force s.
Proof.
  intros lg LO LC H fr fr' k T force s K SC HE HE' LT F W. pose proof HE as [_ [TP _]].
  set (H0 := mkHmm numR (fun _ => 0) (fun _ _ => None) (fun _ _ => None)).
  assert (LT0 : (T <= 2 ^ 44)%Z) by nia.
  rewrite (C102_same_as_exact lg LO LC H H0 fr T force s HE LT0 W).
  assert (W' : forall r, In (true, r) (runs word_char s) ->
     (length r <= 2 ^ 21)%nat /\ exists ws, clear_winner (sget fr') (k * T) r ws).
  { intros r I. destruct (W r I) as [L [ws [C B]]]. split; auto. exists ws.
    assert (FR : Forall (fun c => is_word (sget fr) [c]) r).
    { pose proof (runs_class word_char s) as RC. rewrite Forall_forall in RC. destruct (RC _ I) as [_ CL]. cbn [fst snd] in CL.
      apply Forall_forall. intros c Ic. rewrite Forall_forall in CL, F. apply F; [|apply CL; auto].
      rewrite <- (runs_concat word_char s). apply in_concat. exists r. split; auto.
      apply in_map_iff. exists (true, r). auto. }
    split; [apply (scale_candidate fr fr' k K SC); auto|]. intros ws' C' N. apply (scale_candidate fr fr' k K SC) in C'.
    rewrite !(scale_prob fr fr' k T K SC) by (try exact TP; eapply scale_words; eauto). apply B; auto. }
  rewrite (C102_same_as_exact lg LO LC H H0 fr' (k * T) force s HE' LT W').
  destruct (C93_scaled H0 fr fr' k T force s K SC (healthy_sane HE) F) as (E & _). apply (E false false).
Qed.

(** the dictionary and the factor of [C93_nonvacuous] *)
Example C93_binary64_nonvacuous :
  let fr' := map (fun kv : str * Z => (fst kv, (3 * snd kv)%Z)) (d_freq bj21) in
  let s := [c_bei; c_jing] in
  (forall w, sget fr' w = option_map (Z.mul 3) (sget (d_freq bj21) w)) /\
  healthy (d_freq bj21) (d_total bj21) /\ healthy fr' (3 * d_total bj21) /\ (3 * d_total bj21 <= 2 ^ 44)%Z /\
  Forall (fun c => word_char c = true -> is_word (sget (d_freq bj21)) [c]) s /\
  runs word_char s = [(true, s)] /\ clear_winner (sget (d_freq bj21)) (d_total bj21) s [[c_bei]; [c_jing]].
Proof.
  intros fr' s. split; [intros w; unfold fr'; apply scaled_get|].
  split; [apply healthyb_ok; vm_compute; reflexivity|]. split; [apply healthyb_ok; vm_compute; reflexivity|].
  split; [vm_compute; discriminate|]. split.
  { repeat (apply Forall_cons; [intros _; eexists; split; [reflexivity|discriminate]|]). apply Forall_nil. }
  split; [vm_compute; reflexivity|]. split; [apply candb_ok; vm_compute; reflexivity|].
  intros ws' C N. apply (@cands_all (d_freq bj21) ws' s 2 (le_n _)) in C. vm_compute in C.
  destruct C as [<-|[<-|[]]]; [exfalso; apply N; reflexivity|].
  unfold prob, slack. cbn [fold_right length].
  change (d_total bj21) with 21%Z. unfold weight_of. vm_compute sget. cbn. lra.
Qed.

Print Assumptions C93_binary64.
