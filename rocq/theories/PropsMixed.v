(** * C113: words with other characters never come out *)
From Coq Require Import Lia.
From Coq Require Import Reals.
From Verif Require Import PyBase PyRegex PyNum ModelFinalseg ModelSeg ModelDict ModelPosseg
  SpecBase SpecSeg SpecNum SpecScore SpecFull SpecPosseg SpecTagging InstB64 InstB64Ext InstExt InstQ
  ProofsBase ProofsRegex ProofsSplit ProofsFull ProofsWords ProofsNoHmm ProofsPosseg DataPossegOk
  Demo ProofsDemo DemoPos PropsCut PropsFull PropsFullOrder PropsPosseg.

Definition all_word_chars (w : str) : Prop := Forall (fun c => word_char c = true) w.
Definition no_word_chars (w : str) : Prop := Forall (fun c => word_char c = false) w.

(** ** Accurate mode: word characters only, or one character, or CR LF *)
Theorem C113_accurate :
  forall (num : Num) (H : hmm num) (HMM : bool) (fr : freqs) (total : Z) (force : list str) (s w : str),
    In w (fst (cut num H (mode_of false HMM) fr total force s)) ->
    all_word_chars w \/ length w = 1 \/ w = [13; 10]%N.
Proof.
  intros num H HMM fr total force s w HI.
  assert (NF : is_full (mode_of false HMM) = false) by (destruct HMM; reflexivity).
  rewrite cut_runs_accurate in HI by auto. apply gfor_In in HI. destruct HI as ([b r] & RI & HI).
  pose proof (@ProofsRegex.runs_class word_char s) as RC. rewrite Forall_forall in RC. destruct (RC _ RI) as [NE FA].
  cbn [fst snd] in *. destruct b.
  - left. destruct (C01_accurate_prefix num H HMM fr total force r) as [[t E] _].
    rewrite cut_runs_accurate, (one_run word_char true r NE FA) in E by auto. cbn [gfor fst snd] in E.
    unfold all_word_chars.
    apply Forall_concat_In with (ws := fst (cut_block num H (mode_of false HMM) fr total force r)); auto.
    rewrite E in FA. apply Forall_app in FA. destruct FA as [FA _]. revert FA. unfold gapp.
    destruct (snd (cut_block num H (mode_of false HMM) fr total force r)); cbn; rewrite ?app_nil_r; auto.
  - right. pose proof (chars_crlf_words r) as CW. rewrite Forall_forall in CW. apply CW. exact HI.
Qed.

(** ** Search mode *)
Lemma sub_Forall (P : N -> Prop) (w : str) i k : Forall P w -> Forall P (sub w i k).
Proof.
  intros F. unfold sub. rewrite <- (firstn_skipn i w) in F. apply Forall_app in F. destruct F as [_ F].
  rewrite <- (firstn_skipn k (skipn i w)) in F. apply Forall_app in F. tauto.
Qed.

Theorem C113_search :
  forall (num : Num) (H : hmm num) (HMM : bool) (fr : freqs) (total : Z) (force : list str) (s w : str),
    In w (fst (cut_for_search num H HMM fr total force s)) ->
    all_word_chars w \/ length w = 1 \/ w = [13; 10]%N.
Proof.
  intros num H HMM fr total force s w HI. rewrite C10_search_mode in HI. cbn [fst] in HI.
  apply in_flat_map in HI. destruct HI as (v & VI & HI). apply C113_accurate in VI.
  unfold expand in HI. rewrite !in_app_iff in HI.
  assert (G : forall n, 2 <= n -> In w (map (fun i => sub v i n) (inner_words (sget fr) n v)) -> all_word_chars w).
  { intros n L GI. apply in_map_iff in GI. destruct GI as (i & <- & GI). unfold inner_words in GI.
    destruct (n <? length v) eqn:EL; [|contradiction]. apply Nat.ltb_lt in EL.
    destruct VI as [VI | [VI | VI]]; [apply sub_Forall; auto|lia|subst v; cbn in EL; lia]. }
  destruct HI as [HI | [HI | [<- | []]]]; [left; apply (G 2); auto|left; apply (G 3); auto|auto].
Qed.

(** ** Full mode: word characters only, or none at all *)
Lemma substring_Forall (P : N -> Prop) (w r : str) : substring w r -> Forall P r -> Forall P w.
Proof. intros (k & a & b & -> & _) F. apply Forall_app in F. destruct F as [_ F]. apply Forall_app in F. tauto. Qed.

Theorem C113_full :
  forall (num : Num) (H : hmm num) (HMM : bool) (fr : freqs) (total : Z) (force : list str) (s w : str),
    In w (fst (cut num H (mode_of true HMM) fr total force s)) ->
    all_word_chars w \/ no_word_chars w.
Proof.
  intros num H HMM fr total force s w HI. apply C05_full_mode_sound in HI.
  pose proof (@ProofsRegex.runs_class word_char s) as RC. rewrite Forall_forall in RC.
  destruct HI as [(r & RI & P) | (r & RI & P & _)]; destruct (RC _ RI) as [NE FA]; cbn [fst snd] in FA.
  - left. destruct P as [w _ P | c CI | ws _ F].
    + eapply substring_Forall; eauto.
    + constructor; auto. rewrite Forall_forall in FA. auto.
    + apply Forall_concat. eapply Forall_impl; [|exact F]. intros v (_ & P & _). eapply substring_Forall; eauto.
  - right. eapply substring_Forall; eauto.
Qed.

(** ** The tagger, with its own class of characters *)
Theorem C113_tagger :
  forall (num : Num) (NI : NumInf num) (v : pvalues num) (ord : orders) (HMM : bool)
         (tab : sdict str) (fr : freqs) (total : Z) (s w t : str),
    values_ok NI v -> fair_order ord -> sane (sget fr) total -> i_lim NI (2 * length s) ->
    In (w, t) (fst (ps_cut (shipped num v) ord HMM tab fr total s)) ->
    Forall (fun c => pos_word_char c = true) w \/ length w = 1 \/ w = [13; 10]%N.
Proof.
  intros num NI v ord HMM tab fr total s w t V FO SA LIM HI.
  rewrite ProofsPosseg.ps_cut_runs in HI. apply gfor_In in HI. destruct HI as ([b r] & RI & HI).
  pose proof (@ProofsRegex.runs_class pos_word_char s) as RC. rewrite Forall_forall in RC.
  destruct (RC _ RI) as [NE FA]. cbn [fst snd] in *. destruct b.
  - left.
    assert (LR : length r <= length s).
    { rewrite <- (ProofsRegex.runs_concat pos_word_char s). revert RI. generalize (runs pos_word_char s).
      intros l RI. induction l as [|x l IH]; [contradiction|]. cbn [map concat]. rewrite app_length.
      destruct RI as [-> | RI]; [cbn [snd]; lia|specialize (IH RI); lia]. }
    assert (LIM' : i_lim NI (2 * length r)) by (eapply i_lim_down; [|exact LIM]; lia).
    destruct (C33_shipped_tables num NI v ord HMM tab fr total r V FO SA LIM') as (ws & E & C & _).
    rewrite ProofsPosseg.ps_cut_runs in E.
    rewrite (one_run pos_word_char true r NE FA) in E. cbn [gfor fst snd] in E.
    assert (IW : In (w, t) ws).
    { apply (f_equal fst) in E. cbn [fst gof] in E. rewrite <- E. unfold gapp.
      match goal with |- context [snd ?g] => destruct (snd g) end; cbn [fst gnil gof]; [|apply in_or_app; left]; exact HI. }
    apply Forall_concat_In with (ws := map fst ws); [apply in_map_iff; exists (w, t); auto|]. rewrite C. exact FA.
  - right. pose proof (chars_crlf_words r) as CW. rewrite Forall_forall in CW. apply CW.
    cbn [fst gof] in HI. apply in_map_iff in HI. destruct HI as (u & E & HI).
    apply (f_equal fst) in E. cbn [fst] in E. subst u. exact HI.
Qed.

Theorem C113_tagger_binary64 :
  forall (lg : Z -> b64) (v : pvalues (numB lg)) (ord : orders) (HMM : bool)
         (tab : sdict str) (fr : freqs) (total : Z) (s w t : str),
    values_ok (infB lg) v -> fair_order ord -> sane (sget fr) total -> (Z.of_nat (length s) <= 2 ^ 49)%Z ->
    In (w, t) (fst (ps_cut (shipped (numB lg) v) ord HMM tab fr total s)) ->
    Forall (fun c => pos_word_char c = true) w \/ length w = 1 \/ w = [13; 10]%N.
Proof.
  intros lg v ord HMM tab fr total s w t V FO SA LIM HI.
  eapply (C113_tagger _ (infB lg)); eauto. cbn [i_lim infB]. unfold blim. lia.
Qed.

(** ** So adding such a word is in vain

    A word of two or more characters, not CR LF, with a character of the other kind: no
    dictionary, list of forced splits or HMM makes accurate or search mode give it. *)
Theorem C113_added_in_vain :
  forall (num : Num) (H : hmm num) (HMM : bool) (fr : freqs) (total : Z) (force : list str) (s w : str),
    2 <= length w -> w <> [13; 10]%N -> ~ all_word_chars w ->
    ~ In w (fst (cut num H (mode_of false HMM) fr total force s)) /\
    ~ In w (fst (cut_for_search num H HMM fr total force s)).
Proof.
  intros num H HMM fr total force s w L NC NW. split; intros HI.
  - apply C113_accurate in HI. destruct HI as [HI | [HI | HI]]; [auto|lia|auto].
  - apply C113_search in HI. destruct HI as [HI | [HI | HI]]; [auto|lia|auto].
Qed.

(** 大 学 with a blank inside and 大% are in the dictionary; [cut] gives the second and not
    the first, the tagger gives neither *)
Definition mixed_fr : freqs :=
  [([c_da], 1%Z); ([c_da; 32]%N, 0%Z); ([c_da; 32; c_xue]%N, 90%Z); ([c_da; 37]%N, 90%Z); ([c_xue], 1%Z)].
Definition mixed_text : str := [c_da; 32; c_xue; c_da; 37; 13; 10]%N.
Example C113_nonvacuous :
  sane (sget mixed_fr) 200 /\ i_lim infQ (2 * length mixed_text) /\
  ~ all_word_chars [c_da; 32; c_xue]%N /\
  cut numQ demo_hmm (mode_of false false) mixed_fr 200 [] mixed_text =
    gof [[c_da]; [32]; [c_xue]; [c_da; 37]; [13; 10]]%N /\
  fst (cut numQ demo_hmm (mode_of true false) mixed_fr 200 [] mixed_text) =
    [[c_da]; []; [32]; []; [c_xue]; [c_da; 37]; []; [13; 10]; []]%N /\
  map fst (fst (ps_cut demo_T demo_ord false [] mixed_fr 200 mixed_text)) =
    [[c_da]; [32]; [c_xue]; [c_da]; [37]; [13; 10]]%N.
Proof.
  split; [apply saneb_ok; vm_compute; reflexivity|]. split; [exact I|].
  split; [intros F; inversion F as [|? ? _ F2]; inversion F2 as [|? ? E _]; discriminate E|].
  repeat split; vm_compute; reflexivity.
Qed.

Print Assumptions C113_accurate.
Print Assumptions C113_search.
Print Assumptions C113_full.
Print Assumptions C113_tagger.
Print Assumptions C113_tagger_binary64.
Print Assumptions C113_added_in_vain.
