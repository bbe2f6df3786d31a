(** * Bytes as arguments *)
From Verif Require Import PyBase PyRegex PyNum PyUtf8 ProofsUtf8 ModelFinalseg ModelSeg ModelDict ModelApi
  ModelPosseg ModelParallel ModelPosParallel ModelArgs InstQ Demo.

(** what Python holds in UTF-8: no surrogates, nothing above U+10FFFF *)
Definition scalar (c : char) : Prop := (c < 0xD800 \/ 0xDFFF < c < 0x110000)%N.

(** the argument is the text [s], as text or as UTF-8 *)
Definition carries (a : arg) (s : str) : Prop :=
  a = AText s \/ exists b, a = ABytes b /\ utf8_encode s = Some b.

Lemma scalar_char c : scalar c <-> exists b, utf8_char c = Some b.
Proof.
  unfold scalar, utf8_char, in_range.
  destruct (N.ltb_spec c 0x80); [split; [eauto|lia]|].
  destruct (N.ltb_spec c 0x800); [split; [eauto|lia]|].
  destruct (N.ltb_spec c 0x10000).
  - destruct (N.leb_spec 0xD800 c), (N.leb_spec c 0xDFFF); cbn; split; eauto; try lia.
    intros (b & E). discriminate.
  - destruct (N.ltb_spec c 0x110000); split; eauto; try lia. intros (b & E). discriminate.
Qed.

Lemma scalar_text s : Forall scalar s <-> exists b, utf8_encode s = Some b.
Proof.
  induction s as [|c s IH]; cbn; [split; eauto|]. split.
  - intros F. inversion F as [|? ? SC FS]; subst. apply scalar_char in SC. apply IH in FS.
    destruct SC as (b & ->), FS as (r & ->). eauto.
  - intros (b & E). destruct (utf8_char c) as [bc|] eqn:EC; [|discriminate].
    destruct (utf8_encode s) as [r|] eqn:ES; [|discriminate]. constructor.
    + apply scalar_char. eauto.
    + apply IH. eauto.
Qed.

Lemma carries_decode gbk a s : carries a s -> strdecode gbk a = s.
Proof. intros [->|(b & -> & E)]; cbn; auto. rewrite (decode_encode _ _ E). auto. Qed.

(** every text can be given as bytes *)
Theorem C44_every_text_encodes :
  forall s, Forall scalar s <-> exists b, carries (ABytes b) s.
Proof.
  intros s. rewrite scalar_text. split; intros (b & E); exists b.
  - right. exists b. auto.
  - destruct E as [E|(b' & E & E')]; [discriminate|]. injection E as <-. auto.
Qed.

(** ** C44: bytes and text are interchangeable *)
Theorem C44_bytes_like_text :
  forall (gbk : bytes -> str) (num : Num) (H : hmm num) (T : ptables num) (ord : orders) (a : arg) (s : str),
    carries a s ->
    (forall d cut_all hmm, do_aop gbk num H d (ACut cut_all hmm a) = do_aop gbk num H d (ACut cut_all hmm (AText s))) /\
    (forall d hmm, do_aop gbk num H d (ACutForSearch hmm a) = do_aop gbk num H d (ACutForSearch hmm (AText s))) /\
    (forall w i HMM, pos_cut gbk num H T ord w i HMM a = pos_cut gbk num H T ord w i HMM (AText s)) /\
    (forall d cut_all hmm g, apcut gbk num H d cut_all hmm a g <-> apcut gbk num H d cut_all hmm (AText s) g) /\
    (forall d hmm g, apcut_for_search gbk num H d hmm a g <-> apcut_for_search gbk num H d hmm (AText s) g) /\
    (forall w HMM g, appos_cut gbk num H T ord w HMM a g <-> appos_cut gbk num H T ord w HMM (AText s) g).
Proof.
  intros gbk num H T ord a s C. pose proof (carries_decode gbk a s C) as E.
  unfold pos_cut, apcut, apcut_for_search, appos_cut. cbn [do_aop]. rewrite E. cbn [strdecode].
  repeat split; auto.
Qed.

(** the same call with text instead of bytes where both are accepted *)
Inductive text_call : aop -> op -> Prop :=
| tc_add a s f t : carries a s -> text_call (AAddWord a f t) (OpAddWord s f t)
| tc_del a s : carries a s -> text_call (ADelWord a) (OpDelWord s)
| tc_whole s tune : text_call (ASuggest (AText s) tune) (OpSuggest (Whole s) tune)
| tc_parts l ws tune : Forall2 carries l ws -> text_call (ASuggestParts l tune) (OpSuggest (Parts ws) tune)
| tc_user lines : text_call (AUserdict lines) (OpUserdict lines)
| tc_cut ca hmm a s : carries a s -> text_call (ACut ca hmm a) (OpCut ca hmm s)
| tc_search hmm a s : carries a s -> text_call (ACutForSearch hmm a) (OpCutForSearch hmm s)
| tc_tok tm hmm s : text_call (ATokenize tm hmm (AText s)) (OpTokenize tm hmm s)
| tc_dag s : text_call (AGetDAG (AText s)) (OpGetDAG s).

Lemma text_call_same gbk num H d o o' : text_call o o' -> do_aop gbk num H d o = do_op num H d o'.
Proof.
  intros C. inversion C; subst; cbn [do_aop]; auto;
    try (match goal with Q : carries _ _ |- _ => rewrite (carries_decode gbk _ _ Q) end; reflexivity).
  do 3 f_equal. clear C. induction H0 as [|a s l ws Q _ IH]; cbn; auto. rewrite (carries_decode gbk _ _ Q), IH. auto.
Qed.

(** a whole history of calls given bytes leads where the history with text leads *)
Theorem C44_histories :
  forall (gbk : bytes -> str) (num : Num) (H : hmm num) (os : list aop) (os' : list op) (d : dstate),
    Forall2 text_call os os' ->
    do_aops gbk num H d os = do_ops num H d os' /\
    forall o o', text_call o o' ->
      snd (do_aop gbk num H (do_aops gbk num H d os) o) = snd (do_op num H (do_ops num H d os') o').
Proof.
  intros gbk num H os os' d F2.
  assert (E : do_aops gbk num H d os = do_ops num H d os').
  { revert d. induction F2 as [|o o' os os' C _ IH]; intros d; auto.
    unfold do_aops, do_ops in *. cbn [fold_left]. rewrite (text_call_same _ _ _ _ _ _ C). apply IH. }
  split; auto. intros o o' C. rewrite E. rewrite (text_call_same _ _ _ _ _ _ C). auto.
Qed.

Example C44_nonvacuous :
  let b := [0xE6; 0x9D; 0xA5; 0xE5; 0x88; 0xB0; 0xE5; 0x8C; 0x97; 0xE4; 0xBA; 0xAC]%N in   (* 来到北京 *)
  carries (ABytes b) [c_lai; c_dao; c_bei; c_jing] /\
  snd (do_aop (fun _ => []) numQ demo_hmm demo (ACut false false (ABytes b))) =
    OutWords (gof [[c_lai; c_dao]; [c_bei; c_jing]]).
Proof.
  split; [|vm_compute; reflexivity]. right. eexists. split; [reflexivity|]. vm_compute. reflexivity.
Qed.

(** ** C68: where bytes are not accepted

    Tokenize raises [ValueError], suggest_freq raises [AttributeError] unless the bytes are
    empty, and get_DAG finds no word. *)
Theorem C68_bytes_elsewhere :
  forall (gbk : bytes -> str) (num : Num) (H : hmm num) (d : dstate) (b : bytes),
    (forall tm hmm, do_aop gbk num H d (ATokenize tm hmm (ABytes b)) = (d, OutTokens (gerr ValueError))) /\
    (b <> [] -> forall tune, do_aop gbk num H d (ASuggest (ABytes b) tune) = (d, OutExn AttributeError)) /\
    (exists dag, do_aop gbk num H d (AGetDAG (ABytes b)) = (d, OutDAG dag) /\
       length dag = length b /\ forall k, k < length b -> nth_error dag k = Some [k]).
Proof.
  intros gbk num H d b. split; [reflexivity|]. split.
  - intros NE tune. destruct b; [congruence|reflexivity].
  - eexists. split; [reflexivity|]. rewrite map_length, seq_length. split; auto.
    intros k L. rewrite nth_error_map.
    assert (E : nth_error (seq 0 (length b)) k = Some k).
    { rewrite (nth_error_nth' _ 0) by (rewrite seq_length; auto). rewrite seq_nth; auto. }
    rewrite E. reflexivity.
Qed.

Theorem C68_refuted :
  ~ (forall gbk num H d s b tune, utf8_encode s = Some b ->
       do_aop gbk num H d (ASuggest (ABytes b) tune) = do_aop gbk num H d (ASuggest (AText s) tune)).
Proof.
  intros A. specialize (A (fun _ => []) numQ demo_hmm demo [97]%N [97]%N false eq_refl).
  vm_compute in A. discriminate.
Qed.

(** bytes that are not UTF-8 are read as GBK and never raise *)
Theorem C68_not_utf8 :
  forall (gbk : bytes -> str) (num : Num) (H : hmm num) (d : dstate) (b : bytes) (cut_all hmm : bool),
    (forall s, utf8_encode s <> Some b) ->
    do_aop gbk num H d (ACut cut_all hmm (ABytes b)) = do_aop gbk num H d (ACut cut_all hmm (AText (gbk b))).
Proof.
  intros gbk num H d b ca hmm N. cbn [do_aop strdecode].
  destruct (utf8_decode b) as [s|] eqn:E; auto. apply utf8_inverse in E. destruct (N s E).
Qed.

Example C68_nonvacuous : (* 来 in GBK is C0 B4 *)
  (forall s, utf8_encode s <> Some [0xC0; 0xB4]%N) /\
  snd (do_aop (fun _ => [c_lai]) numQ demo_hmm demo (ACut false false (ABytes [0xC0; 0xB4]%N))) = OutWords (gof [[c_lai]]).
Proof.
  split; [|vm_compute; reflexivity]. intros s E. apply utf8_inverse in E. vm_compute in E. discriminate.
Qed.

Print Assumptions C44_every_text_encodes.
Print Assumptions C44_bytes_like_text.
Print Assumptions C44_histories.
Print Assumptions C68_bytes_elsewhere.
Print Assumptions C68_refuted.
Print Assumptions C68_not_utf8.
