(** * Tokenizers with the default cache places do not disturb each other (C46) *)
From Coq Require Import Lia.
From Verif Require Import PyBase PyRegex PyNum InstQ ModelFinalseg ModelSeg ModelDict ModelApi ModelInit ModelWorld
  SpecInit SpecWorld SpecPlaces Demo DemoInit ProofsBase ProofsInit ProofsWorld PropsWorld.

Local Ltac slash := let E := fresh in intros E; repeat (destruct E as [E|E]; [discriminate E|]); destruct E.

(** the two kinds of names *)
Lemma cache_inj e m m' p p' : system_ok e -> default_places m -> default_places m' ->
  cache_path e m p = cache_path e m' p' -> p = p'.
Proof.
  intros S [T C] [T' C'] E. unfold cache_path in E. rewrite T, C, T', C' in E. cbn [or_else] in E.
  assert (NU : forall a, no_slash (s_jieba_u ++ e_md5 e a ++ s_dot_cache)).
  { intros a I. apply in_app_or in I. destruct I as [I|I]; [revert I; slash|].
    apply in_app_or in I. destruct I as [I|I]; [now apply (so_digest e S a)|revert I; slash]. }
  assert (ND : no_slash s_jieba_cache) by slash.
  destruct p as [a|], p' as [b|].
  - apply (so_join e S) in E; [|apply NU|apply NU]. apply app_inv_head in E. apply app_inv_tail in E.
    f_equal. now apply (so_md5 e S).
  - apply (so_join e S) in E; [cbn in E; discriminate E|apply NU|apply ND].
  - apply (so_join e S) in E; [cbn in E; discriminate E|apply ND|apply NU].
  - reflexivity.
Qed.

Lemma cache_tmp e m p : system_ok e -> default_places m ->
  exists x, no_slash x /\ hd 0%N x = 106%N /\ cache_path e m p = e_join e (e_tmp e) x.
Proof.
  intros S [T C]. unfold cache_path. rewrite T, C. cbn [or_else]. destruct p as [a|].
  - exists (s_jieba_u ++ e_md5 e a ++ s_dot_cache). split; [|split; reflexivity].
    intros I. apply in_app_or in I. destruct I as [I|I]; [revert I; slash|].
    apply in_app_or in I. destruct I as [I|I]; [now apply (so_digest e S a)|revert I; slash].
  - exists s_jieba_cache. split; [slash|split; reflexivity].
Qed.

(** no event changes the places *)
Lemma check_places e w k how j : default_places (w_tok w j) ->
  default_places (w_tok (fst (do_check e w k how)) j).
Proof.
  intros D. unfold do_check. destruct (m_init (w_tok w k)); [exact D|].
  unfold initialize, load_dict. cbn [init_arg]. destruct (m_init (w_tok w k)); [|destruct (from_cache _ _ _ _) as [[x|]|x]];
    [| |destruct (ModelInit.build _ _ _) as [x|x]|]; cbn; unfold upd; destruct (j =? k)%nat eqn:J; try exact D;
    apply Nat.eqb_eq in J; subst j; exact D.
Qed.

Lemma event_places e num (H : hmm num) w ev : (forall k, default_places (w_tok w k)) ->
  forall k, default_places (w_tok (fst (do_event e num H w ev)) k).
Proof.
  intros D j. destruct ev as [k p|k arg how|k p|k o how|fs now]; cbn [do_event].
  - cbn. unfold upd. destruct (j =? k)%nat; [split; reflexivity|apply D].
  - destruct (initialize e how (w_fs w) (w_now w) (w_tok w k) arg) as [[m fs] x] eqn:I. cbn. unfold upd.
    destruct (j =? k)%nat; [|apply D]. unfold initialize in I.
    destruct (init_arg e (w_tok w k) arg) as [m'|] eqn:A; [|injection I as <- _ _; apply D].
    assert (D' : default_places m').
    { destruct arg as [[|ch a]|]; cbn in A; [injection A as <-; apply D| |injection A as <-; apply D].
      destruct (_ && _); [discriminate|]. injection A as <-. apply (D k). }
    unfold load_dict in I. destruct (m_init m'); [injection I as <- _ _; exact D'|].
    destruct (from_cache _ _ _ _) as [[y|]|y]; [injection I as <- _ _; exact D'| |injection I as <- _ _; exact D'].
    destruct (ModelInit.build _ _ _) as [y|y]; injection I as <- _ _; exact D'.
  - unfold set_dictionary. destruct (w_fs w _); [|apply D]. cbn. unfold upd. destruct (j =? k)%nat; apply D.
  - unfold do_call. destruct (needs_dict o).
    + pose proof (check_places e w k how j (D j)) as C. pose proof (check_places e w k how k (D k)) as Ck.
      destruct (do_check e w k how) as [w1 [x|]]; [exact C|].
      destruct (do_op _ _ _ _) as [d r]. cbn. unfold upd. destruct (j =? k)%nat; [exact Ck|exact C].
    + destruct (do_op _ _ _ _) as [d r]. cbn. unfold upd. destruct (j =? k)%nat; [exact (D k)|exact (D j)].
  - apply D.
Qed.

Lemma default_keep e num (H : hmm num) m : system_ok e -> default_places m ->
  ~ in_tmp e (dict_path e (m_dict m)) ->
  forall evs w, (forall k, default_places (w_tok w k)) -> Forall (calls_only e) evs ->
  all_keep_off e num H m w evs.
Proof.
  intros S Dm Nt. induction evs as [|ev evs IH]; intros w D F; [exact I|]. inversion F as [|? ? Fe Fs]; subst.
  cbn [all_keep_off]. split; [|apply IH; [now apply event_places|exact Fs]].
  split; [intros fs now ->; exact Fe|]. intros m' how L. cbv zeta.
  assert (Dm' : default_places m').
  { destruct ev; cbn in L; try discriminate L.
    - destruct (init_arg e (w_tok w k) arg) as [m''|] eqn:A; [|discriminate]. injection L as <- _.
      destruct arg as [[|ch a]|]; cbn in A; [injection A as <-; apply D| |injection A as <-; apply D].
      destruct (_ && _); [discriminate|]. injection A as <-. apply (D k).
    - injection L as <- _. apply D. }
  assert (Lt : leaves_tmp e how).
  { destruct ev; cbn in L; try discriminate L.
    - destruct (init_arg e (w_tok w k) arg); [|discriminate]. injection L as _ <-. exact Fe.
    - injection L as _ <-. exact Fe. }
  split; [|split].
  - intros E. apply Nt. destruct (cache_tmp e m' (m_dict m') S Dm') as (x&Nx&_&Ex).
    exists x. split; [exact Nx|]. now rewrite <- E.
  - now apply cache_inj.
  - intros q b Hq. destruct (Lt q b Hq) as (x&Nx&->).
    assert (Nx' : no_slash ([116; 109; 112]%N ++ x)).
    { intros I. apply in_app_or in I. destruct I as [I|I]; [revert I; slash|now apply Nx]. }
    split.
    + intros E. apply Nt. exists ([116; 109; 112]%N ++ x). split; [exact Nx'|now symmetry].
    + intros E. destruct (cache_tmp e m (m_dict m) S Dm) as (y&Ny&Hy&Ey). rewrite Ey in E.
      apply (so_join e S) in E; [|exact Nx'|exact Ny]. subst y. discriminate Hy.
Qed.

(** Tokenizers with default places, any dictionaries, not in the temporary directory:
    whatever is called on other tokenizers, whether they load the same dictionary,
    another one or the packaged one, a segmentation without HMM gives the same result,
    also when the tokenizer has not loaded its dictionary yet. *)
Theorem C46_independent_default_places :
  forall e num (H : hmm num) w evs i o how how',
    system_ok e -> (forall k, default_places (w_tok w k)) ->
    ~ in_tmp e (dict_path e (m_dict (w_tok w i))) ->
    Forall (elsewhere i) evs -> Forall (calls_only e) evs -> without_hmm o = true ->
    snd (do_event e num H (do_events e num H w evs) (ECall i o how)) =
    snd (do_event e num H w (ECall i o how')).
Proof.
  intros e num H w evs i o how how' S D Nt F C Q.
  apply C46_independent_uninitialised; [apply (so_marshal e S)|exact F| |exact Q].
  now apply default_keep.
Qed.
Print Assumptions C46_independent_default_places.

(** ** A case *)

(** like [demo_env], with a digest that is a plain name *)
Definition places_env : env :=
  mkEnv (fun p => p) [47; 100]%N [47; 116]%N (fun a b => a ++ [47%N] ++ b) (enc_list enc_n) demo_dump demo_load
    (fun _ q => str_eqb (firstn 6 q) [47; 116; 47; 116; 109; 112]%N).

Lemma enc_n_slash n : ~ In 47%N (enc_n n).
Proof.
  unfold enc_n. intros I. apply in_app_or in I. destruct I as [I|[I|[]]]; [|discriminate I].
  apply repeat_spec in I. discriminate I.
Qed.

Lemma places_ok : system_ok places_env.
Proof.
  constructor.
  - exact demo_marshal.
  - intros a b E. cbn in E. pose proof (dec_enc_list enc_n dec_n a [] dec_enc_n) as A.
    pose proof (dec_enc_list enc_n dec_n b [] dec_enc_n) as B. rewrite E, B in A. congruence.
  - intros a I. cbn in I. unfold enc_list in I. apply in_app_or in I. destruct I as [I|I]; [now apply enc_n_slash in I|].
    apply in_flat_map in I. destruct I as (n&_&I). now apply enc_n_slash in I.
  - intros x y _ _ E. cbn in E. now injection E.
Qed.

(** tokenizer 0 has the packaged dictionary, tokenizers 1 and 2 /u and /v; 1 and 2
    load, get words, change their dictionaries; 0 loads what it would have loaded *)
Definition places_world : world :=
  mkWorld (fun q => if str_eqb q path_u then Some (mkFile file_1 10)
                    else if str_eqb q path_v then Some (mkFile file_2 11)
                    else if str_eqb q path_d then Some (mkFile file_2 3) else None) 20
    (fun k => new_mem places_env (match k with 0 => None | 1 => Some path_u | _ => Some path_v end)) [].
Definition places_busy : list event :=
  [EInit 1 None Dumped; ECall 1 (OpAddWord [97; 98; 97]%N (Some 7%Z) None) Dumped;
   ESetDict 1 path_v; ECall 1 (OpCut false true [98; 97]%N) (NotDumped (Some (path_tmp 49, [0%N])));
   ECall 2 (OpGetDAG [98; 97]%N) Dumped; ENew 3 (Some path_u); ECall 3 (OpGetDAG [98; 97]%N) Dumped].

Example C46_independent_default_places_nonvacuous :
  system_ok places_env /\ (forall k, default_places (w_tok places_world k)) /\
  ~ in_tmp places_env (dict_path places_env (m_dict (w_tok places_world 0))) /\
  Forall (elsewhere 0) places_busy /\ Forall (calls_only places_env) places_busy /\
  snd (do_event places_env numQ demo_hmm (do_events places_env numQ demo_hmm places_world places_busy)
         (ECall 0 (OpGetDAG [97; 98; 97]%N) Dumped)) = OutDAG [[0]; [1]; [2]] /\
  snd (do_event places_env numQ demo_hmm (do_events places_env numQ demo_hmm places_world places_busy)
         (ECall 3 (OpGetDAG [97; 98; 97]%N) Dumped)) = OutDAG [[0; 1]; [1]; [2]].
Proof.
  split; [apply places_ok|]. split; [intros [|[|k]]; split; reflexivity|].
  split; [intros (x&_&E); discriminate E|].
  split; [unfold places_busy; repeat constructor; simpl; discriminate|].
  split; [|split; vm_compute; reflexivity].
  unfold places_busy. repeat constructor; cbn; try (intros q b E; discriminate E).
  intros q b E. injection E as <- <-. exists [49%N]. split; [|reflexivity].
  intros I. cbn in I. intuition discriminate.
Qed.
