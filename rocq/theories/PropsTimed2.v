(** * When changes of the dictionary reach a half-consumed generator (C75, C76) *)
From Coq Require Import Lia.
From Verif Require Import PyBase PyRegex PyNum InstQ ModelFinalseg ModelSeg ModelTimed SpecBase SpecSeg Demo
  ProofsBase ProofsRegex ProofsSplit ProofsDag ProofsFinalseg ProofsSeg ProofsDemo.

(** ** Loops over the pieces of a split *)

Definition nonempty (x : str) : bool := match x with [] => false | _ => true end.

Lemma split_runs p s : filter nonempty (re_split (RGrp 1 (RPlus p)) s) = map snd (runs p s).
Proof.
  assert (G : forall l, gfor l (fun x : str => match x with [] => gnil | _ => gone x end) = gof (filter nonempty l)).
  { induction l as [|x l IH]; [reflexivity|]. cbn [gfor filter]. rewrite IH. now destruct x. }
  pose proof (@gfor_split_class str p (fun x => match x with [] => gnil | _ => gone x end) s eq_refl) as E.
  rewrite !G in E. injection E as E. rewrite E.
  pose proof (runs_class p s) as RC. clear E G. induction RC as [|[b r] l [N _] _ IH]; [reflexivity|].
  cbn [map filter snd]. rewrite IH. destruct r; [now elim N|reflexivity].
Qed.

Lemma tfor_nonempty {B} (f : str -> tgen B) l n :
  (forall k, f [] k = gnil) -> tfor l f n = tfor (filter nonempty l) f n.
Proof.
  intros F0. revert n. induction l as [|x l IH]; intros n; [reflexivity|]. cbn [tfor filter].
  destruct x as [|c x]; cbn [nonempty].
  - unfold tapp. rewrite F0. cbn. rewrite Nat.add_0_r, IH. now destruct (tfor _ _ _).
  - cbn [tfor]. unfold tapp. destruct (snd (f _ n)); [reflexivity|]. now rewrite IH.
Qed.

(** ** C75 *)

(** each run in its turn, [f] being told how many words were yielded before *)
Fixpoint in_turn (f : nat -> str -> gen str) (rs : list str) (n : nat) : gen str :=
  match rs with
  | [] => ([], None)
  | r :: rs' =>
      let g := f n r in
      match snd g with
      | None => let h := in_turn f rs' (n + length (fst g)) in (fst g ++ fst h, snd h)
      | Some _ => g
      end
  end.

Lemma tfor_in_turn (f : str -> tgen str) g l n :
  (forall x k, In x l -> f x k = g k x) -> tfor l f n = in_turn g l n.
Proof.
  revert n. induction l as [|x l IH]; intros n E; [reflexivity|]. cbn [tfor in_turn]. unfold tapp.
  rewrite E by now left. destruct (snd (g n x)); [reflexivity|]. rewrite IH; [reflexivity|].
  intros y k I. apply E. now right.
Qed.

(** With HMM=False (or in full mode), whatever the caller does to the dictionary
    between two calls of next(): every maximal run of word characters is segmented by
    the dictionary as it was when the run was begun. *)
Theorem C75_dictionary_of_the_beginning_of_a_run :
  forall num (H : hmm num) (D : nat -> moment) (m : mode) (s : str),
    m <> WithHMM -> (forall n, mo_check (D n) = None) ->
    t_cut num H D m s 0 =
    in_turn (fun n r => cut num H m (mo_freq (D n)) (mo_total (D n)) (mo_force (D n)) r)
            (map snd (runs word_char s)) 0.
Proof.
  intros num H D m s Nm C. unfold t_cut, re_han_default. rewrite tfor_nonempty by reflexivity.
  rewrite split_runs, (runs_ext _ _ s is_word_char_ok). apply tfor_in_turn. intros x k I.
  apply in_map_iff in I. destruct I as ([b r]&Er&I). cbn [snd] in Er. subst r.
  pose proof (runs_class word_char s) as RC. rewrite Forall_forall in RC. destruct (RC _ I) as [NE FA].
  cbn [fst snd] in NE, FA.
  assert (R : runs word_char x = [(b, x)]).
  { rewrite <- (app_nil_r x) at 1. rewrite (@runs_app_run word_char b x []); auto. simpl. exact Logic.I. }
  rewrite cut_runs, R. cbn [gfor fst snd]. rewrite gapp_nil_r. destruct x as [|c x]; [now elim NE|].
  rewrite re_matches_plus, is_word_char_ok. inversion FA as [|? ? Fc _]; subst.
  destruct (word_char c); [|reflexivity].
  unfold t_block. rewrite C. destruct m; [reflexivity|now elim Nm|reflexivity].
Qed.
Print Assumptions C75_dictionary_of_the_beginning_of_a_run.

(** 来到北京大学生 and again: the words disappear after the first word; the run goes on
    as planned, the next run is cut into characters *)
Definition vanishing (n : nat) : moment :=
  mkMoment None (if (n <? 1)%nat then demo_fr else []) demo_total [].
Example C75_nonvacuous :
  (forall n, mo_check (vanishing n) = None) /\
  t_cut numQ demo_hmm vanishing NoHMM
    [c_lai; c_dao; c_bei; c_jing; c_da; c_xue; c_comma; c_bei; c_jing] 0 =
  ([[c_lai; c_dao]; [c_bei; c_jing; c_da; c_xue]; [c_comma]; [c_bei]; [c_jing]], None).
Proof. split; [reflexivity|vm_compute; reflexivity]. Qed.

(** With HMM=True that is false: [FREQ] is looked at again for every group of single
    characters. *)
Theorem C75_with_hmm_refuted :
  exists num (H : hmm num) (D : nat -> moment) (s : str),
    (forall n, mo_check (D n) = None) /\ (forall c, In c s -> word_char c = true) /\
    t_cut num H D WithHMM s 0 <> cut num H WithHMM (mo_freq (D 0)) (mo_total (D 0)) (mo_force (D 0)) s.
Proof.
  (* 来到学北: after 来到 the word 学北 is added *)
  exists numQ, demo_hmm,
    (fun n => mkMoment None (if (n <? 1)%nat then demo_fr else demo_fr ++ [([c_xue; c_bei], 5%Z)]) demo_total []),
    [c_lai; c_dao; c_xue; c_bei].
  split; [reflexivity|]. split.
  - apply Forall_forall. repeat constructor.
  - vm_compute. discriminate.
Qed.
Print Assumptions C75_with_hmm_refuted.

(** ** C76 *)

Section Forced.
  Variable num : Num.
  Variable H : hmm num.
  Variable D : nat -> moment.

  (** what is to be shown of the word yielded at moment [k] *)
  Definition respected (k : nat) (w : str) : Prop :=
    2 <= length w -> Forall (fun c => is_han c = true) w -> In w (mo_force (D k)) ->
    exists j, j <= k /\ is_word (sget (mo_freq (D j))) w.

  Definition tgood (n0 : nat) (g : tgen str) : Prop :=
    forall n i w, n0 <= n -> nth_error (fst (g n)) i = Some w -> respected (n + i) w.

  Lemma tgood_mono n0 n1 g : n0 <= n1 -> tgood n0 g -> tgood n1 g.
  Proof. intros L G n i w Ln. apply G. lia. Qed.

  Lemma tapp_good n0 g h : tgood n0 g -> tgood n0 h -> tgood n0 (tapp g h).
  Proof.
    intros G K n i w L. unfold tapp. destruct (snd (g n)); [now apply G|]. cbn [fst].
    destruct (Nat.lt_ge_cases i (length (fst (g n)))) as [Li|Li].
    - rewrite nth_error_app1 by exact Li. now apply G.
    - rewrite nth_error_app2 by exact Li. intros E. apply K in E; [|lia].
      replace (n + i) with (n + length (fst (g n)) + (i - length (fst (g n)))) by lia. exact E.
  Qed.

  Lemma tcons_good n0 x g : (forall k, n0 <= k -> respected k x) -> tgood n0 g -> tgood n0 (tcons x g).
  Proof.
    intros R G n i w L. unfold tcons, gcons. cbn [fst]. destruct i as [|i]; cbn [nth_error].
    - intros [= <-]. apply R. lia.
    - intros E. apply G in E; [|lia]. now rewrite Nat.add_succ_r.
  Qed.

  Lemma tfor_good {A} n0 (l : list A) f : (forall x, In x l -> tgood n0 (f x)) -> tgood n0 (tfor l f).
  Proof.
    induction l as [|x l IH]; intros G; cbn [tfor].
    - intros n i w _ E. now destruct i.
    - apply tapp_good; [apply G; now left|apply IH; intros; apply G; now right].
  Qed.

  Lemma short_good n0 g : (forall w, In w (fst g) -> length w <= 1) -> tgood n0 (tpure g).
  Proof. intros S n i w _ E L. apply nth_error_In in E. apply S in E. lia. Qed.

  Lemma singles_good n0 (s : str) : tgood n0 (tpure (gof (map (fun c => [c]) s))).
  Proof.
    apply short_good. cbn. intros w I. apply in_map_iff in I. destruct I as (c&<-&_). cbn. lia.
  Qed.

  Lemma other_good n0 ws : (forall w, In w (fst ws) -> exists c, In c w /\ is_han c = false) -> tgood n0 (tpure ws).
  Proof.
    intros O n i w _ E _ Hw. apply nth_error_In in E. destruct (O w E) as (c&I&Nc).
    rewrite Forall_forall in Hw. rewrite (Hw c I) in Nc. discriminate.
  Qed.

  Lemma t_word_good n0 word : tgood n0 (t_word D word).
  Proof.
    intros n i w L. unfold t_word. destruct (str_in word (mo_force (D n))) eqn:S; cbn [negb].
    - intros E. apply (singles_good n0 word n i w L). exact E.
    - destruct i as [|i]; [|now destruct i]. cbn. intros [= <-] _ _ I. exfalso.
      rewrite Nat.add_0_r in I. apply str_in_In in I. congruence.
  Qed.

  Lemma t_fs_cut_good n0 buf : tgood n0 (t_fs_cut num H D buf).
  Proof.
    intros n. unfold t_fs_cut, fs_re_han. revert n.
    assert (G : tgood n0 (tfor (map snd (runs is_han buf)) (t_fs_block num H D))).
    { apply tfor_good. intros x I. apply in_map_iff in I. destruct I as ([b r]&<-&I). cbn [snd].
      pose proof (runs_class is_han buf) as RC. rewrite Forall_forall in RC. destruct (RC _ I) as [NE FA].
      cbn [fst snd] in NE, FA. intros n. unfold t_fs_block, fs_re_han. rewrite re_matches_plus. revert n.
      destruct r as [|c r]; [now elim NE|]. inversion FA as [|? ? Fc FA']; subst. destruct (is_han c) eqn:Hc.
      - apply tapp_good; [apply tfor_good; intros; apply t_word_good|].
        intros n i w _ E. now destruct i.
      - apply other_good. intros w Iw.
        assert (W : w <> [] /\ In w (re_split fs_re_skip (c :: r))).
        { revert Iw. generalize (re_split fs_re_skip (c :: r)). induction l as [|x l IH]; [intros []|].
          cbn [gfor]. unfold gapp. destruct x as [|d x]; cbn [snd gnil gone gof fst].
          - intros K. destruct (IH K). split; [auto|now right].
          - intros [<-|K]; [split; [discriminate|now left]|]. destruct (IH K). split; [auto|now right]. }
        destruct W as [Nw Iw']. destruct w as [|d w]; [now elim Nw|]. exists d. split; [now left|].
        assert (J : In d (c :: r)).
        { rewrite <- (re_split_concat fs_re_skip (c :: r)). apply in_concat. exists (d :: w). split; [exact Iw'|now left]. }
        rewrite Forall_forall in FA. exact (FA d J). }
    intros n i w L E. rewrite tfor_nonempty in E.
    - rewrite split_runs in E. now apply (G n i w L).
    - reflexivity.
  Qed.

  Lemma t_cut_buf_good n0 buf : tgood n0 (t_cut_buf num H D buf).
  Proof.
    intros n i w L. unfold t_cut_buf. destruct (length buf =? 1) eqn:E1.
    - apply Nat.eqb_eq in E1. apply (short_good n0 (gone buf)); [|exact L].
      cbn. intros v [<-|[]]. lia.
    - destruct (negb _); [now apply (t_fs_cut_good n0 buf n i w)|now apply (singles_good n0 buf n i w)].
  Qed.

  Lemma t_flush_good n0 (buf : str) : tgood n0 (match buf with [] => tpure gnil | _ => t_cut_buf num H D buf end).
  Proof.
    destruct buf as [|c b]; [intros n i w _ E; now destruct i|apply t_cut_buf_good].
  Qed.

  Lemma t_hmm_loop_good n0 s (route : list (F num * nat)) fuel x buf :
    route_ok num (mo_freq (D n0)) s 0 route ->
    tgood n0 (t_hmm_loop num H D fuel s route x buf).
  Proof.
    intros RO. revert x buf. induction fuel as [|fuel IH]; intros x buf; cbn [t_hmm_loop].
    - intros n i w _ E. now destruct i.
    - destruct (x <? length s) eqn:E; [|apply t_flush_good].
      apply Nat.ltb_lt in E. destruct (route_some RO E) as [r ER]. rewrite ER. cbv zeta.
      destruct (step_slice RO E ER) as [HI HR].
      destruct (snd r + 1 - x =? 1) eqn:E1; [apply IH|].
      apply tapp_good; [apply t_flush_good|]. apply tcons_good; [|apply IH].
      intros k Lk _ _ _. exists n0. split; [exact Lk|]. apply freq_true_word.
      rewrite dag_at_words in HI. destruct (dag_words (mo_freq (D n0)) s x) as [|y l] eqn:Ew.
      + destruct HI as [HI|[]]. apply Nat.eqb_neq in E1. lia.
      + rewrite <- Ew in HI. now apply dag_words_range in HI.
  Qed.

  Lemma t_block_good blk : tgood 0 (t_block num H D WithHMM blk).
  Proof.
    intros n i w _. unfold t_block. cbv zeta. destruct (mo_check (D n)); [now destruct i|].
    destruct (calc _ _ _ _ _) as [route|x] eqn:E; [|now destruct i].
    apply (t_hmm_loop_good n); [now apply calc_ok in E|lia].
  Qed.

  Lemma t_cut_good s : tgood 0 (t_cut num H D WithHMM s).
  Proof.
    intros n. unfold t_cut, re_han_default. rewrite tfor_nonempty by reflexivity. rewrite split_runs. revert n.
    apply tfor_good. intros x I. apply in_map_iff in I. destruct I as ([b r]&<-&I). cbn [snd].
    pose proof (runs_class is_word_char s) as RC. rewrite Forall_forall in RC. destruct (RC _ I) as [NE FA].
    cbn [fst snd] in NE, FA. destruct r as [|c r]; [now elim NE|]. intros n. rewrite re_matches_plus. revert n.
    inversion FA as [|? ? Fc FA']; subst. destruct (is_word_char c) eqn:Hc; [apply t_block_good|].
    cbn [is_full]. rewrite cut_other_false. apply other_good. cbn [fst gof]. intros w Iw.
    destruct (chars_crlf_spec (c :: r)) as [CC CN]. rewrite Forall_forall in CN. specialize (CN w Iw).
    destruct w as [|d w]; [now elim CN|]. exists d. split; [now left|].
    assert (J : In d (c :: r)).
    { rewrite <- CC. apply in_concat. exists (d :: w). split; [exact Iw|now left]. }
    rewrite Forall_forall in FA. specialize (FA d J). unfold is_word_char in FA.
    destruct (is_han d); [|reflexivity]. discriminate FA.
  Qed.
End Forced.

(** del_word on a half-consumed generator (HMM=True) acts at once: a forced split that
    is there when the word at position [i] is yielded is respected, unless the word was
    planned as a word of the dictionary when its run was begun. *)
Theorem C76_forced_split_acts_at_once :
  forall num (H : hmm num) (D : nat -> moment) (s : str) (i : nat) (w : str),
    nth_error (fst (t_cut num H D WithHMM s 0)) i = Some w ->
    2 <= length w -> (forall c, In c w -> han_char c = true) ->
    In w (mo_force (D i)) ->
    exists j, j <= i /\ is_word (sget (mo_freq (D j))) w.
Proof.
  intros num H D s i w E L Hw F. apply (t_cut_good num H D s 0 i w (le_n 0) E L); [|exact F].
  apply Forall_forall. exact Hw.
Qed.
Print Assumptions C76_forced_split_acts_at_once.

(** 来到学北学: the HMM makes 学北学 one word, unless it is deleted after the first word *)
Example C76_nonvacuous :
  let s := [c_lai; c_dao; c_xue; c_bei; c_xue] in
  let w := [c_xue; c_bei; c_xue] in
  let at_moment n force := mkMoment None demo_fr demo_total (if (n <? 1)%nat then [] else force) in
  t_cut numQ demo_hmm (fun n => at_moment n []) WithHMM s 0 = ([[c_lai; c_dao]; w], None) /\
  t_cut numQ demo_hmm (fun n => at_moment n [w]) WithHMM s 0
    = ([[c_lai; c_dao]; [c_xue]; [c_bei]; [c_xue]], None) /\
  t_cut numQ demo_hmm (fun n => at_moment n [[c_lai; c_dao]]) WithHMM (s ++ [c_lai; c_dao]) 0
    = ([[c_lai; c_dao]; w; [c_lai; c_dao]], None).
Proof. vm_compute. repeat split; reflexivity. Qed.
