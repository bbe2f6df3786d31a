(** * C85: cut in one thread while other threads change the tokenizer *)
From Coq Require Import Lia.
From Verif Require Import PyBase PyRegex PyNum InstQ ModelFinalseg ModelSeg ModelDict ModelTimed ModelConc ModelRace
  SpecBase SpecSeg SpecDict SpecConc Demo ProofsBase ProofsRegex ProofsSplit ProofsDag ProofsSeg ProofsDict ProofsDemo
  ProofsConc ProofsRace PropsTimed2.

(** Whatever every single read finds: the words given out are not empty, and joined
    they are the text, or the beginning of it if there is an exception. *)
Theorem C85_lossless :
  forall num (H : hmm num) (D : nat -> moment) (HMM : bool) (s : str) (n : nat),
    let g := fst (r_cut num H D (mode_of false HMM) s n) in
    ~ In [] (fst g) /\ prefix_of (concat (fst g)) s /\ (snd g = None -> concat (fst g) = s).
Proof.
  intros num H D HMM s n g.
  destruct (r_cut_partial num H D (mode_of false HMM) s ltac:(now destruct HMM) n) as [u [[P1 P2] [PR N]]].
  fold g in P1, P2, N. split; [|rewrite P1; auto].
  intros I. rewrite Forall_forall in P2. now apply (P2 [] I).
Qed.

(** If the total is positive and no frequency negative at every read, and no key is
    lost from one read to the next, then there is no exception, in any mode. *)
Theorem C85_no_exception :
  forall num (H : hmm num) (D : nat -> moment) (m : mode) (s : str) (n : nat),
    (forall k, mo_check (D k) = None /\ sane (sget (mo_freq (D k))) (mo_total (D k))) ->
    (forall k w, sget (mo_freq (D k)) w <> None -> sget (mo_freq (D (S k))) w <> None) ->
    snd (fst (r_cut num H D m s n)) = None.
Proof.
  intros num H D m s n OK KEEP. destruct m; [apply r_full_ok; auto| |];
    (match goal with |- snd (fst (r_cut _ _ _ ?m _ _)) = _ =>
       destruct (r_cut_total num H D OK KEEP m s eq_refl n) as [ws [n' [-> _]]] end; reflexivity).
Qed.

(** Without HMM every word of two or more characters is a line break, a run of letters
    and digits, or was in the dictionary at one of the reads of this call. *)
Theorem C85_words_were_there :
  forall num (H : hmm num) (D : nat -> moment) (s w : str) (n : nat),
    In w (fst (fst (r_cut num H D NoHMM s n))) ->
    length w = 1 \/ w = [13; 10]%N \/ Forall (fun c => is_alnum c = true) w
    \/ exists k, n <= k < snd (r_cut num H D NoHMM s n) /\ is_word (sget (mo_freq (D k))) w.
Proof.
  intros num H D s w n I. set (m := snd (r_cut num H D NoHMM s n)).
  set (D' k := if (n <=? k) && (k <? m) then D k else mkMoment None [] 0 []).
  assert (E : r_cut num H D' NoHMM s n = r_cut num H D NoHMM s n).
  { apply (l_cut num H D D'). fold m. intros k [L1 L2]. unfold D'.
    apply Nat.leb_le in L1. apply Nat.ltb_lt in L2. rewrite L1, L2. reflexivity. }
  rewrite <- E in I. pose proof (r_nohmm_words num H D' s n) as F. rewrite Forall_forall in F.
  destruct (F w I) as [[A|[A|[k [z [A B]]]]]|A]; auto. right. right. right. exists k. unfold D' in A.
  destruct ((n <=? k) && (k <? m)) eqn:R; [|discriminate A]. apply andb_true_iff in R. destruct R as [R1 R2].
  apply Nat.leb_le in R1. apply Nat.ltb_lt in R2. split; [lia|]. exists z. auto.
Qed.

Section Forced.
  Variable num : Num.
  Variable H : hmm num.
  Variable D : nat -> moment.
  Variable n0 : nat.

  (** what is to be shown of a word given out by reads from number [n0] on *)
  Definition respects (w : str) : Prop :=
    2 <= length w -> Forall (fun c => is_han c = true) w ->
    (exists k, n0 <= k /\ ~ In w (mo_force (D k))) \/ exists k, is_word (sget (mo_freq (D k))) w.
  Definition cgood (g : cgen str) : Prop := forall n, n0 <= n -> n <= snd (g n) /\ Forall respects (fst (fst (g n))).
  Definition rmono {A} (a : rd A) : Prop := forall n, n <= snd (a n).

  Lemma bind_mono {A B} (a : rd A) (f : A -> rd B) : rmono a -> (forall x, rmono (f x)) -> rmono (rd_bind a f).
  Proof.
    intros M N n. unfold rd_bind. specialize (M n). destruct (a n) as [[x|e] n1]; cbn [snd] in *; [|auto].
    specialize (N x n1). lia.
  Qed.
  Lemma read_mono {A} (f : moment -> A) : rmono (rd_read D f).
  Proof. intros n. cbn. lia. Qed.
  Lemma ret_mono {A} (x : A) : rmono (rd_ret x).
  Proof. intros n. cbn. lia. Qed.
  Lemma err_mono {A} e : rmono (@rd_err A e).
  Proof. intros n. cbn. lia. Qed.
  Lemma lift_mono {A} (x : res A) : rmono (rd_lift x).
  Proof. intros n. cbn. lia. Qed.
  Hint Resolve bind_mono read_mono ret_mono err_mono lift_mono : core.

  Lemma scan_mono fuel s k i frag tmp : rmono (r_dag_scan D fuel s k i frag tmp).
  Proof.
    revert i frag tmp. induction fuel as [|fuel IH]; intros i frag tmp; cbn [r_dag_scan]; auto.
    destruct (i <? length s); auto. apply bind_mono; auto. intros [|]; auto. apply bind_mono; auto. intros [z|]; auto.
  Qed.
  Lemma dag_mono s : rmono (r_get_DAG D s).
  Proof.
    apply bind_mono; auto. intros [x|]; auto. generalize (seq 0 (length s)). intros ks.
    induction ks as [|k ks IH]; cbn [r_dag_loop]; auto. apply bind_mono; [|intros; apply bind_mono; auto].
    apply bind_mono; [apply scan_mono|auto].
  Qed.
  Lemma cands_mono lt s idx route xs : rmono (r_calc_cands num D lt s idx route xs).
  Proof.
    induction xs as [|x xs IH]; cbn [r_calc_cands]; auto. apply bind_mono; auto. intros z. apply bind_mono; auto.
    intros lw. destruct (nth_error route (x - idx)); auto.
  Qed.
  Lemma calc_mono s dag : rmono (r_calc num D s dag).
  Proof.
    apply bind_mono; auto. intros t. apply bind_mono; auto. intros lt.
    generalize [(f_zero num, 0)]. induction (length s) as [|m IH]; intros route; cbn [r_calc_loop]; auto.
    destruct (nth_error dag m); auto. apply bind_mono; [apply cands_mono|]. intros cs. apply bind_mono; auto.
  Qed.

  Lemma pure_good g : Forall respects (fst g) -> cgood (cpure g).
  Proof. intros F n _. cbn. auto. Qed.
  Lemma app_good g h : cgood g -> cgood h -> cgood (capp g h).
  Proof.
    intros G K n L. unfold capp. destruct (G n L) as [A B]. destruct (g n) as [[ws [e|]] n1]; cbn [fst snd] in *; [auto|].
    destruct (K n1) as [C E]; [lia|]. destruct (h n1) as [b n2]. cbn [fst snd] in *. split; [lia|].
    apply Forall_app. auto.
  Qed.
  Lemma cons_good x g : respects x -> cgood g -> cgood (ccons x g).
  Proof.
    intros R G n L. unfold ccons. destruct (G n L) as [A B]. destruct (g n) as [b n1]. cbn [fst snd gcons] in *.
    split; auto.
  Qed.
  Lemma for_good {A} (l : list A) f : (forall x, In x l -> cgood (f x)) -> cgood (cfor l f).
  Proof.
    induction l as [|x l IH]; intros G; cbn [cfor]; [apply pure_good; constructor|].
    apply app_good; [apply G; left; auto|apply IH; intros; apply G; right; auto].
  Qed.
  Lemma short_respects w : length w <= 1 -> respects w.
  Proof. intros L L2. lia. Qed.
  Lemma other_respects w c : In c w -> is_han c = false -> respects w.
  Proof. intros I N _ F. rewrite Forall_forall in F. rewrite (F c I) in N. discriminate. Qed.
  Lemma singles_respect (s : str) : Forall respects (map (fun c => [c]) s).
  Proof. apply Forall_forall. intros w I. apply in_map_iff in I. destruct I as (c & <- & _). apply short_respects. auto. Qed.

  Lemma word_good w : cgood (r_word D w).
  Proof.
    intros n L. unfold r_word. cbn [fst snd]. split; [lia|].
    destruct (str_in w (mo_force (D n))) eqn:S; cbn [negb]; [apply singles_respect|].
    constructor; [|constructor]. intros _ _. left. exists n. split; auto. intros I. apply str_in_In in I. congruence.
  Qed.

  Lemma fs_cut_good buf : cgood (r_fs_cut num H D buf).
  Proof.
    unfold r_fs_cut, fs_re_han. apply for_good. intros x I.
    assert (X : x = [] \/ exists b, In (b, x) (runs is_han buf)).
    { destruct x as [|c x]; [auto|]. right. assert (J : In (c :: x) (filter nonempty (re_split fs_re_han buf))).
      { apply filter_In. split; auto. }
      unfold fs_re_han in J. rewrite split_runs in J. apply in_map_iff in J. destruct J as ([b r] & E & J). cbn in E. subst.
      exists b. auto. }
    unfold r_fs_block, fs_re_han. rewrite re_matches_plus. destruct X as [->|[b J]].
    { apply pure_good. cbn. constructor. }
    pose proof (runs_class is_han buf) as RC. rewrite Forall_forall in RC. destruct (RC _ J) as [NE FA].
    cbn [fst snd] in NE, FA. destruct x as [|c r]; [now elim NE|]. inversion FA as [|? ? Fc FA']; subst.
    destruct (is_han c) eqn:Hc.
    - apply app_good; [apply for_good; intros; apply word_good|]. apply pure_good. constructor.
    - apply pure_good. apply Forall_forall. intros w Iw.
      assert (W : w <> [] /\ In w (re_split fs_re_skip (c :: r))).
      { revert Iw. generalize (re_split fs_re_skip (c :: r)). induction l as [|x l IH]; [intros []|].
        cbn [gfor]. unfold gapp. destruct x as [|d x]; cbn [snd gnil gone gof fst].
        - intros K. destruct (IH K). split; [auto|now right].
        - intros [<-|K]; [split; [discriminate|now left]|]. destruct (IH K). split; [auto|now right]. }
      destruct W as [Nw Iw']. destruct w as [|d w]; [now elim Nw|]. apply (other_respects _ d); [now left|].
      assert (Q : In d (c :: r)).
      { rewrite <- (re_split_concat fs_re_skip (c :: r)). apply in_concat. exists (d :: w). split; [exact Iw'|now left]. }
      rewrite Forall_forall in FA. exact (FA d Q).
  Qed.
  Lemma buf_good buf : cgood (match buf with [] => cpure gnil | _ => r_cut_buf num H D buf end).
  Proof.
    destruct buf as [|c b]; [apply pure_good; constructor|]. intros n L. unfold r_cut_buf.
    destruct (length (c :: b) =? 1) eqn:E1.
    - split; [auto|]. apply Nat.eqb_eq in E1. constructor; [|constructor]. apply short_respects. lia.
    - destruct (negb _).
      + destruct (fs_cut_good (c :: b) (S n)) as [A B]; [lia|]. split; [lia|auto].
      + split; [cbn; lia|]. apply singles_respect.
  Qed.
  Lemma loop_good s route fuel x buf :
    route_fine num D s route -> cgood (r_hmm_loop num H D fuel s route x buf).
  Proof.
    intros RF. revert x buf. induction fuel as [|fuel IH]; intros x buf; cbn [r_hmm_loop]; [apply pure_good; constructor|].
    destruct (x <? length s) eqn:E; [|apply buf_good]. apply Nat.ltb_lt in E.
    destruct (RF x E) as [r [-> [HR SN]]]. cbv zeta. destruct (snd r + 1 - x =? 1) eqn:E1; [apply IH|].
    apply app_good; [apply buf_good|]. apply cons_good; [|apply IH]. intros _ _. right. apply Nat.eqb_neq in E1.
    destruct SN as [SN|[k [z [A B]]]]; [lia|]. exists k, z. auto.
  Qed.
  Lemma gen_good {A} (a : rd A) (f : A -> cgen str) n :
    rmono a -> n0 <= n ->
    (forall x n1, a n = (Ok x, n1) -> n <= n1 -> n1 <= snd (f x n1) /\ Forall respects (fst (fst (f x n1)))) ->
    n <= snd (rd_gen a f n) /\ Forall respects (fst (fst (rd_gen a f n))).
  Proof.
    intros M L G. unfold rd_gen. specialize (M n). destruct (a n) as [[x|e] n1]; cbn [snd] in *.
    - destruct (G x n1 eq_refl M). split; [lia|auto].
    - split; [auto|constructor].
  Qed.
  Lemma cut_good s : cgood (r_cut num H D WithHMM s).
  Proof.
    unfold r_cut, re_han_default. apply for_good. intros x I. destruct x as [|c r]; [apply pure_good; constructor|].
    assert (J : In (c :: r) (filter nonempty (re_split re_han_default s))) by (apply filter_In; split; auto).
    unfold re_han_default in J. rewrite split_runs in J. apply in_map_iff in J. destruct J as ([b y] & E & J). cbn in E. subst y.
    pose proof (runs_class is_word_char s) as RC. rewrite Forall_forall in RC. destruct (RC _ J) as [_ FA].
    cbn [fst snd] in FA. rewrite re_matches_plus. inversion FA as [|? ? Fc FA']; subst.
    destruct (is_word_char c) eqn:Hc.
    - intros n L. apply gen_good; auto using dag_mono. intros dag n1 E L1. apply gen_good; [apply calc_mono|lia|].
      intros route n2 E2 L2. apply r_get_DAG_ok in E. apply r_calc_ok in E2.
      apply (loop_good _ _ (S (length (c :: r))) 0 [] (route_is_fine num D _ _ _ E E2)). lia.
    - apply pure_good. cbn [is_full]. rewrite cut_other_false. cbn [fst gof]. apply Forall_forall. intros w Iw.
      destruct (chars_crlf_spec (c :: r)) as [CC CN]. rewrite Forall_forall in CN. specialize (CN w Iw).
      destruct w as [|d w]; [now elim CN|]. apply (other_respects _ d); [now left|].
      assert (Q : In d (c :: r)).
      { rewrite <- CC. apply in_concat. exists (d :: w). split; [exact Iw|now left]. }
      rewrite Forall_forall in FA. specialize (FA d Q). unfold is_word_char in FA.
      destruct (is_han d); [|reflexivity]. discriminate FA.
  Qed.
End Forced.

(** With HMM: a word of two or more Chinese characters that is a forced split at every
    read of this call is only given out if it was in the dictionary at one of them. *)
Theorem C85_forced_split :
  forall num (H : hmm num) (D : nat -> moment) (s w : str) (n : nat),
    let reads k := n <= k < snd (r_cut num H D WithHMM s n) in
    In w (fst (fst (r_cut num H D WithHMM s n))) ->
    2 <= length w -> (forall c, In c w -> han_char c = true) ->
    (forall k, reads k -> In w (mo_force (D k))) ->
    exists k, reads k /\ is_word (sget (mo_freq (D k))) w.
Proof.
  intros num H D s w n reads I L HA FO. set (m := snd (r_cut num H D WithHMM s n)) in *.
  set (D' k := if (n <=? k) && (k <? m) then D k else mkMoment None [] 0 [w]).
  assert (IN : forall k, (n <=? k) && (k <? m) = true -> reads k).
  { intros k R. apply andb_true_iff in R. destruct R as [R1 R2].
    apply Nat.leb_le in R1. apply Nat.ltb_lt in R2. split; auto. }
  assert (E : r_cut num H D' WithHMM s n = r_cut num H D WithHMM s n).
  { apply (l_cut num H D D'). fold m. intros k [L1 L2]. unfold D'.
    apply Nat.leb_le in L1. apply Nat.ltb_lt in L2. rewrite L1, L2. reflexivity. }
  rewrite <- E in I. destruct (cut_good num H D' n s n (le_n n)) as [_ G].
  rewrite Forall_forall in G. destruct (G w I L) as [(k & A & B)|(k & X)].
  - apply Forall_forall. exact HA.
  - exfalso. apply B. unfold D'. destruct ((n <=? k) && (k <? m)) eqn:R; [apply FO; auto|left; reflexivity].
  - exists k. unfold D' in X. destruct ((n <=? k) && (k <? m)) eqn:R; [auto|]. destruct X as (z & X & _). discriminate X.
Qed.

(** If nothing changes it is [cut]. *)
Theorem C85_no_updates :
  forall num (H : hmm num) (m : mode) fr total force s n,
    fst (r_cut num H (fun _ => mkMoment None fr total force) m s n) = cut num H m fr total force s.
Proof. intros. apply still_cut. Qed.

(** What a read finds in a process whose other threads are at [st]. *)
Definition moment_of (st : dstate * list thread) : moment :=
  mkMoment None (d_freq (fst st)) (d_total (fst st)) (d_force (fst st)).

Lemma steps_trans s s' s'' : conc_steps s s' -> conc_steps s' s'' -> conc_steps s s''.
Proof. intros A B. induction B; auto. eapply conc_more; eauto. Qed.

Lemma steps_keys s s' k : conc_steps s s' -> sget (d_freq (fst s)) k <> None -> sget (d_freq (fst s')) k <> None.
Proof.
  intros S G. induction S as [|s' s'' _ IH S]; auto. destruct S as [d ts i th d' th' N E]. cbn [fst] in *.
  step_cases E; auto; apply sset_keeps; auto.
Qed.
Lemma steps_nonneg d0 progs s' :
  (forall c, In c (concat progs) -> (0 <= freq_given c)%Z) ->
  (forall w n, sget (d_freq d0) w = Some n -> (0 <= n)%Z) ->
  conc_steps (d0, start progs) s' -> forall w n, sget (d_freq (fst s')) w = Some n -> (0 <= n)%Z.
Proof.
  intros NN P S. remember (d0, start progs) as s eqn:ES. revert ES.
  induction S as [|s' s'' S0 IH S]; intros ES; [subst; auto|]. specialize (IH ES). subst s.
  destruct S as [d ts i th d' th' N E]. cbn [fst] in *.
  assert (W : forall c, In c (whole th) -> (0 <= freq_given c)%Z).
  { intros c I. apply NN. rewrite <- (@run_whole _ _ _ _ S0). apply in_concat. exists (whole th). split; auto.
    apply in_map. eapply nth_error_In; eauto. }
  step_cases E; auto; intros w n; unfold set_freq; cbn [d_freq]; rewrite sget_sset.
  - destruct (str_eqb w _); [intros X; inversion X; lia|apply IH].
  - destruct (str_eqb w _); [|apply IH]. intros X; inversion X. apply W. unfold whole. rewrite Q0.
    apply in_or_app. right. left. auto.
Qed.

(** Together with C84: while other threads add words with frequencies that are not
    negative, cut raises nothing and loses nothing. *)
Theorem C85_while_others_add :
  forall num (H : hmm num) (HMM : bool) (s : str) (d0 : dstate) (progs : list (list call))
         (states : nat -> dstate * list thread),
    sane (sget (d_freq d0)) (d_total d0) ->
    (forall c, In c (concat progs) -> (0 <= freq_given c)%Z) ->
    conc_steps (d0, start progs) (states 0) ->
    (forall n, conc_steps (states n) (states (S n))) ->
    exists ws n, r_cut num H (fun n => moment_of (states n)) (mode_of false HMM) s 0 = (gof ws, n)
                 /\ concat ws = s.
Proof.
  intros num H HMM s d0 progs states [T P] NN S0 SS.
  assert (R : forall n, conc_steps (d0, start progs) (states n)).
  { induction n as [|n IH]; auto. eapply steps_trans; eauto. }
  destruct (r_cut_total num H (fun n => moment_of (states n))) with (m := mode_of false HMM) (s := s) (n := 0)
    as [ws [n [E [PW _]]]]; eauto.
  - intros n. split; [reflexivity|]. cbn [moment_of mo_freq mo_total]. specialize (R n).
    destruct (states n) as [d ts]. cbn [fst] in *. split.
    + destruct (@steps_total _ _ _ _ NN R) as [A _]. lia.
    + intros w z. apply (steps_nonneg d0 progs (d, ts) NN P R).
  - intros n w. cbn [moment_of mo_freq]. apply steps_keys. apply SS.
  - destruct HMM; reflexivity.
Qed.

(** A key can be lost when another thread initializes the tokenizer with another
    dictionary: between the test of line 188 and the access of line 189.  Both
    dictionaries are in order; the call ends with KeyError in every mode. *)
Theorem C85_no_exception_refuted :
  let D n := mkMoment None (if n <? 2 then demo_fr else d_freq (build [([c_lai], 8%Z)])) 8 [] in
  (forall k, mo_check (D k) = None /\ sane (sget (mo_freq (D k))) (mo_total (D k)) /\
             prefix_closed (sget (mo_freq (D k)))) /\
  forall num (H : hmm num) (m : mode), fst (r_cut num H D m [c_bei] 0) = ([], Some KeyError).
Proof.
  intros D. split.
  - intros k. split; [reflexivity|]. cbn [D mo_freq mo_total]. destruct (k <? 2).
    + split; [|exact demo_prefix_closed]. split; [lia|]. apply (proj2 demo_sane).
    + split; [|apply prefix_closedb_ok; reflexivity]. apply saneb_ok. reflexivity.
  - intros num H m. destruct m; reflexivity.
Qed.

(** The result need not be that of the dictionary at any moment: another thread adds
    北京 and then 大学 while 北京大学 is being cut. *)
Definition d_before : dstate := build [([c_lai], 8%Z)].
Definition d_between : dstate := add_word_freq d_before [c_bei; c_jing] 30 None.
Definition d_after : dstate := add_word_freq d_between [c_da; c_xue] 20 None.
Theorem C85_some_moment_refuted :
  let at_ n := if n <? 2 then d_before else if n <? 3 then d_between else d_after in
  let D n := mkMoment None (d_freq (at_ n)) (d_total (at_ n)) (d_force (at_ n)) in
  let text := [c_bei; c_jing; c_da; c_xue] in
  forall num (H : hmm num),
    fst (r_cut num H D NoHMM text 0) = gof [[c_bei]; [c_jing]; [c_da; c_xue]] /\
    forall d, In d [d_before; d_between; d_after] ->
      cut num H NoHMM (d_freq d) (d_total d) (d_force d) text <> gof [[c_bei]; [c_jing]; [c_da; c_xue]].
Proof.
  intros at_ D text num H. split; [reflexivity|].
  intros d [<-|[<-|[<-|[]]]] E; vm_compute in E; discriminate E.
Qed.

(** A thread adds 大学 while 北京大学 is cut: the hypotheses of the theorems hold, and
    the call sees the word in the middle. *)
Definition adder : list (list call) := [[([c_da; c_xue], 20%Z, None)]].
Definition adding (n : nat) : dstate * list thread :=
  match run_sched (repeat 0 (Nat.min n 9)) (d_between, start adder) with
  | Some st => st
  | None => (d_between, start adder)
  end.
Example C85_nonvacuous :
  sane (sget (d_freq d_between)) (d_total d_between) /\
  (forall c, In c (concat adder) -> (0 <= freq_given c)%Z) /\
  conc_steps (d_between, start adder) (adding 0) /\
  (forall n, conc_steps (adding n) (adding (S n))) /\
  fst (r_cut numQ demo_hmm (fun n => moment_of (adding n)) NoHMM
        ([c_bei; c_jing; c_da; c_xue] ++ [c_comma] ++ [c_da; c_xue]) 0)
  = gof [[c_bei; c_jing]; [c_da; c_xue]; [c_comma]; [c_da; c_xue]].
Proof.
  split; [apply saneb_ok; reflexivity|]. split; [intros c [<-|[]]; vm_compute; discriminate|].
  split; [constructor|]. split; [|vm_compute; reflexivity].
  intros n. do 9 (destruct n as [|n]; [apply sched_steps with (is := [0]); vm_compute; reflexivity|]).
  replace (adding (S (S (S (S (S (S (S (S (S (S n))))))))))) with (adding (S (S (S (S (S (S (S (S (S n))))))))));
    [constructor|]. unfold adding. rewrite !Nat.min_r by lia. reflexivity.
Qed.

(** a forced split that is given out for it is in the dictionary, and one that is not
    in the dictionary any more and comes out in single characters *)
Example C85_forced_nonvacuous :
  let w := [c_da; c_xue] in
  let at_ f := fun n : nat => {| mo_freq := f; mo_total := 15; mo_force := [w]; mo_check := None |} in
  fst (r_cut numQ demo_hmm (at_ [([c_da], 0%Z); (w, 5%Z)]) WithHMM w 0) = gof [w] /\
  fst (r_cut numQ demo_hmm (at_ []) WithHMM w 0) = gof [[c_da]; [c_xue]].
Proof. split; vm_compute; reflexivity. Qed.

Print Assumptions C85_lossless.
Print Assumptions C85_no_exception.
Print Assumptions C85_words_were_there.
Print Assumptions C85_forced_split.
Print Assumptions C85_no_updates.
Print Assumptions C85_while_others_add.
Print Assumptions C85_no_exception_refuted.
Print Assumptions C85_some_moment_refuted.
