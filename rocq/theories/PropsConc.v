(** * C84: threads calling add_word on one tokenizer *)
From Coq Require Import Permutation.
From Verif Require Import PyBase PyNum ModelSeg ModelDict ModelConc
  SpecBase SpecSeg SpecDict SpecConc ProofsBase ProofsDict ProofsConc Demo ProofsDemo.

(** A word that one thread adds has the frequency given, after every interleaving,
    unless it was not in the dictionary before and another thread adds a longer word
    that begins with it; then it may end with frequency 0. *)
Theorem C84_added_word :
  forall (d0 d : dstate) (progs : list (list call)) (ts : list thread) (i : nat) (c : call),
    conc_steps (d0, start progs) (d, ts) -> finished ts ->
    NoDup (map word_of (concat progs)) -> makes progs i c ->
    sget (d_freq d) (word_of c) = Some (freq_given c)
    \/ (sget (d_freq d) (word_of c) = Some 0%Z /\ sget (d_freq d0) (word_of c) = None /\
        exists j c', j <> i /\ makes progs j c' /\ extends (word_of c') (word_of c)).
Proof.
  intros d0 d progs ts i c S F ND M. pose proof (makes_concat M) as I.
  destruct (@run_cases _ _ _ _ (word_of c) S F) as [[c' [A [B C]]]|[[A _]|[A [B [j [c' [A1 [A2 A3]]]]]]]].
  - left. rewrite C. f_equal. f_equal. eapply same_word_same_call; eauto.
  - exfalso. apply (A c); auto.
  - right. split; auto. split; auto. exists j, c'. split; auto. intros ->. apply (A3 c); auto.
Qed.

(** Every other word keeps its frequency; it comes in with frequency 0 if it is a
    prefix of an added word. *)
Theorem C84_other_words :
  forall (d0 d : dstate) (progs : list (list call)) (ts : list thread) (k : str),
    conc_steps (d0, start progs) (d, ts) -> finished ts ->
    (forall c, In c (concat progs) -> word_of c <> k) ->
    sget (d_freq d) k =
    match sget (d_freq d0) k with
    | Some v => Some v
    | None => if existsb (fun c => is_prefix k (word_of c)) (concat progs) then Some 0%Z else None
    end.
Proof. intros. apply run_other with (ts := ts); auto. Qed.

(** The dictionary is prefix-closed again when all threads are done. *)
Theorem C84_prefix_closed :
  forall (d0 d : dstate) (progs : list (list call)) (ts : list thread),
    conc_steps (d0, start progs) (d, ts) -> finished ts ->
    prefix_closed (sget (d_freq d0)) -> prefix_closed (sget (d_freq d)).
Proof.
  intros d0 d progs ts S F P u v NE G.
  destruct (sget (d_freq d0) (u ++ v)) eqn:E.
  - apply (inv_in (@steps_inv _ _ _ _ S)). apply (P u v); auto. congruence.
  - assert (X : exists c, In c (concat progs) /\ is_prefix (u ++ v) (word_of c) = true).
    { destruct (@run_cases _ _ _ _ (u ++ v) S F) as [[c [A [B _]]]|[[_ A]|[_ [_ [j [c [M [X _]]]]]]]].
      - exists c. split; auto. rewrite B. apply is_prefix_spec. split.
        + intros Z. apply app_eq_nil in Z. tauto.
        + exists []. rewrite app_nil_r. auto.
      - congruence.
      - exists c. split; [eapply makes_concat; eauto|apply extends_prefix; auto]. }
    destruct X as [c [I X]]. apply (@run_prefixes _ _ _ _ c u S F I). apply is_prefix_spec in X. apply is_prefix_spec.
    destruct X as [_ [t X]]. split; auto. exists (v ++ t). rewrite X. rewrite app_assoc. auto.
Qed.

(** If no word added by one thread begins a word added by another, then after every
    interleaving the frequencies, the tags and the forced splits are those of making
    the calls one after the other, in any order. *)
Theorem C84_as_one_after_the_other :
  forall (d0 d : dstate) (progs : list (list call)) (ts : list thread) (l : list call),
    conc_steps (d0, start progs) (d, ts) -> finished ts ->
    NoDup (map word_of (concat progs)) ->
    (forall i j c c', makes progs i c -> makes progs j c' -> i <> j -> ~ extends (word_of c') (word_of c)) ->
    Permutation l (concat progs) ->
    let e := fold_left (fun d c => add_word_freq d (word_of c) (freq_given c) (snd c)) l d0 in
    (forall k, sget (d_freq d) k = sget (d_freq e) k) /\
    (forall k, sget (d_tags d) k = sget (d_tags e) k) /\
    (forall x, In x (d_force d) <-> In x (d_force e)).
Proof.
  intros d0 d progs ts l S F ND NX P e. change e with (seq_add d0 l).
  assert (NDL : NoDup (map word_of l)).
  { eapply Permutation_NoDup; [|exact ND]. apply Permutation_map. symmetry. auto. }
  assert (IN : forall c, In c l <-> In c (concat progs)).
  { intros c. split; apply Permutation_in; [|symmetry]; auto. }
  assert (DEC : forall k, (exists c, In c (concat progs) /\ word_of c = k)
                          \/ (forall c, In c (concat progs) -> word_of c <> k)).
  { intros k. destruct (existsb (fun c => str_eqb k (word_of c)) (concat progs)) eqn:E.
    - left. apply existsb_exists in E. destruct E as [c [I E]]. exists c. apply str_eqb_eq in E. auto.
    - right. intros c I Z. assert (X : existsb (fun c => str_eqb k (word_of c)) (concat progs) = true).
      { apply existsb_exists. exists c. split; auto. apply str_eqb_eq. auto. }
      congruence. }
  split; [|split].
  - intros k. destruct (DEC k) as [[c [I <-]]|N].
    + rewrite seq_add_word with (c := c); [|auto|apply IN; auto].
      assert (M : exists i, makes progs i c).
      { apply in_concat in I. destruct I as [p [J I]]. apply In_nth_error in J. destruct J as [i J].
        exists i, p. auto. }
      destruct M as [i M].
      destruct (C84_added_word _ _ _ _ _ _ S F ND M) as [A|[_ [_ [j [c' [A [B C]]]]]]]; auto.
      exfalso. apply (NX i j c c'); auto.
    + rewrite (C84_other_words _ _ _ _ k S F N), seq_add_other.
      * destruct (sget (d_freq d0) k); auto.
        assert (X : forall f, existsb f l = existsb f (concat progs)).
        { intros f. apply eq_true_iff_eq. rewrite !existsb_exists.
          split; intros [x [A B]]; exists x; split; auto; apply IN; auto. }
        rewrite X. auto.
      * intros c I. apply N. apply IN. auto.
  - intros k. pose proof (@steps_tags _ _ _ _ S k) as T. rewrite (@run_flat tagged _ _ _ _ S) in T
      by (intros th I; apply (finished_whole th F I)).
    destruct T as [[c [A [B [C D]]]]|[A B]], (seq_add_tags d0 l k) as [[c' [A' [B' [C' D']]]]|[A' B']].
    + rewrite D, D'. apply IN in A'. f_equal. apply (@same_word_same_call _ _ _ ND A A'). congruence.
    + exfalso. apply (A' c); auto. apply IN. auto.
    + exfalso. apply (A c'); auto. apply IN. auto.
    + congruence.
  - intros x. rewrite (@steps_force _ _ _ _ S x), seq_add_force.
    rewrite (@run_flat th_done _ _ _ _ S) by (intros th I; apply (finished_whole th F I)).
    split; (intros [A|[c [A B]]]; [auto|right; exists c; split; auto; apply IN; auto]).
Qed.

(** The total never goes below what it was nor above what it should be. *)
Theorem C84_total :
  forall (d0 d : dstate) (progs : list (list call)) (ts : list thread),
    (forall c, In c (concat progs) -> (0 <= freq_given c)%Z) ->
    conc_steps (d0, start progs) (d, ts) -> finished ts ->
    (d_total d0 <= d_total d <= d_total d0 + sum_given (concat progs))%Z.
Proof.
  intros d0 d progs ts NN S F. destruct (@steps_total _ _ _ _ NN S) as [A _].
  rewrite (@run_flat written _ _ _ _ S) in A by (intros th I; apply (finished_whole th F I)). auto.
Qed.

(** A single thread's calls are exactly the calls of the sequential model. *)
Theorem C84_one_thread :
  forall (d0 d : dstate) (cs : list call) (ts : list thread),
    conc_steps (d0, start [cs]) (d, ts) -> finished ts ->
    d = fold_left (fun d c => add_word_freq d (word_of c) (freq_given c) (snd c)) cs d0.
Proof.
  intros d0 d cs ts S F. destruct (@steps_one _ _ _ _ S) as [th [-> O]]. pose proof (@run_whole _ _ _ _ S) as W.
  inversion F as [|? ? [A B] _]; subst. unfold one_ok in O. rewrite A in O. rewrite O.
  cbn [map] in W. inversion W as [W']. unfold whole, begun, cur_calls. rewrite A, B, !app_nil_r. reflexivity.
Qed.

(** Every run comes to an end, and only when every call has returned. *)
Theorem C84_runs_end :
  forall (d0 : dstate) (ts : list thread),
    Acc (fun s' s => conc_step s s') (d0, ts) /\ (finished ts \/ exists s', conc_step (d0, ts) s').
Proof.
  intros d0 ts. split; [apply steps_end|].
  assert (D : {finished ts} + {~ finished ts}).
  { unfold finished. apply Forall_dec. intros th. destruct (th_cur th); [right; intros [X _]; discriminate|].
    destruct (th_todo th); [left; auto|right; intros [_ X]; discriminate]. }
  destruct D as [D|D]; auto. right. apply not_finished_steps; auto.
Qed.

(** The exception is real: 北京 with frequency 30 from one thread, 北京大学 with
    frequency 10 from another; in one interleaving 北京 ends with frequency 0, as if it
    had been deleted, though neither call deletes it and neither order of the two calls
    would do so. *)
Theorem C84_word_is_kept_refuted :
  let long : call := ([c_bei; c_jing; c_da; c_xue], 10%Z, None) in
  let short : call := ([c_bei; c_jing], 30%Z, None) in
  let d0 := build [([c_lai], 8%Z)] in
  exists d ts, conc_steps (d0, start [[long]; [short]]) (d, ts) /\ finished ts /\
    sget (d_freq d) [c_bei; c_jing] = Some 0%Z /\
    forall l, Permutation l [long; short] ->
      sget (d_freq (fold_left (fun d c => add_word_freq d (word_of c) (freq_given c) (snd c)) l d0)) [c_bei; c_jing]
      = Some 30%Z.
Proof.
  intros long short d0.
  eexists; eexists. split.
  { apply sched_steps with (is := [0;0;0;0] ++ [0;0] ++ [0] ++ repeat 1 8 ++ repeat 0 6).
    vm_compute; reflexivity. }
  split; [|split].
  - repeat constructor.
  - reflexivity.
  - intros l P. change (sget (d_freq (seq_add d0 l)) (word_of short) = Some (freq_given short)). apply seq_add_word.
    + eapply Permutation_NoDup; [apply Permutation_map, Permutation_sym; exact P|].
      repeat constructor; simpl; intuition discriminate.
    + apply Permutation_in with (l := [long; short]); [symmetry; auto|simpl; auto].
Qed.

(** The total can miss an addition. *)
Theorem C84_total_is_exact_refuted :
  let a : call := ([c_bei; c_jing], 30%Z, None) in
  let b : call := ([c_da; c_xue], 20%Z, None) in
  let d0 := build [([c_lai], 8%Z)] in
  exists d ts, conc_steps (d0, start [[a]; [b]]) (d, ts) /\ finished ts /\
    d_total d = 38%Z /\ sum_of (d_freq d) = 58%Z.
Proof.
  intros a b d0.
  eexists; eexists. split.
  { apply sched_steps with (is := [0; 0; 1; 1; 1; 0] ++ repeat 0 6 ++ repeat 1 6).
    vm_compute; reflexivity. }
  split; [repeat constructor|split; reflexivity].
Qed.

(** Two threads with two calls each, no word of one beginning a word of the other:
    the hypotheses of the theorems above hold together. *)
Example C84_nonvacuous :
  let p : list call := [([c_bei; c_jing; c_da; c_xue], 10%Z, None); ([c_bei; c_jing], 30%Z, Some [110%N])] in
  let q : list call := [([c_da; c_xue], 20%Z, None); ([c_lai; c_dao], 0%Z, None)] in
  let d0 := build [([c_lai], 8%Z)] in
  exists d ts, conc_steps (d0, start [p; q]) (d, ts) /\ finished ts /\
    NoDup (map word_of (concat [p; q])) /\ prefix_closed (sget (d_freq d0)) /\
    (forall i j c c', makes [p; q] i c -> makes [p; q] j c' -> i <> j -> ~ extends (word_of c') (word_of c)) /\
    sget (d_freq d) [c_bei; c_jing] = Some 30%Z /\ sget (d_freq d) [c_da] = Some 0%Z /\
    sget (d_tags d) [c_bei; c_jing] = Some [110%N] /\ d_force d = [[c_lai; c_dao]].
Proof.
  intros p q d0.
  eexists; eexists. split.
  { apply sched_steps with (is := [0; 1; 1; 0; 1; 0; 1; 0; 0; 1; 1; 0] ++ repeat 0 15 ++ repeat 1 11).
    vm_compute; reflexivity. }
  split; [repeat constructor|]. split; [repeat constructor; simpl; intuition discriminate|].
  split; [|split; [|split; [reflexivity|split; [reflexivity|split; reflexivity]]]].
  - apply prefix_closedb_ok. reflexivity.
  - intros i j c c' [x [N I]] [y [N' I']] NE [_ [t [_ X]]].
    destruct i as [|[|[|i]]], j as [|[|[|j]]]; try congruence; try discriminate N; try discriminate N';
      cbn in N, N'; inversion N; inversion N'; subst x y;
      cbn in I, I'; destruct I as [<-|[<-|[]]], I' as [<-|[<-|[]]]; discriminate X.
Qed.

Print Assumptions C84_added_word.
Print Assumptions C84_as_one_after_the_other.
Print Assumptions C84_total.
Print Assumptions C84_runs_end.
Print Assumptions C84_word_is_kept_refuted.
