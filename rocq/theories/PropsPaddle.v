(** * C81: switching the paddle mode on *)
From Verif Require Import PyBase PyNum ModelFinalseg ModelSeg ModelPosseg ModelArgs ModelLac ModelPaddle
  SpecBase SpecPaddle ProofsBase ProofsPvit InstQ Demo DemoPos ProofsDemo.

Lemma str_ltb_lex a b : str_ltb a b = true <-> lex_lt a b.
Proof.
  revert b. induction a as [|x a IH]; intros [|y b]; simpl.
  - split; [discriminate|]. intros [p [[c [r [E E']]]|[x [y [r [r' [E _]]]]]]]; destruct p; discriminate.
  - split; auto. intros _. exists []. left. exists y, b. auto.
  - split; [discriminate|]. intros [p [[c [r [E E']]]|[x' [y [r [r' [_ [E _]]]]]]]]; destruct p; discriminate.
  - rewrite orb_true_iff, andb_true_iff, N.ltb_lt, N.eqb_eq, IH. split.
    + intros [L|[-> [p [[c [r [E E']]]|[x' [y' [r [r' [E [E' L]]]]]]]]]].
      * exists []. right. exists x, y, a, b. auto.
      * exists (y :: p). left. exists c, r. subst. auto.
      * exists (y :: p). right. exists x', y', r, r'. subst. auto.
    + intros [p [[c [r [E E']]]|[x' [y' [r [r' [E [E' L]]]]]]]].
      * destruct p as [|z p]; [discriminate|]. simpl in E'. inversion E; inversion E'; subst. right. split; auto.
        exists p. left. exists c, r. auto.
      * destruct p as [|z p]; simpl in *; inversion E; inversion E'; subst; auto.
        right. split; auto. exists p. right. exists x', y', r, r'. auto.
Qed.

Lemma enable_flag f e : fst (fst (enable_paddle f e)) = true <-> f = true \/ usable e.
Proof.
  assert (K : forall v, fst (fst (enable_rest f (Some v) (predict e))) = true <->
            f = true \/ (~ lex_lt v s_161 /\ predict e = Imported tt)).
  { intros v. unfold enable_rest. rewrite <- str_ltb_lex. destruct (str_ltb v s_161); simpl.
    - intuition congruence.
    - destruct (predict e) as [[]| |x]; simpl; intuition congruence. }
  unfold enable_paddle, usable, found.
  destruct (first_try e) as [v| |x] eqn:E1.
  - rewrite K. split; intros [A|A]; auto.
    + right. exists v. tauto.
    + destruct A as [v' [[A|[A _]] B]]; [|discriminate]. inversion A; subst. tauto.
  - destruct (second_try e) as [v| |x] eqn:E2.
    + specialize (K v). destruct (enable_rest f (Some v) (predict e)) as [[f' l] r]. simpl in *. rewrite K.
      split; intros [A|A]; auto.
      * right. exists v. tauto.
      * destruct A as [v' [[A|[_ A]] B]]; [discriminate|]. inversion A; subst. tauto.
    + simpl. split; auto. intros [A|[v' [[A|[_ A]] B]]]; auto; discriminate.
    + simpl. split; auto. intros [A|[v' [[A|[_ A]] B]]]; auto; discriminate.
  - simpl. split; auto. intros [A|[v' [[A|[A _]] B]]]; auto; discriminate.
Qed.

Section Flag.
  Context (num : Num) (H : hmm num) (T : ptables num) (ord : orders) (fr : freqs) (total : Z)
    (force : list str) (tab : sdict str) (ds : dataset) (net : list Z -> res (list Z)) (gbk : bytes -> str).
  Notation pact := (pact num H T ord fr total force tab ds net gbk).
  Notation pacts := (pacts num H T ord fr total force tab ds net gbk).

  Lemma pacts_app l l' : pacts (l ++ l') = fold_left (fun p a => fst (pact p a)) l' (pacts l).
  Proof. unfold ModelPaddle.pacts. apply fold_left_app. Qed.

  Lemma flag_after l : p_flag (pacts l) = true <-> exists e, In (PEnable e) l /\ usable e.
  Proof.
    induction l as [|a l IH] using rev_ind.
    - simpl. split; [discriminate|]. intros [e [[] _]].
    - rewrite pacts_app. cbn [fold_left].
      assert (S : p_flag (fst (pact (pacts l) a)) = true <->
                  p_flag (pacts l) = true \/ exists e, a = PEnable e /\ usable e).
      { destruct a as [e|c|i]; cbn [ModelPaddle.pact].
        - pose proof (enable_flag (p_flag (pacts l)) e) as K.
          destruct (enable_paddle (p_flag (pacts l)) e) as [[f x] r]. simpl in *. rewrite K.
          split; intros [A|A]; auto; [right; eauto|]. destruct A as [e' [A B]]. inversion A; subst. auto.
        - simpl. split; auto. intros [A|[e [A _]]]; auto. discriminate.
        - destruct (nth_error (p_gens (pacts l)) i) as [[c|]|]; simpl; (split; auto; intros [A|[e [A _]]]; auto; discriminate). }
      rewrite S, IH. split.
      + intros [[e [I U]]|[e [E U]]]; exists e; split; auto; rewrite in_app_iff; subst; simpl; auto.
      + intros [e [I U]]. rewrite in_app_iff in I. destruct I as [I|[I|[]]]; eauto.
  Qed.

  Lemma use_up_other i j g : i <> j -> nth_error (use_up i g) j = nth_error g j.
  Proof.
    revert i j. induction g as [|x g IH]; intros [|i] [|j] N; simpl; auto; try congruence.
  Qed.

  Lemma gens_kept l p i c :
    nth_error (p_gens p) i = Some (Some c) -> ~ In (PRun i) l ->
    nth_error (p_gens (fold_left (fun p a => fst (pact p a)) l p)) i = Some (Some c).
  Proof.
    revert p. induction l as [|a l IH]; intros p E N; simpl; auto.
    apply IH; [|intros I; apply N; right; exact I].
    destruct a as [e|c'|j]; cbn [ModelPaddle.pact].
    - destruct (enable_paddle (p_flag p) e) as [[f x] r]. auto.
    - cbn [fst p_gens]. rewrite nth_error_app1; auto. apply nth_error_Some. congruence.
    - destruct (nth_error (p_gens p) j) as [[c'|]|] eqn:EJ; auto.
      cbn [fst p_gens]. rewrite use_up_other; auto. intros ->. apply N. left. auto.
  Qed.

  Lemma use_up_self i g : nth_error g i <> None -> nth_error (use_up i g) i = Some None.
  Proof. revert i. induction g as [|x g IH]; intros [|i] N; cbn in *; auto; congruence. Qed.

  Lemma gens_gone l p i :
    nth_error (p_gens p) i = Some None ->
    nth_error (p_gens (fold_left (fun p a => fst (pact p a)) l p)) i = Some None.
  Proof.
    revert p. induction l as [|a l IH]; intros p E; simpl; auto.
    apply IH. destruct a as [e|c'|j]; cbn [ModelPaddle.pact].
    - destruct (enable_paddle (p_flag p) e) as [[f x] r]. auto.
    - cbn [fst p_gens]. rewrite nth_error_app1; auto. apply nth_error_Some. congruence.
    - destruct (nth_error (p_gens p) j) as [[c'|]|] eqn:EJ; auto.
      cbn [fst p_gens]. destruct (Nat.eq_dec j i) as [->|N]; [congruence|]. rewrite use_up_other; auto.
  Qed.
End Flag.

(** A generator is paddle's exactly if the argument [use_paddle] is given and some call of
    [enable_paddle] up to the moment the generator is consumed found a usable paddle. *)
Theorem C81_who_cuts :
  forall (num : Num) (H : hmm num) (T : ptables num) (ord : orders) (fr : freqs) (total : Z)
         (force : list str) (tab : sdict str) (ds : dataset) (net : list Z -> res (list Z)) (gbk : bytes -> str)
         (before between : list paction) (c : pcall) (i : nat),
    let run := pacts num H T ord fr total force tab ds net gbk in
    let see p a := snd (pact num H T ord fr total force tab ds net gbk p a) in
    let enabled l := exists e, In (PEnable e) l /\ usable e in
    see (run before) (PMake c) = SeenGen i -> ~ In (PRun i) between ->
    let out := see (run (before ++ PMake c :: between)) (PRun i) in
    match c with
    | JCut cut_all HMM use a =>
        (use = true /\ enabled (before ++ between) -> out = SeenRes (PWords (paddle_cut ds net gbk a))) /\
        (~ (use = true /\ enabled (before ++ between)) ->
           out = SeenRes (PWords (cut num H (mode_of cut_all HMM) fr total force (strdecode gbk a))))
    | PsCut HMM use a =>
        (use = true /\ enabled (before ++ between) -> out = SeenRes (PPairs (paddle_pos_cut ds net gbk a))) /\
        (~ (use = true /\ enabled (before ++ between)) ->
           out = SeenRes (PPairs (ps_cut T ord HMM tab fr total (strdecode gbk a))))
    | PsLcut HMM use a =>
        (use = true /\ enabled (before ++ between) -> out = SeenRes (PPairs (paddle_pos_cut ds net gbk a))) /\
        (use = true /\ ~ enabled (before ++ between) ->
           out = SeenRes (PPairs (ps_cut T ord true tab fr total (strdecode gbk a)))) /\
        (use = false -> out = SeenRes (PPairs (ps_cut T ord HMM tab fr total (strdecode gbk a))))
    end.
Proof.
  intros num H T ord fr total force tab ds net gbk before between c i run see enabled M N out.
  assert (EN : p_flag (run (before ++ PMake c :: between)) = true <-> enabled (before ++ between)).
  { unfold run. rewrite flag_after. unfold enabled. split; intros [e [I U]]; exists e; split; auto;
      rewrite in_app_iff in *; simpl in *; intuition congruence. }
  assert (O : out = SeenRes (run_call num H T ord fr total force tab ds net gbk (p_flag (run (before ++ PMake c :: between))) c)).
  { unfold out, see. cbn [pact].
    assert (G : nth_error (p_gens (run (before ++ PMake c :: between))) i = Some (Some c)).
    { unfold run. rewrite pacts_app. cbn [fold_left]. apply gens_kept; auto.
      unfold see in M. cbn [pact snd] in M. inversion M; subst.
      cbn [pact fst p_gens]. rewrite nth_error_app2, Nat.sub_diag; auto. }
    rewrite G. reflexivity. }
  rewrite O. clear O out.
  destruct (p_flag (run (before ++ PMake c :: between))).
  - assert (E : enabled (before ++ between)) by (apply EN; auto).
    destruct c as [ca hm us a|hm us a|hm us a]; destruct us; cbn [run_call andb]; intuition congruence.
  - assert (E : ~ enabled (before ++ between)) by (intros E; apply EN in E; discriminate).
    destruct c as [ca hm us a|hm us a|hm us a]; destruct us; cbn [run_call andb]; intuition congruence.
Qed.

(** A generator gives its words once: whoever runs it again, whatever happened in
    between, gets nothing. *)
Theorem C81_once :
  forall (num : Num) (H : hmm num) (T : ptables num) (ord : orders) (fr : freqs) (total : Z)
         (force : list str) (tab : sdict str) (ds : dataset) (net : list Z -> res (list Z)) (gbk : bytes -> str)
         (before after : list paction) (i : nat) (r : pres),
    let run := pacts num H T ord fr total force tab ds net gbk in
    let see p a := snd (pact num H T ord fr total force tab ds net gbk p a) in
    see (run before) (PRun i) = SeenRes r ->
    see (run (before ++ PRun i :: after)) (PRun i) = SeenNothing.
Proof.
  intros num H T ord fr total force tab ds net gbk before after i r run see S.
  unfold see in *. cbn [pact] in *.
  assert (G : nth_error (p_gens (run (before ++ PRun i :: after))) i = Some None).
  { unfold run. rewrite pacts_app. cbn [fold_left]. apply gens_gone. cbn [pact]. fold (run before).
    destruct (nth_error (p_gens (run before)) i) as [[c|]|] eqn:E; [|discriminate S|discriminate S].
    cbn [fst p_gens]. apply use_up_self. congruence. }
  rewrite G. reflexivity.
Qed.
Print Assumptions C81_once.

(** [enable_paddle] itself: pip is run exactly if the first import finds no module; the
    call raises UnboundLocalError exactly if paddle is still missing after that, although
    it has just said "back to jieba basic cut"; it leaves the switch as it was then. *)
Theorem C81_without_paddle :
  forall (flag : bool) (e : paddle_env),
    let '(flag', events, end_) := enable_paddle flag e in
    (In RunsPip events <-> first_try e = NoModule) /\
    (end_ = UnboundLocal <-> first_try e = NoModule /\ second_try e = NoModule) /\
    (In SaysBackToBasic events <-> end_ = UnboundLocal) /\
    (In SaysEnabled events <-> usable e) /\
    (end_ <> Returned -> flag' = flag).
Proof.
  intros flag e.
  pose proof (enable_flag false e) as K.
  assert (SE : forall f, In SaysEnabled (snd (fst (enable_paddle f e))) <-> fst (fst (enable_paddle false e)) = true).
  { intros f. unfold enable_paddle, enable_rest.
    destruct (first_try e) as [v| |x]; [|destruct (second_try e) as [v| |x]|];
      try destruct (str_ltb v s_161); try destruct (predict e) as [[]| |y]; simpl; intuition congruence. }
  specialize (SE flag). rewrite K in SE.
  assert (SE' : In SaysEnabled (snd (fst (enable_paddle flag e))) <-> usable e) by (rewrite SE; intuition discriminate).
  clear SE K. destruct (enable_paddle flag e) as [[f l] r] eqn:E.
  cbn [fst snd] in SE'. revert E. unfold enable_paddle, enable_rest.
  destruct (first_try e) as [v| |x]; [|destruct (second_try e) as [v| |x]|];
    try destruct (str_ltb v s_161); try destruct (predict e) as [[]| |y]; intros E; inversion E; subst;
    (split; [|split; [|split; [|split; [exact SE'|]]]]); simpl; intuition congruence.
Qed.

(** The version test is right for three components below ten ... *)
Theorem C81_version_test :
  forall a b c, (a < 10)%N -> (b < 10)%N -> (c < 10)%N ->
    (lex_lt (dotted a b c) (dotted 1 6 1) <-> earlier a b c 1 6 1).
Proof.
  intros a b c A B C. rewrite <- str_ltb_lex. unfold dotted, earlier, str_ltb.
  repeat match goal with
  | |- context [N.ltb ?x ?y] => let E := fresh in destruct (N.ltb_spec x y)
  | |- context [N.eqb ?x ?y] => let E := fresh in destruct (N.eqb_spec x y)
  end; cbn [orb andb]; intuition (try discriminate; try lia).
Qed.

(** ... and wrong beyond: 1.10.0 is refused. *)
Theorem C81_version_refuted :
  let v := [49; 46; 49; 48; 46; 48]%N in
  earlier 1 6 1 1 10 0 /\
  forall flag p, enable_paddle flag (mkEnv (Imported v) NoModule p) = (flag, [SaysTooOld], Returned).
Proof. intros v. split; [unfold earlier; lia|reflexivity]. Qed.

(** a generator made before [enable_paddle] and consumed after it: paddle cuts *)
Example C81_nonvacuous :
  let e := mkEnv NoModule (Imported [50; 46; 52; 46; 49]%N) (Imported tt) in
  let none := mkEnv NoModule NoModule NoModule in
  let nohmm := mkHmm numE (fun _ => None) (fun _ _ => None) (fun _ _ => None) in
  let c := JCut false true true (AText [c_bei; c_jing]) in
  let see l a := snd (pact numE nohmm demo_T demo_ord demo_fr demo_total [] [] (mkSet [] [] []) (fun _ => Err KeyError) (fun _ => [])
       (pacts numE nohmm demo_T demo_ord demo_fr demo_total [] [] (mkSet [] [] []) (fun _ => Err KeyError) (fun _ => []) l) a) in
  usable e /\ ~ usable none /\
  see [PEnable none] (PMake c) = SeenGen 0 /\
  see [PEnable none; PMake c; PEnable e] (PRun 0) = SeenRes (PWords (gerr KeyError)) /\
  see [PEnable none; PMake c; PEnable none] (PRun 0) = SeenRes (PWords (gof [[c_bei; c_jing]])) /\
  see [PEnable none; PMake c; PRun 0; PEnable e] (PRun 0) = SeenNothing.
Proof.
  intros e none nohmm c see. split.
  - exists [50; 46; 52; 46; 49]%N. split; [right; auto|]. split; auto.
    intros L. apply str_ltb_lex in L. vm_compute in L. discriminate.
  - split; [intros [v [[F|[_ F]] _]]; discriminate|]. repeat split; vm_compute; reflexivity.
Qed.

Print Assumptions C81_who_cuts.
Print Assumptions C81_without_paddle.
Print Assumptions C81_version_test.
Print Assumptions C81_version_refuted.
