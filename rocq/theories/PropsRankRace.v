(** * C125: threads that rank with one TextRank object *)
From Coq Require Import Reals Lia Lra.
From Verif Require Import PyBase PyNum ModelPosseg ModelDict ModelAnalyse ModelTagLoad ModelRankRace SpecAnalyse
  SpecNum ProofsBase ProofsDict ProofsRank ProofsGraph ProofsTextrank.

(** ** What is claimed *)

(** some thread asks for these tags *)
Definition asks_for (progs : list (list rcall)) (allow : list str) : Prop :=
  exists prog words wf, In prog progs /\ In (RRank words allow wf) prog.
(** some thread adds this stop word *)
Definition to_stop (progs : list (list rcall)) (w : str) : Prop :=
  exists prog lines, In prog progs /\ In (RStop lines) prog /\ In w lines.

(** a word that some call can take: its tag is asked for by somebody, it has two
    characters, and it was no stop word to begin with *)
Definition takeable (lower : str -> str) (stop : list str) (progs : list (list rcall)) (p : tagged) : Prop :=
  (exists allow, asks_for progs allow /\ In (snd p) allow) /\ two_chars (fst p) /\ ~ In (lower (fst p)) stop.
(** a word that every call has to take: its tag is asked for by everybody, and it never
    becomes a stop word *)
Definition untouchable (lower : str -> str) (stop : list str) (progs : list (list rcall)) (p : tagged) : Prop :=
  (forall allow, asks_for progs allow -> In (snd p) allow) /\ two_chars (fst p) /\ ~ In (lower (fst p)) stop /\
  ~ to_stop progs (lower (fst p)).

(** nobody has anything left to do *)
Definition all_over (ts : list rthread) : Prop := Forall (fun th => rt_cur th = None /\ rt_todo th = []) ts.

(** two words [p], [q] of a text fewer than [span] words apart *)
Definition apart (span : nat) (words : list tagged) (p q : tagged) : Prop :=
  exists i j, nth_error words i = Some p /\ nth_error words j = Some q /\ i < j < i + span.

(** ** Lemmas *)

Lemma rput_In {A} (l : list A) i x y : In y (lput l i x) -> y = x \/ In y l.
Proof.
  revert i. induction l as [|z l IH]; intros [|i]; cbn [lput]; auto.
  - intros [E|E]; auto. right. right. exact E.
  - intros [E|E]; [right; left; exact E|]. destruct (IH _ E); auto. right. right. auto.
Qed.

(** the pairs of words that are looked at, in order *)
Fixpoint near (span : nat) (words : list tagged) : list (tagged * tagged) :=
  match words with
  | [] => []
  | p :: rest => map (pair p) (firstn (span - 1) rest) ++ near span rest
  end.

Lemma near_length span words : length (near span words) <= length words * span.
Proof.
  induction words as [|p rest IH]; cbn [near length]; [lia|]. rewrite app_length, map_length, firstn_length. lia.
Qed.

Lemma near_apart span words p q : In (p, q) (near span words) <-> apart span words p q.
Proof.
  unfold apart. induction words as [|r rest IH]; cbn [near].
  - split; [intros []|]. intros ([|i] & j & E & _); discriminate.
  - rewrite in_app_iff, IH. split.
    + intros [I|(i & j & E1 & E2 & L)].
      * apply in_map_iff in I. destruct I as (q' & E & I). injection E as -> ->. apply In_nth_error in I. destruct I as (n & I).
        assert (L : n < length (firstn (span - 1) rest)) by (apply nth_error_Some; congruence).
        rewrite firstn_length in L. exists 0, (S n). split; [reflexivity|]. split; [|lia].
        cbn. rewrite <- (firstn_skipn (span - 1) rest), nth_error_app1; auto. rewrite firstn_length. exact L.
      * exists (S i), (S j). split; [exact E1|]. split; [exact E2|lia].
    + intros ([|i] & [|j] & E1 & E2 & L); try lia.
      * left. injection E1 as ->. apply in_map_iff. exists q. split; auto. cbn in E2.
        assert (LJ : j < length rest) by (apply nth_error_Some; congruence).
        apply nth_error_In with j. rewrite <- (firstn_skipn (span - 1) rest), nth_error_app1 in E2; auto.
        rewrite firstn_length. lia.
      * right. exists i, j. split; [exact E1|]. split; [exact E2|lia].
Qed.

Section Picked.
  Variables may must : tagged -> Prop.

  (** of the pairs looked at, those that can be are counted, those that must be are *)
  Inductive picked : list (tagged * tagged) -> list (tagged * tagged) -> Prop :=
  | pk_nil : picked [] []
  | pk_take p q l ps : may p -> may q -> picked l ps -> picked ((p, q) :: l) ((p, q) :: ps)
  | pk_skip p q l ps : ~ (must p /\ must q) -> picked l ps -> picked ((p, q) :: l) ps.

  Lemma picked_app l1 l2 ps1 ps2 : picked l1 ps1 -> picked l2 ps2 -> picked (l1 ++ l2) (ps1 ++ ps2).
  Proof. induction 1; cbn; intros; auto; constructor; auto. Qed.
  Lemma picked_none p l : ~ must p -> picked (map (pair p) l) [].
  Proof. intros N. induction l; cbn; constructor; auto. tauto. Qed.
  Lemma picked_length l ps : picked l ps -> length ps <= length l.
  Proof. induction 1; cbn; lia. Qed.
  Lemma picked_In l ps p q : picked l ps -> In (p, q) ps -> In (p, q) l /\ may p /\ may q.
  Proof.
    induction 1; cbn; [tauto| |].
    - intros [E|E]; [injection E as -> ->; auto|]. destruct (IHpicked E); auto.
    - intros E. destruct (IHpicked E); auto.
  Qed.
  Lemma picked_must l ps p q : picked l ps -> In (p, q) l -> must p -> must q -> In (p, q) ps.
  Proof.
    induction 1; cbn; [tauto| |].
    - intros [E|E] P Q; auto.
    - intros [E|E] P Q; auto. injection E as -> ->. tauto.
  Qed.
  Lemma picked_filter (f : tagged -> bool) l ps : (forall p, may p -> f p = true) -> (forall p, f p = true -> must p) ->
    picked l ps -> ps = filter (fun pq => f (fst pq) && f (snd pq)) l.
  Proof.
    intros A B. induction 1 as [|p q l ps P Q K IH|p q l ps N K IH]; cbn; auto.
    - rewrite (A p), (A q) by auto. cbn. now rewrite <- IH.
    - destruct (f p) eqn:EP, (f q) eqn:EQ; cbn; auto. destruct N. auto.
  Qed.
End Picked.

Section Steps.
  Variable lower : str -> str.
  Variable span : nat.
  Variables filt stop : list str.
  Variable progs : list (list rcall).

  Notation may := (takeable lower stop progs).
  Notation must := (untouchable lower stop progs).
  Definition key2 (allow : list str) (wf : bool) (pq : tagged * tagged) : term * term :=
    (tr_key allow wf (fst pq), tr_key allow wf (snd pq)).

  (** the counts so far, with these pairs still to be looked at *)
  Definition counted (words : list tagged) allow wf (rest : list (tagged * tagged)) cm : Prop :=
    exists ns ps, near span words = ns ++ rest /\ picked may must ns ps /\ cm = fold_left bump (map (key2 allow wf) ps) [].

  Definition cur_ok (d : rdata) (c : rcall) (p : rpc) : Prop :=
    match c, p with
    | RRank words allow wf, RNext rest cm => counted words allow wf (near span rest) cm
    | RRank words allow wf, RTest w rest cm =>
        (exists a, asks_for progs a /\ In (snd w) a) /\ counted words allow wf (near span (w :: rest)) cm
    | RRank words allow wf, RIn w rest inner cm => may w /\ counted words allow wf (map (pair w) inner ++ near span rest) cm
    | RRank words allow wf, RInTest w rest v inner cm =>
        may w /\ (exists a, asks_for progs a /\ In (snd v) a) /\
        counted words allow wf (map (pair w) (v :: inner) ++ near span rest) cm
    | RStop lines, RAdd rest => incl rest lines
    | _, _ => False
    end.

  Definition stop_ok (d : rdata) : Prop :=
    (forall w, In w stop -> In w (rd_stop d)) /\ (forall w, In w (rd_stop d) -> In w stop \/ to_stop progs w).

  (** the calls of a thread are those it was given *)
  Definition mine (th : rthread) : list rcall :=
    map fst (rt_done th) ++ (match rt_cur th with Some (c, _) => [c] | None => [] end) ++ rt_todo th.

  Definition thread_ok (d : rdata) (th : rthread) : Prop :=
    In (mine th) progs /\
    (forall c x, In (c, x) (rt_done th) ->
       match c, x with RRank words allow wf, RCounts cm => counted words allow wf [] cm | RStop _, RDone => True | _, _ => False end) /\
    (forall c p, rt_cur th = Some (c, p) -> cur_ok d c p /\ (match c with RRank _ _ _ => asks_for progs (rd_filt d) | _ => True end)).

  Definition all_ok (s : rdata * list rthread) : Prop :=
    stop_ok (fst s) /\ forall th, In th (snd s) -> thread_ok (fst s) th.

  Lemma counted_skip words allow wf p q rest cm : ~ (must p /\ must q) ->
    counted words allow wf ((p, q) :: rest) cm -> counted words allow wf rest cm.
  Proof.
    intros N (ns & ps & E & K & C). exists (ns ++ [(p, q)]), ps. split; [now rewrite <- app_assoc|]. split; [|exact C].
    rewrite <- (app_nil_r ps). apply picked_app; auto. constructor; auto. constructor.
  Qed.
  Lemma counted_none words allow wf p l rest cm : ~ must p ->
    counted words allow wf (map (pair p) l ++ rest) cm -> counted words allow wf rest cm.
  Proof.
    intros N. induction l as [|q l IH]; cbn [map app]; auto. intros C. apply IH. eapply counted_skip; [|exact C]. tauto.
  Qed.
  Lemma counted_take words allow wf p q rest cm : may p -> may q ->
    counted words allow wf ((p, q) :: rest) cm -> counted words allow wf rest (bump cm (tr_key allow wf p, tr_key allow wf q)).
  Proof.
    intros P Q (ns & ps & E & K & C). exists (ns ++ [(p, q)]), (ps ++ [(p, q)]). split; [now rewrite <- app_assoc|].
    split; [apply picked_app; auto; constructor; auto; constructor|].
    rewrite map_app, fold_left_app, C. reflexivity.
  Qed.

  Lemma kept_may d w : stop_ok d -> (exists a, asks_for progs a /\ In (snd w) a) ->
    kept lower (rd_stop d) (fst w) = true -> may w.
  Proof. intros [S1 S2] T K. apply kept_counts in K. destruct K as [K1 K2]. split; auto. Qed.
  Lemma dropped_must d w : stop_ok d -> kept lower (rd_stop d) (fst w) = false -> ~ must w.
  Proof.
    intros [S1 S2] K (_ & M2 & M3 & M4). assert (X : kept lower (rd_stop d) (fst w) = true); [|congruence].
    apply kept_counts. split; auto. intros I. apply S2 in I. tauto.
  Qed.
  Lemma refused_must a w : asks_for progs a -> str_in (snd w) a = false -> ~ must w.
  Proof. intros A K (M & _). apply M in A. apply str_in_In in A. congruence. Qed.

  Lemma step_ok d th d' th' : stop_ok d -> thread_ok d th -> rstep lower span d th = Some (d', th') ->
    stop_ok d' /\ thread_ok d' th' /\ (rd_filt d' = rd_filt d \/ asks_for progs (rd_filt d')).
  Proof.
    intros SO (MI & DN & CU) ST. destruct th as [dn [[c p]|] td]; unfold rstep in ST; cbn [rt_done rt_cur rt_todo] in *.
    - destruct (CU c p eq_refl) as [C A]. clear CU. unfold mine in MI. cbn [rt_done rt_cur rt_todo] in MI.
      assert (GOTO : forall p', d' = d -> th' = mkRT dn (Some (c, p')) td -> cur_ok d c p' ->
        stop_ok d' /\ thread_ok d' th' /\ (rd_filt d' = rd_filt d \/ asks_for progs (rd_filt d'))).
      { intros p' -> -> X. split; auto. split; auto. split; auto. split; auto. cbn [rt_cur]. intros c0 p0 E0.
        injection E0 as <- <-. split; auto. }
      assert (RET : forall x, d' = d -> th' = mkRT (dn ++ [(c, x)]) None td ->
        match c, x with RRank words allow wf, RCounts cm => counted words allow wf [] cm | RStop _, RDone => True | _, _ => False end ->
        stop_ok d' /\ thread_ok d' th' /\ (rd_filt d' = rd_filt d \/ asks_for progs (rd_filt d'))).
      { intros x -> -> X. split; auto. split; auto. split.
        - unfold mine. cbn [rt_done rt_cur rt_todo app]. rewrite map_app, <- app_assoc. exact MI.
        - split; [|discriminate]. cbn [rt_done]. intros c0 x0 I. apply in_app_iff in I.
          destruct I as [I|[I|[]]]; [exact (DN c0 x0 I)|]. injection I as <- <-. exact X. }
      destruct c as [words allow wf|lines], p as [[|w rest] cm|w rest cm|w rest [|v inner] cm|w rest v inner cm|[|w rest]];
        try contradiction; try discriminate ST; cbn [cur_ok] in C.
      + injection ST as E1 E2. apply (RET (RCounts cm)); auto.
      + injection ST as E1 E2. eapply GOTO; eauto. destruct (str_in (snd w) (rd_filt d)) eqn:T; cbn [cur_ok].
        * split; auto. exists (rd_filt d). split; auto. apply str_in_In. exact T.
        * cbn [near] in C. eapply counted_none; [|exact C]. eapply refused_must; eauto.
      + injection ST as E1 E2. eapply GOTO; eauto. destruct C as [T C].
        destruct (kept lower (rd_stop d) (fst w)) eqn:K; cbn [cur_ok].
        * split; auto. eapply kept_may; eauto.
        * cbn [near] in C. eapply counted_none; [|exact C]. eapply dropped_must; eauto.
      + injection ST as E1 E2. eapply GOTO; eauto. apply C.
      + injection ST as E1 E2. eapply GOTO; eauto. destruct C as [M C].
        destruct (str_in (snd v) (rd_filt d)) eqn:T; cbn [cur_ok].
        * split; auto. split; auto. exists (rd_filt d). split; auto. apply str_in_In. exact T.
        * split; auto. cbn [map app] in C. eapply counted_skip; [|exact C]. intros [_ X]. revert X. eapply refused_must; eauto.
      + injection ST as E1 E2. eapply GOTO; eauto. destruct C as (M & T & C). cbn [cur_ok]. split; auto. cbn [map app] in C.
        destruct (kept lower (rd_stop d) (fst v)) eqn:K.
        * apply counted_take; auto. eapply kept_may; eauto.
        * eapply counted_skip; [|exact C]. intros [_ X]. revert X. eapply dropped_must; eauto.
      + injection ST as E1 E2. apply (RET RDone); auto.
      + injection ST as <- <-. assert (TS : to_stop progs w).
        { eexists _, lines. split; [exact MI|]. split; [apply in_app_iff; right; left; reflexivity|]. apply C. left. reflexivity. }
        split; [|split; auto].
        * destruct SO as [S1 S2]. split; cbn [rd_stop]; intros x I; [apply set_add_In; auto|].
          apply set_add_In in I. destruct I as [I| ->]; auto.
        * split; auto. split; auto. cbn [rt_cur]. intros c0 p0 E0. injection E0 as <- <-. split; auto. cbn [cur_ok].
          intros y I. apply C. right. exact I.
    - destruct td as [|[words allow wf|lines] td]; [discriminate|injection ST as <- <-|injection ST as <- <-];
        unfold mine in MI; cbn [rt_done rt_cur rt_todo app] in MI.
      + assert (AF : asks_for progs allow).
        { eexists _, words, wf. split; [exact MI|]. apply in_app_iff. right. left. reflexivity. }
        split; [exact SO|]. split; [|right; exact AF]. split; [exact MI|]. split; [exact DN|]. cbn [rt_cur].
        intros c0 p0 E0. injection E0 as <- <-. split; [|exact AF]. cbn [cur_ok]. exists [], []. split; auto.
        split; [constructor|reflexivity].
      + split; [exact SO|]. split; [|auto]. split; [exact MI|]. split; [exact DN|]. cbn [rt_cur].
        intros c0 p0 E0. injection E0 as <- <-. split; auto. cbn [cur_ok]. apply incl_refl.
  Qed.

  Lemma steps_ok s : rsteps lower span (rstart filt stop progs) s -> all_ok s.
  Proof.
    induction 1 as [|d ts i th d' th' ST [SO IH] N T].
    - split; [split; cbn; auto|]. cbn [rstart snd fst]. intros th I. apply in_map_iff in I. destruct I as (p & <- & I).
      split; [exact I|]. split; [intros c x []|discriminate].
    - cbn [fst snd] in *. apply nth_error_In in N. destruct (step_ok _ _ _ _ SO (IH _ N) T) as (SO' & TO & FI).
      split; [exact SO'|]. cbn [fst snd]. intros th0 I. apply rput_In in I. destruct I as [-> |I]; auto.
      destruct (IH _ I) as (A & B & C). split; auto. split; auto. intros c p E. destruct (C c p E) as [C1 C2]. split; [exact C1|].
      destruct c; auto. destruct FI as [-> |FI]; auto.
  Qed.

  Lemma counted_sound words allow wf cm : counted words allow wf [] cm ->
    exists ps, picked may must (near span words) ps /\ cm = fold_left bump (map (key2 allow wf) ps) [].
  Proof. intros (ns & ps & E & K & C). rewrite app_nil_r in E. subst ns. eauto. Qed.
End Steps.

Lemma pairs_near lower x allow wf words :
  pairs lower x allow wf words =
  map (key2 allow wf) (filter (fun pq => pairfilter lower x allow (fst pq) && pairfilter lower x allow (snd pq)) (near (tr_span x) words)).
Proof.
  induction words as [|p rest IH]; cbn [pairs near]; auto. rewrite filter_app, map_app, IH. f_equal.
  generalize (firstn (tr_span x - 1) rest) as l. intros l. destruct (pairfilter lower x allow p) eqn:P.
  - induction l as [|q l IHl]; cbn [map filter fst snd]; auto. rewrite P. cbn [andb].
    destruct (pairfilter lower x allow q); cbn [map]; [|exact IHl]. f_equal. exact IHl.
  - induction l as [|q l IHl]; cbn [map filter fst snd]; auto. rewrite P. exact IHl.
Qed.

(** ** The theorems *)

(** Whatever the other threads do meanwhile, a call ranks without an exception: what it
    ranks occurs in its own text close to another word, is named as it asked, and both words
    can be taken; two words close together that have to be taken are both ranked; the
    weights are positive, at most 1, and the best is 1. *)
Theorem C125_whatever_the_others_do :
  forall (num : Num) (O : NumOrder num) (Q : NumRound num O) (lower : str -> str) (span : nat) (filt stop : list str)
         (progs : list (list rcall)) (d : rdata) (ts : list rthread) (th : rthread)
         (words : list tagged) (allow : list str) (wf : bool) (cm : list (term * term * Z)),
    rsteps lower span (rstart filt stop progs) (d, ts) -> In th ts -> In (RRank words allow wf, RCounts cm) (rt_done th) ->
    (2 * INR (length words * span) + 10 <= r_G Q)%R ->
    exists e, rank num (graph_of cm) = Ok e /\
      (forall n, In n (map fst e) -> exists p q, apart span words p q /\
         takeable lower stop progs p /\ takeable lower stop progs q /\ (n = ranked_as allow wf p \/ n = ranked_as allow wf q)) /\
      (forall p q, apart span words p q -> untouchable lower stop progs p -> untouchable lower stop progs q ->
         In (ranked_as allow wf p) (map fst e) /\ In (ranked_as allow wf q) (map fst e)) /\
      (forall n y, In (n, y) e -> o_fin O y /\ (0 < o_val O y <= 1)%R) /\
      (e <> [] -> exists n y, In (n, y) e /\ o_val O y = 1%R).
Proof.
  intros num O Q lower span filt stop progs d ts th words allow wf cm S I J B.
  destruct (steps_ok _ _ _ _ _ _ S) as [_ A]. destruct (A th I) as (_ & DN & _). specialize (DN _ _ J). cbn in DN.
  apply counted_sound in DN. destruct DN as (ps & K & ->).
  destruct (bumps_ok (map (key2 allow wf) ps) [] (Forall_nil _)) as (POS & SUM & KEYS).
  destruct (graph_of_ok _ POS) as [GO NODES]. destruct (rank_ok num O Q _ _ GO) as (e & E & KE & R1 & R2).
  { rewrite SUM. cbn [csum fold_right]. rewrite map_length. pose proof (picked_length _ _ _ _ K). pose proof (near_length span words).
    rewrite mult_IZR, Z.add_0_l, <- INR_IZR_INZ. assert (INR (length ps) <= INR (length words * span))%R by (apply le_INR; lia). lra. }
  exists e. split; [exact E|]. rewrite KE. split; [|split; [|split; auto]].
  - intros n N. apply NODES in N. destruct N as (a & b & AB & N). apply KEYS in AB. destruct AB as [[]|AB].
    apply in_map_iff in AB. destruct AB as ([p q] & E2 & PQ). unfold key2 in E2. cbn [fst snd] in E2. injection E2 as <- <-.
    rewrite !tr_key_named in N. destruct (picked_In _ _ _ _ _ _ K PQ) as (NE & P1 & P2).
    exists p, q. split; [apply near_apart; exact NE|]. auto.
  - intros p q AP P1 P2. apply near_apart in AP. pose proof (picked_must _ _ _ _ _ _ K AP P1 P2) as PQ.
    assert (X : In (ranked_as allow wf p, ranked_as allow wf q) (map fst (fold_left bump (map (key2 allow wf) ps) []))).
    { apply KEYS. right. apply in_map_iff. exists (p, q). split; auto. unfold key2. cbn [fst snd]. now rewrite !tr_key_named. }
    split; apply NODES; eauto.
Qed.

(** If all calls ask for the same tags and the stop words that are added were there already,
    every call gives what it gives alone. *)
Theorem C125_same_tags :
  forall (num : Num) (lower : str -> str) (span : nat) (filt stop : list str)
         (progs : list (list rcall)) (d : rdata) (ts : list rthread) (th : rthread)
         (words : list tagged) (allow : list str) (wf : bool) (cm : list (term * term * Z)),
    rsteps lower span (rstart filt stop progs) (d, ts) -> In th ts -> In (RRank words allow wf, RCounts cm) (rt_done th) ->
    (forall other t, asks_for progs other -> In t other <-> In t allow) ->
    (forall w, to_stop progs w -> In w stop) ->
    rank num (graph_of cm) = textrank_words num lower (mkTr stop span) words allow wf.
Proof.
  intros num lower span filt stop progs d ts th words allow wf cm S I J SAME ST.
  destruct (steps_ok _ _ _ _ _ _ S) as [_ A]. destruct (A th I) as (MI & DN & _). specialize (DN _ _ J). cbn in DN.
  apply counted_sound in DN. destruct DN as (ps & K & ->).
  unfold textrank_words. rewrite cooccur_pairs, pairs_near. cbn [tr_span].
  assert (AF : asks_for progs allow).
  { exists (mine th), words, wf. split; auto. unfold mine. apply in_app_iff. left. apply in_map_iff. eexists. split; [|exact J]. reflexivity. }
  rewrite (picked_filter _ _ (pairfilter lower (mkTr stop span) allow) _ _) with (3 := K); [reflexivity| |].
  - intros p ((a & AA & T) & P2 & P3). apply pairfilter_passes. split; auto. apply (SAME a); auto.
  - intros p P. apply pairfilter_passes in P. destruct P as (P1 & P2 & P3). split; [|split; [|split]]; auto.
    intros a AA. apply (SAME a); auto.
Qed.

(** No thread is ever stuck: one that has something left to do can take a step. *)
Theorem C125_goes_on :
  forall (lower : str -> str) (span : nat) (filt stop : list str) (progs : list (list rcall)) (d : rdata) (ts : list rthread) (th : rthread),
    rsteps lower span (rstart filt stop progs) (d, ts) -> In th ts -> rt_cur th <> None \/ rt_todo th <> [] ->
    exists d' th', rstep lower span d th = Some (d', th').
Proof.
  intros lower span filt stop progs d ts th S I W. destruct (steps_ok _ _ _ _ _ _ S) as [_ A]. destruct (A th I) as (_ & _ & CU).
  destruct th as [dn [[c p]|] td]; unfold rstep; cbn [rt_cur rt_todo rt_done] in *.
  - destruct (CU c p eq_refl) as [C _].
    destruct c as [words allow wf|lines], p as [[|w rest] cm|w rest cm|w rest [|v inner] cm|w rest v inner cm|[|w rest]];
      try contradiction; eauto.
  - destruct td as [|[words allow wf|lines] td]; [|eauto|eauto]. destruct W as [W|W]; now destruct W.
Qed.

(** ** One thread *)

(** one call after the other: the stop words, and what the calls give *)
Definition after_one (lower : str -> str) (span : nat) (s : list str * list (rcall * rret)) (c : rcall) : list str * list (rcall * rret) :=
  match c with
  | RRank words allow wf => (fst s, snd s ++ [(c, RCounts (cooccur lower (mkTr (fst s) span) allow wf words []))])
  | RStop lines => (fold_left set_add lines (fst s), snd s ++ [(c, RDone)])
  end.

Section OneThread.
  Variable lower : str -> str.
  Variable span : nat.
  Variable stop : list str.
  Definition coo (stp allow : list str) (wf : bool) (words : list tagged) (cm : list (term * term * Z)) :=
    cooccur lower (mkTr stp span) allow wf words cm.
  Definition inner_of (stp allow : list str) (wf : bool) (p : tagged) (l : list tagged) (cm : list (term * term * Z)) :=
    fold_left (fun cm q => if pairfilter lower (mkTr stp span) allow q
                           then bump cm (tr_key allow wf p, tr_key allow wf q) else cm) l cm.
  Lemma coo_cons stp allow wf p rest cm : coo stp allow wf (p :: rest) cm =
    coo stp allow wf rest (if pairfilter lower (mkTr stp span) allow p then inner_of stp allow wf p (firstn (span - 1) rest) cm else cm).
  Proof. reflexivity. Qed.
  Lemma inner_cons stp allow wf p q l cm : inner_of stp allow wf p (q :: l) cm =
    inner_of stp allow wf p l (if pairfilter lower (mkTr stp span) allow q then bump cm (tr_key allow wf p, tr_key allow wf q) else cm).
  Proof. reflexivity. Qed.

  Definition one_ok (d : rdata) (th : rthread) : Prop :=
    let s := fold_left (after_one lower span) (map fst (rt_done th)) (stop, []) in
    rt_done th = snd s /\
    match rt_cur th with
    | None => rd_stop d = fst s
    | Some (RRank words allow wf, p) =>
        rd_filt d = allow /\ rd_stop d = fst s /\
        coo (rd_stop d) allow wf words [] =
        match p with
        | RNext rest cm => coo (rd_stop d) allow wf rest cm
        | RTest w rest cm =>
            coo (rd_stop d) allow wf rest
              (if kept lower (rd_stop d) (fst w) then inner_of (rd_stop d) allow wf w (firstn (span - 1) rest) cm else cm)
        | RIn w rest inner cm => coo (rd_stop d) allow wf rest (inner_of (rd_stop d) allow wf w inner cm)
        | RInTest w rest v inner cm =>
            coo (rd_stop d) allow wf rest (inner_of (rd_stop d) allow wf w inner
              (if kept lower (rd_stop d) (fst v) then bump cm (tr_key allow wf w, tr_key allow wf v) else cm))
        | RAdd _ => []
        end
    | Some (RStop lines, RAdd rest) => fold_left set_add lines (fst s) = fold_left set_add rest (rd_stop d)
    | _ => False
    end.

  Lemma one_step d th d' th' : one_ok d th -> rstep lower span d th = Some (d', th') -> one_ok d' th'.
  Proof.
    intros (DN & CU) ST. destruct th as [dn [[c p]|] td]; unfold rstep in ST; cbn [rt_done rt_cur rt_todo] in *.
    - set (s := fold_left (after_one lower span) (map fst dn) (stop, [])) in *.
      assert (RET : forall x, d' = d -> th' = mkRT (dn ++ [(c, x)]) None td ->
        after_one lower span s c = (rd_stop d, snd s ++ [(c, x)]) -> one_ok d' th').
      { intros x -> -> E. unfold one_ok. cbn [rt_done rt_cur]. rewrite map_app, fold_left_app. cbn [map fold_left fst].
        fold s. rewrite E. cbn [fst snd]. split; [now rewrite <- DN|reflexivity]. }
      destruct c as [words allow wf|lines].
      + destruct CU as (F & SS & CU).
        destruct p as [[|w rest] cm|w rest cm|w rest [|v inner] cm|w rest v inner cm|l]; try discriminate ST;
          injection ST as E1 E2.
        * apply (RET (RCounts cm)); auto. cbn [after_one]. rewrite <- SS. fold (coo (rd_stop d) allow wf words []). rewrite CU. reflexivity.
        * subst d' th'. split; [exact DN|]. cbn [rt_cur rt_done]. fold s. rewrite CU, coo_cons. unfold pairfilter. cbn [tr_stop].
          rewrite F. destruct (str_in (snd w) allow); cbn [andb]; auto.
        * subst d' th'. split; [exact DN|]. cbn [rt_cur rt_done]. fold s. rewrite CU.
          destruct (kept lower (rd_stop d) (fst w)); auto.
        * subst d' th'. split; [exact DN|]. cbn [rt_cur rt_done]. fold s. rewrite CU. auto.
        * subst d' th'. split; [exact DN|]. cbn [rt_cur rt_done]. fold s. rewrite CU, inner_cons. unfold pairfilter. cbn [tr_stop].
          rewrite F. destruct (str_in (snd v) allow); cbn [andb]; auto.
        * subst d' th'. split; [exact DN|]. cbn [rt_cur rt_done]. fold s. rewrite CU. auto.
      + destruct p as [? ?|? ? ?|? ? ? ?|? ? ? ? ?|[|w rest]]; try contradiction; injection ST as E1 E2.
        * apply (RET RDone); auto. cbn [after_one]. rewrite CU. reflexivity.
        * subst d' th'. split; [exact DN|]. cbn [rt_cur rt_done rd_stop]. fold s. rewrite CU. reflexivity.
    - destruct td as [|[words allow wf|lines] td]; [discriminate|injection ST as <- <-|injection ST as <- <-].
      + split; [exact DN|]. cbn [rt_cur rt_done rd_filt rd_stop]. split; auto.
      + split; [exact DN|]. cbn [rt_cur rt_done rd_filt rd_stop]. now rewrite CU.
  Qed.
End OneThread.

Lemma rstep_mine lower span d th d' th' : rstep lower span d th = Some (d', th') -> mine th' = mine th.
Proof.
  destruct th as [dn [[c p]|] td]; unfold rstep, mine; cbn [rt_done rt_cur rt_todo]; intros ST.
  - assert (R : forall x, map fst (dn ++ [(c, x)]) ++ [] ++ td = map fst dn ++ [c] ++ td).
    { intros x. now rewrite map_app, <- app_assoc. }
    destruct c as [words allow wf|lines], p as [[|w rest] cm|w rest cm|w rest [|v inner] cm|w rest v inner cm|[|w rest]];
      try discriminate ST; injection ST as <- <-; cbn [rt_done rt_cur rt_todo]; first [reflexivity|apply R].
  - destruct td as [|[words allow wf|lines] td]; [discriminate| |]; injection ST as <- <-; reflexivity.
Qed.

(** With one thread the calls happen one after the other: each ranks with the tags it asked
    for and the stop words added before it, whatever the object was asked for earlier. *)
Theorem C125_one_thread :
  forall (lower : str -> str) (span : nat) (filt stop : list str) (calls : list rcall) (d : rdata) (ts : list rthread),
    rsteps lower span (rstart filt stop [calls]) (d, ts) -> all_over ts ->
    exists th, ts = [th] /\ (rd_stop d, rt_done th) = fold_left (after_one lower span) calls (stop, []).
Proof.
  intros lower span filt stop calls d ts S F.
  assert (X : exists th, ts = [th] /\ one_ok lower span stop d th /\ mine th = calls).
  { clear F. remember (d, ts) as x eqn:E. revert d ts E.
    induction S as [|d0 ts0 i th d' th' S IH N T]; intros d ts E; inversion E; subst.
    - eexists. split; [reflexivity|]. split; [split; reflexivity|reflexivity].
    - destruct (IH d0 ts0 eq_refl) as (th0 & -> & I & M). destruct i as [|[|i]]; try discriminate.
      injection N as ->. exists th'. split; [reflexivity|]. split; [eapply one_step; eauto|].
      rewrite (rstep_mine _ _ _ _ _ _ T). exact M. }
  destruct X as (th & -> & (DN & CU) & M). exists th. split; [reflexivity|].
  inversion F as [|? ? [E1 E2] _]; subst calls. rewrite E1 in CU. unfold mine. rewrite E1, E2. cbn [app].
  rewrite app_nil_r. rewrite CU. rewrite DN at 2. now destruct (fold_left (after_one lower span) (map fst (rt_done th)) (stop, [])).
Qed.

(** ** Cases *)

(** running the threads in a given order *)
Fixpoint rsched (lower : str -> str) (span : nat) (s : rdata * list rthread) (order : list nat) : option (rdata * list rthread) :=
  match order with
  | [] => Some s
  | i :: order' =>
      match nth_error (snd s) i with
      | None => None
      | Some th =>
          match rstep lower span (fst s) th with
          | None => None
          | Some (d', th') => rsched lower span (d', lput (snd s) i th') order'
          end
      end
  end.
Lemma rsched_steps lower span order : forall s0 s s', rsteps lower span s0 s -> rsched lower span s order = Some s' -> rsteps lower span s0 s'.
Proof.
  induction order as [|i order IH]; intros s0 [d ts] s' S E; cbn in E; [injection E as <-; exact S|].
  destruct (nth_error ts i) as [th|] eqn:N; [|discriminate]. destruct (rstep lower span d th) as [[d' th']|] eqn:T; [|discriminate].
  eapply IH; [|exact E]. eapply rk_more; eauto.
Qed.

Definition nn : str := [110]%N.
Definition vv : str := [118]%N.
(** "aa" tagged n, "bb" tagged v, "cc" tagged n *)
Definition aa : tagged := ([97; 97]%N, nn).
Definition bb : tagged := ([98; 98]%N, vv).
Definition cc : tagged := ([99; 99]%N, nn).
Definition same (s : str) : str := s.

(** A call that asks for n only, beside one that asks for v: it can rank a word tagged v,
    and not rank words tagged n that it ranks alone. *)
Theorem C125_own_tags_refuted :
  forall (num : Num) (O : NumOrder num), NumRound num O ->
  exists d ts th cm e e0,
    rsteps same 5 (rstart [nn] [] [[RRank [aa; cc; aa; bb] [nn] false]; [RRank [] [vv] false]]) (d, ts) /\ all_over ts /\ In th ts /\
    In (RRank [aa; cc; aa; bb] [nn] false, RCounts cm) (rt_done th) /\
    rank num (graph_of cm) = Ok e /\ In (TWord (fst bb)) (map fst e) /\ ~ In (TWord (fst cc)) (map fst e) /\
    textrank_words num same (mkTr [] 5) [aa; cc; aa; bb] [nn] false = Ok e0 /\
    ~ In (TWord (fst bb)) (map fst e0) /\ In (TWord (fst cc)) (map fst e0).
Proof.
  intros num O Q.
  destruct (rsched same 5 (rstart [nn] [] [[RRank [aa; cc; aa; bb] [nn] false]; [RRank [] [vv] false]])
              [0; 0; 0; 1; 1; 0; 0; 0; 0; 0; 0; 0; 0; 0; 0; 0]) as [[d ts]|] eqn:E; [|vm_compute in E; discriminate E].
  pose proof (rsched_steps _ _ _ _ _ _ (rk_zero _ _ _) E) as ST. vm_compute in E. injection E as <- <-.
  destruct (rank_ok num O Q (graph_of [(TWord (fst aa), TWord (fst bb), 1%Z)]) 2) as (e & E & KE & _).
  { apply (graph_of_ok [(TWord (fst aa), TWord (fst bb), 1%Z)]). repeat constructor; cbn; lia. }
  { pose proof (r_G_big _ _ Q). lra. }
  set (cm0 := cooccur same (mkTr [] 5) [nn] false [aa; cc; aa; bb] []).
  destruct (rank_ok num O Q (graph_of cm0) 6) as (e0 & E0 & KE0 & _).
  { apply (graph_of_ok cm0). vm_compute. repeat constructor; discriminate. }
  { pose proof (r_G_big _ _ Q). lra. }
  eexists _, _, _, _, e, e0. split; [exact ST|]. split; [repeat constructor|]. split; [left; reflexivity|].
  split; [left; reflexivity|]. split; [exact E|]. rewrite KE, KE0. split; [vm_compute; tauto|].
  split; [vm_compute; intuition discriminate|]. split; [exact E0|]. split; [vm_compute; intuition discriminate|vm_compute; tauto].
Qed.

(** two threads that ask for the same tags in another order, and add a word that is there, interleaved *)
Example C125_nonvacuous :
  let progs := [[RRank [aa; bb; cc] [nn; vv] false]; [RStop [[120]%N]; RRank [bb; aa] [vv; nn] true]] in
  exists d ts, rsteps same 5 (rstart [] [[120]%N] progs) (d, ts) /\ all_over ts /\
    (forall other t, asks_for progs other -> In t other <-> In t [nn; vv]) /\ (forall w, to_stop progs w -> In w [[120]%N]) /\
    map rt_done ts =
      [[(RRank [aa; bb; cc] [nn; vv] false,
         RCounts [(TWord (fst aa), TWord (fst bb), 1%Z); (TWord (fst aa), TWord (fst cc), 1%Z); (TWord (fst bb), TWord (fst cc), 1%Z)])];
       [(RStop [[120]%N], RDone);
        (RRank [bb; aa] [vv; nn] true, RCounts [(TPair (fst bb) vv, TPair (fst aa) nn, 1%Z)])]].
Proof.
  intros progs.
  destruct (rsched same 5 (rstart [] [[120]%N] progs)
              [0; 0; 0; 1; 1; 1; 1; 1; 1; 1; 0; 0; 1; 0; 0; 1; 1; 0; 0; 0; 0; 0; 0; 0; 0; 0; 0; 1; 1; 1]) as [[d ts]|] eqn:E;
    [|vm_compute in E; discriminate E].
  exists d, ts. split; [eapply rsched_steps; [apply rk_zero|exact E]|]. vm_compute in E. injection E as <- <-.
  split; [repeat constructor|]. split; [|split; [|reflexivity]].
  - intros other t (prog & words & wf & [<-|[<-|[]]] & J).
    + destruct J as [J|[]]. injection J as _ <- _. tauto.
    + destruct J as [J|[J|[]]]; [discriminate|]. injection J as _ <- _. cbn. tauto.
  - intros w (prog & lines & [<-|[<-|[]]] & J & K).
    + destruct J as [J|[]]. discriminate.
    + destruct J as [J|[J|[]]]; [|discriminate]. injection J as <-. exact K.
Qed.

(** a word that can be taken and one that has to be, while stop words are added *)
Example C125_takeable_case :
  let progs := [[RRank [aa; bb] [nn; vv] false]; [RRank [aa; bb] [nn] false; RStop [fst cc]]] in
  takeable same [] progs bb /\ ~ untouchable same [] progs bb /\
  takeable same [] progs cc /\ ~ untouchable same [] progs cc /\ untouchable same [] progs aa.
Proof.
  intros progs.
  assert (A1 : asks_for progs [nn; vv]) by (eexists _, _, _; split; [left; reflexivity|]; left; reflexivity).
  assert (A2 : asks_for progs [nn]) by (eexists _, _, _; split; [right; left; reflexivity|]; left; reflexivity).
  assert (AA : forall a, asks_for progs a -> a = [nn; vv] \/ a = [nn]).
  { intros a (prog & words & wf & [<-|[<-|[]]] & J).
    - destruct J as [J|[]]. injection J as _ <- _. auto.
    - destruct J as [J|[J|[]]]; [|discriminate]. injection J as _ <- _. auto. }
  assert (T : forall p, In p [aa; bb; cc] -> two_chars (fst p)).
  { intros p [<-|[<-|[<-|[]]]]; apply strip_two; vm_compute; lia. }
  split; [|split; [|split; [|split]]].
  - split; [exists [nn; vv]; split; [exact A1|cbn; tauto]|]. split; [apply T; cbn; tauto|intros []].
  - intros (U & _). specialize (U _ A2). cbn in U. destruct U as [U|[]]. discriminate U.
  - split; [exists [nn]; split; [exact A2|cbn; tauto]|]. split; [apply T; cbn; tauto|intros []].
  - intros (_ & _ & _ & U). apply U. eexists _, _. split; [right; left; reflexivity|]. split; [right; left; reflexivity|left; reflexivity].
  - split; [intros a A; destruct (AA a A) as [-> | ->]; cbn; tauto|]. split; [apply T; cbn; tauto|]. split; [intros []|].
    intros (prog & lines & [<-|[<-|[]]] & J & K).
    + destruct J as [J|[]]. discriminate.
    + destruct J as [J|[J|[]]]; [discriminate|]. injection J as <-. destruct K as [K|[]]. discriminate K.
Qed.

(** one thread: n only, then "cc" becomes a stop word, then n and v *)
Example C125_one_thread_case :
  exists d ts, rsteps same 2 (rstart [vv] [] [[RRank [aa; cc; bb] [nn] false; RStop [fst cc]; RRank [cc; aa; bb] [nn; vv] false]]) (d, ts) /\ all_over ts /\
    map rt_done ts =
      [[(RRank [aa; cc; bb] [nn] false, RCounts [(TWord (fst aa), TWord (fst cc), 1%Z)]); (RStop [fst cc], RDone);
        (RRank [cc; aa; bb] [nn; vv] false, RCounts [(TWord (fst aa), TWord (fst bb), 1%Z)])]].
Proof.
  destruct (rsched same 2 (rstart [vv] [] [[RRank [aa; cc; bb] [nn] false; RStop [fst cc]; RRank [cc; aa; bb] [nn; vv] false]])
              (repeat 0 27)) as [[d ts]|] eqn:E; [|vm_compute in E; discriminate E].
  exists d, ts. split; [eapply rsched_steps; [apply rk_zero|exact E]|]. vm_compute in E. injection E as <- <-.
  split; [repeat constructor|]. reflexivity.
Qed.

Print Assumptions C125_whatever_the_others_do.
Print Assumptions C125_same_tags.
Print Assumptions C125_goes_on.
Print Assumptions C125_one_thread.
Print Assumptions C125_own_tags_refuted.
