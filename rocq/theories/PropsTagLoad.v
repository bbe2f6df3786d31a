(** * C124: threads that reload a tagger *)
From Coq Require Import Lia.
From Verif Require Import PyBase ModelPosseg ModelTagLoad ProofsBase ProofsDict Demo.

(** ** What is claimed *)

(** some thread is told to load a file with these lines *)
Definition to_load (progs : list (list lcall)) (lines : list bytes) : Prop :=
  exists p, In p progs /\ In (LLoad lines) p.
(** the tag of a word after loading the file alone: up to a line that is refused *)
Definition alone (lines : list bytes) (w : str) : option str := sget (fst (load_word_tag lines [])) w.
(** a line of the file gives the word this tag *)
Definition in_file (lines : list bytes) (w t : str) : Prop :=
  exists line, In line lines /\ tag_line line = Some (Some (w, t)).
(** nobody has anything left to do *)
Definition all_ended (ts : list lthread) : Prop := Forall (fun th => lt_cur th = None /\ lt_todo th = []) ts.

(** ** Lemmas *)

Lemma lput_In {A} (l : list A) i x y : In y (lput l i x) -> y = x \/ In y l.
Proof.
  revert i. induction l as [|z l IH]; intros [|i]; cbn [lput]; auto.
  - intros [E|E]; auto. right. right. exact E.
  - intros [E|E]; [right; left; exact E|]. destruct (IH _ E); auto. right. right. auto.
Qed.
Lemma lput_keep {A} (l : list A) i x y j : j <> i -> nth_error l j = Some y -> nth_error (lput l i x) j = Some y.
Proof. revert i j. induction l as [|z l IH]; intros [|i] [|j] N E; cbn [lput] in *; auto; [congruence|]. cbn in *. apply IH; auto. Qed.
Lemma lput_here {A} (l : list A) i x y : nth_error l i = Some y -> nth_error (lput l i x) i = Some x.
Proof. revert i. induction l as [|z l IH]; intros [|i] E; cbn in *; try discriminate; auto. Qed.
Lemma lput_length {A} (l : list A) i x : length (lput l i x) = length l.
Proof. revert i. induction l; intros [|i]; cbn; auto. Qed.
Lemma lput_get {A} (l : list A) i x j d :
  (j < length l)%nat -> nth j (lput l i x) d = if (j =? i)%nat then x else nth j l d.
Proof.
  revert i j. induction l as [|y l IH]; intros [|i] [|j]; cbn; intros L; auto; try lia.
  apply IH. lia.
Qed.

Lemma load_over lines : forall tab w, sget (fst (load_word_tag lines tab)) w =
  match alone lines w with Some t => Some t | None => sget tab w end.
Proof.
  unfold alone. induction lines as [|l ls IH]; intros tab w; cbn [load_word_tag]; [reflexivity|].
  destruct (tag_line l) as [[[k t]|]|]; [|apply IH|reflexivity].
  rewrite (IH (sset tab k t)), (IH (sset [] k t)). destruct (sget (fst (load_word_tag ls [])) w); [reflexivity|].
  rewrite !sget_sset. destruct (str_eqb w k); reflexivity.
Qed.

(** what is still to be written: a pending store, then lines *)
Definition then_lines (o : option str) (rest : list bytes) (w : str) : option str :=
  match alone rest w with Some t => Some t | None => o end.

Lemma alone_cons l ls w : alone (l :: ls) w =
  match tag_line l with
  | None => None
  | Some None => alone ls w
  | Some (Some (k, t)) => then_lines (if str_eqb w k then Some t else None) ls w
  end.
Proof.
  unfold alone at 1. cbn [load_word_tag]. destruct (tag_line l) as [[[k t]|]|]; [|reflexivity|reflexivity].
  rewrite load_over, sget_sset. unfold then_lines. destruct (alone ls w); [reflexivity|]. destruct (str_eqb w k); reflexivity.
Qed.

(** what the thread will still write for [w] into the dictionary [cur] *)
Definition to_come (cur : nat) (th : lthread) (w : str) : option str :=
  match lt_cur th with
  | Some (_, LdNext rest) => alone rest w
  | Some (_, LdStore k t r rest) =>
      then_lines (if (r =? cur)%nat && str_eqb w k then Some t else None) rest w
  | _ => None
  end.

(** a running load is of a file it is told to load, and what it still writes is the end of it *)
Definition load_ok (progs : list (list lcall)) (d : ldata) (th : lthread) : Prop :=
  (forall lines, In (LLoad lines) (lt_todo th) -> to_load progs lines) /\
  match lt_cur th with
  | None => True
  | Some (c, LdNext rest) =>
      exists lines, c = LLoad lines /\ to_load progs lines /\ l_cur d <> 0%nat /\
        (exists pre, lines = pre ++ rest) /\
        forall w t, alone rest w = Some t -> alone lines w = Some t
  | Some (c, LdStore k u r rest) =>
      exists lines, c = LLoad lines /\ to_load progs lines /\ l_cur d <> 0%nat /\ r <> 0%nat /\ (r < length (l_objs d))%nat /\
        (exists pre, lines = pre ++ rest) /\ in_file lines k u /\
        forall w t, then_lines (if str_eqb w k then Some u else None) rest w = Some t -> alone lines w = Some t
  | Some (c, LkGet r) => exists w, c = LLook w
  end /\
  (forall lines x, In (LLoad lines, x) (lt_done th) -> l_cur d <> 0%nat).

Record linv (tab0 : sdict str) (progs : list (list lcall)) (d : ldata) (ts : list lthread) : Prop := {
  li_cur : l_cur d = (length (l_objs d) - 1)%nat /\ l_objs d <> [];
  li_first : lobj d 0 = tab0;
  li_threads : forall th, In th ts -> load_ok progs d th;
  li_known : forall r w t, sget (lobj d r) w = Some t -> sget tab0 w = Some t \/ exists lines, to_load progs lines /\ in_file lines w t;
  li_answers : forall th w x, In th ts -> In (LLook w, x) (lt_done th) ->
    x = LTag tag_x \/ exists t, x = LTag t /\ (sget tab0 w = Some t \/ exists lines, to_load progs lines /\ in_file lines w t);
  li_now : l_cur d <> 0%nat -> forall w,
    (exists lines, to_load progs lines /\ alone lines w = sget (lobj d (l_cur d)) w) \/
    (exists i th, nth_error ts i = Some th /\ to_come (l_cur d) th w <> None)
}.

Lemma lobj_out d r : (length (l_objs d) <= r)%nat -> lobj d r = [].
Proof. intros L. unfold lobj. now apply nth_overflow. Qed.

Lemma linv_step tab0 progs d ts i th d' th' :
  linv tab0 progs d ts -> nth_error ts i = Some th -> lstep d th = Some (d', th') -> linv tab0 progs d' (lput ts i th').
Proof.
  intros [[CU NE] FI TH KN AN NOW] NTH ST.
  pose proof (TH th (nth_error_In _ _ NTH)) as (TD & CO & DN).
  destruct th as [dn [[c p]|] td]; cbn [lt_done lt_cur lt_todo] in *; unfold lstep in ST; cbn [lt_done lt_cur lt_todo] in ST.
  - (* a running call *)
    (* a thread other than this one is as it was when [d] is *)
    assert (SAME : d' = d -> load_ok progs d th' ->
      (forall w x, In (LLook w, x) (lt_done th') -> In (LLook w, x) dn \/
         x = LTag tag_x \/ exists t, x = LTag t /\ (sget tab0 w = Some t \/ exists lines, to_load progs lines /\ in_file lines w t)) ->
      (forall w, to_come (l_cur d) (mkLT dn (Some (c, p)) td) w <> None -> to_come (l_cur d) th' w <> None) ->
      linv tab0 progs d' (lput ts i th')).
    { intros -> LO AN' TC. constructor; auto.
      - intros x I. apply lput_In in I. destruct I as [->|I]; auto.
      - intros x w y I J. apply lput_In in I. destruct I as [->|I]; [|eapply AN; eauto].
        destruct (AN' _ _ J) as [K|K]; auto. apply (AN (mkLT dn (Some (c, p)) td) w y); auto. eapply nth_error_In; eauto.
      - intros N w. destruct (NOW N w) as [L|(j & u & NJ & C)]; auto. right.
        destruct (Nat.eq_dec j i) as [->|NI].
        + assert (u = mkLT dn (Some (c, p)) td) by congruence. subst u. exists i, th'. split; [eapply lput_here; eauto|auto].
        + exists j, u. split; auto. apply lput_keep; auto. }
    destruct p as [[|l rest]|k u r rest|r].
    + (* the end of the file *)
      injection ST as <- <-. destruct CO as (lines & -> & TL & N & _ & _). apply SAME; auto.
      * split; [exact TD|]. split; [exact I|]. cbn [lt_done]. intros ls x J. apply in_app_or in J. destruct J as [J|[J|[]]]; eauto.
      * cbn [lt_done]. intros w x J. apply in_app_or in J. destruct J as [J|[J|[]]]; auto. discriminate J.
    + destruct CO as (lines & -> & TL & N & [pre EP] & AL).
      destruct (tag_line l) as [[[k u]|]|] eqn:EL; injection ST as <- <-.
      * (* the attribute is read *)
        assert (IF : in_file lines k u).
        { exists l. split; auto. rewrite EP. apply in_or_app. right. left. reflexivity. }
        apply SAME; auto.
        -- split; [exact TD|]. split; [|exact DN]. cbn [lt_cur]. exists lines. split; auto. split; auto. split; auto.
           split; auto. split; [destruct (l_objs d); [congruence|cbn [length] in *; lia]|].
           split; [exists (pre ++ [l]); rewrite <- app_assoc; exact EP|]. split; auto.
           intros w t E. apply AL. rewrite alone_cons, EL. exact E.
        -- intros w. unfold to_come. cbn [lt_cur]. rewrite alone_cons, EL, Nat.eqb_refl. cbn [andb]. auto.
      * (* an empty line *)
        apply SAME; auto.
        -- split; [exact TD|]. split; [|exact DN]. cbn [lt_cur]. exists lines. split; auto. split; auto. split; auto.
           split; [exists (pre ++ [l]); rewrite <- app_assoc; exact EP|].
           intros w t E. apply AL. rewrite alone_cons, EL. exact E.
        -- intros w. unfold to_come. cbn [lt_cur]. rewrite alone_cons, EL. auto.
      * (* a line that is refused *)
        apply SAME; auto.
        -- split; [exact TD|]. split; [exact I|]. cbn [lt_done]. intros ls x J. apply in_app_or in J. destruct J as [J|[J|[]]]; eauto.
        -- cbn [lt_done]. intros w x J. apply in_app_or in J. destruct J as [J|[J|[]]]; auto. discriminate J.
        -- intros w. unfold to_come. cbn [lt_cur]. rewrite alone_cons, EL. congruence.
    + (* the store *)
      destruct CO as (lines & -> & TL & N & R0 & RL & [pre EP] & IF & AL). injection ST as <- <-.
      set (d' := mkLD (lput (l_objs d) r (sset (lobj d r) k u)) (l_cur d)).
      assert (OB : forall j, lobj d' j = if (j =? r)%nat then sset (lobj d r) k u else lobj d j).
      { intros j. unfold lobj at 1, d'. cbn [l_objs]. destruct (Nat.lt_ge_cases j (length (l_objs d))) as [L|G].
        - apply lput_get. exact L.
        - rewrite nth_overflow by (rewrite lput_length; lia). destruct (j =? r)%nat eqn:E; [apply Nat.eqb_eq in E; lia|].
          symmetry. now apply lobj_out. }
      assert (LEN : length (l_objs d') = length (l_objs d)) by (unfold d'; cbn [l_objs]; apply lput_length).
      constructor.
      * rewrite LEN. split; [exact CU|]. intros E. rewrite E in LEN. cbn [length] in LEN. lia.
      * rewrite OB. destruct r; [congruence|exact FI].
      * intros x I. apply lput_In in I. destruct I as [->|I].
        -- split; [exact TD|]. split; [|exact DN]. cbn [lt_cur]. exists lines. split; auto. split; auto. split; auto. split; eauto.
           intros w t E. apply AL. unfold then_lines. rewrite E. reflexivity.
        -- destruct (TH x I) as (A & B & C). split; [exact A|]. split; [|exact C].
           destruct (lt_cur x) as [[c' [rest'|k' u' r' rest'|r']]|]; auto. rewrite LEN. exact B.
      * intros j w t. rewrite OB. destruct (j =? r)%nat; [|apply KN]. rewrite sget_sset. destruct (str_eqb w k) eqn:E; [|apply KN].
        intros [= <-]. apply str_eqb_eq in E. subst w. right. eauto.
      * intros x w y I J. apply lput_In in I. destruct I as [->|I]; [|eapply AN; eauto].
        apply (AN (mkLT dn (Some (LLoad lines, LdStore k u r rest)) td) w y); auto. eapply nth_error_In; eauto.
      * intros _ w. change (l_cur d') with (l_cur d). rewrite OB.
        destruct ((l_cur d =? r)%nat && str_eqb w k) eqn:HIT.
        -- (* its word, into the table that counts *)
           apply andb_prop in HIT. destruct HIT as [H1 H2]. apply Nat.eqb_eq in H1. apply str_eqb_eq in H2. subst w.
           rewrite <- H1, Nat.eqb_refl, sget_sset_same.
           destruct (alone rest k) as [t|] eqn:AR.
           ++ right. exists i. eexists. split; [eapply lput_here; eauto|]. unfold to_come. cbn [lt_cur]. congruence.
           ++ left. exists lines. split; auto. apply AL. unfold then_lines. rewrite AR, str_eqb_refl. reflexivity.
        -- assert (EQ : sget (if (l_cur d =? r)%nat then sset (lobj d r) k u else lobj d (l_cur d)) w = sget (lobj d (l_cur d)) w).
           { destruct (l_cur d =? r)%nat eqn:E; [|reflexivity]. apply Nat.eqb_eq in E. rewrite <- E, sget_sset.
             cbn [andb] in HIT. rewrite HIT. reflexivity. }
           rewrite EQ. destruct (NOW N w) as [L|(j & x & NJ & C)]; [left; exact L|]. right.
           destruct (Nat.eq_dec j i) as [->|NI].
           ++ assert (x = mkLT dn (Some (LLoad lines, LdStore k u r rest)) td) by congruence. subst x.
              exists i. eexists. split; [eapply lput_here; eauto|]. unfold to_come in *. cbn [lt_cur] in *.
              rewrite (Nat.eqb_sym r), HIT in C. unfold then_lines in C. destruct (alone rest w); congruence.
           ++ exists j, x. split; auto. apply lput_keep; auto.
    + (* a lookup *)
      destruct CO as [w ->]. injection ST as <- <-. apply SAME; auto.
      * split; [exact TD|]. split; [exact I|]. cbn [lt_done]. intros ls x J. apply in_app_or in J. destruct J as [J|[J|[]]]; [eauto|discriminate J].
      * cbn [lt_done]. intros v x J. apply in_app_or in J. destruct J as [J|[J|[]]]; auto. injection J as <- <-. right.
        unfold tag_get. destruct (sget (lobj d r) w) as [t|] eqn:E; [right|left; reflexivity]. exists t. split; auto. eapply KN; eauto.
  - (* a call begins *)
    destruct td as [|[lines|w] td]; [discriminate|injection ST as <- <-|injection ST as <- <-].
    + (* the table is emptied *)
      set (d' := mkLD (l_objs d ++ [[]]) (length (l_objs d))).
      assert (LEN : (0 < length (l_objs d))%nat) by (destruct (l_objs d); [congruence|cbn; lia]).
      assert (OB : forall j, (j < length (l_objs d))%nat -> lobj d' j = lobj d j).
      { intros j L. unfold lobj, d'. cbn [l_objs]. now apply app_nth1. }
      assert (OE : lobj d' (length (l_objs d)) = []).
      { unfold lobj, d'. cbn [l_objs]. rewrite app_nth2, Nat.sub_diag by lia. reflexivity. }
      assert (TL : to_load progs lines) by (apply TD; left; reflexivity).
      constructor.
      * unfold d'. cbn [l_cur l_objs]. rewrite app_length. cbn [length]. split; [lia|]. intros E. destruct (l_objs d); discriminate E.
      * rewrite OB by exact LEN. exact FI.
      * intros x I. apply lput_In in I. destruct I as [->|I].
        -- split; [intros ls J; apply TD; right; exact J|]. split.
           ++ cbn [lt_cur]. exists lines. split; auto. split; auto. split; [cbn; lia|]. split; [exists []; reflexivity|auto].
           ++ intros ls x _. cbn. lia.
        -- destruct (TH x I) as (A & B & C). split; [exact A|]. split; [|intros; cbn; lia].
           destruct (lt_cur x) as [[c' [rest'|k' u' r' rest'|r']]|]; auto.
           ++ destruct B as (ls & B1 & B2 & B3 & B4). exists ls. split; auto. split; auto. split; [cbn; lia|auto].
           ++ destruct B as (ls & B1 & B2 & B3 & B4 & B5 & B6). exists ls. split; auto. split; auto. split; [cbn; lia|].
              split; auto. split; [cbn [d' l_objs]; rewrite app_length; lia|auto].
      * intros j v t E. destruct (Nat.lt_ge_cases j (length (l_objs d))) as [L|G]; [rewrite OB in E by exact L; eapply KN; eauto|].
        destruct (Nat.eq_dec j (length (l_objs d))) as [->|NJ]; [rewrite OE in E; discriminate E|].
        rewrite lobj_out in E by (cbn [d' l_objs]; rewrite app_length; cbn [length]; lia). discriminate E.
      * intros x v y I J. apply lput_In in I. destruct I as [->|I]; [|eapply AN; eauto].
        apply (AN (mkLT dn None (LLoad lines :: td)) v y); auto. eapply nth_error_In; eauto.
      * intros _ v. change (l_cur d') with (length (l_objs d)). rewrite OE. destruct (alone lines v) as [t|] eqn:E.
        -- right. exists i. eexists. split; [eapply lput_here; eauto|]. unfold to_come. cbn [lt_cur]. congruence.
        -- left. exists lines. split; auto.
    + (* a lookup *)
      constructor; auto.
      * intros x I. apply lput_In in I. destruct I as [->|I]; auto.
        split; [intros ls J; apply TD; right; exact J|]. split; [|exact DN]. cbn [lt_cur]. eauto.
      * intros x v y I J. apply lput_In in I. destruct I as [->|I]; [|eapply AN; eauto].
        apply (AN (mkLT dn None (LLook w :: td)) v y); auto. eapply nth_error_In; eauto.
      * intros N v. destruct (NOW N v) as [L|(j & x & NJ & C)]; [left; exact L|]. right.
        destruct (Nat.eq_dec j i) as [->|NI].
        -- assert (x = mkLT dn None (LLook w :: td)) by congruence. subst x. exfalso. apply C. reflexivity.
        -- exists j, x. split; auto. apply lput_keep; auto.
Qed.

Lemma linv_run tab0 progs d ts : lsteps (lstart tab0 progs) (d, ts) -> linv tab0 progs d ts.
Proof.
  intros S. remember (d, ts) as x eqn:E. revert d ts E.
  induction S as [|d0 ts0 i th d' th' S IH N T]; intros d ts E; inversion E; subst.
  - constructor; cbn [l_cur l_objs length].
    + split; [reflexivity|discriminate].
    + reflexivity.
    + intros th I. apply in_map_iff in I. destruct I as [p [<- I]]. split; [|split; [exact Logic.I|intros ? ? []]].
      cbn [lt_todo]. intros lines J. exists p. auto.
    + intros [|[|r]] w t; cbn; auto; discriminate.
    + intros th w y I J. apply in_map_iff in I. destruct I as [p [<- I]]. destruct J.
    + congruence.
  - eapply linv_step; eauto.
Qed.

(** the calls of a thread *)
Definition its_calls (th : lthread) : list lcall :=
  map fst (lt_done th) ++ match lt_cur th with Some (c, _) => [c] | None => [] end ++ lt_todo th.

Lemma lstep_calls d th d' th' : lstep d th = Some (d', th') -> its_calls th' = its_calls th.
Proof.
  unfold lstep, its_calls. destruct th as [dn [[c p]|] td]; cbn [lt_done lt_cur lt_todo].
  - destruct p as [[|l rest]|k u r rest|r].
    + intros E; inversion E; subst. cbn. rewrite map_app, <- app_assoc. reflexivity.
    + destruct (tag_line l) as [[[k u]|]|]; intros E; inversion E; subst; cbn; auto. rewrite map_app, <- app_assoc. reflexivity.
    + intros E; inversion E; subst. reflexivity.
    + destruct c; [discriminate|]. intros E; inversion E; subst. cbn. rewrite map_app, <- app_assoc. reflexivity.
  - destruct td as [|[lines|w] td]; intros E; inversion E; subst; reflexivity.
Qed.

Lemma lsteps_calls tab progs d ts : lsteps (lstart tab progs) (d, ts) -> map its_calls ts = progs.
Proof.
  intros S. remember (d, ts) as x eqn:E. revert d ts E.
  induction S as [|d0 ts0 i th d' th' S IH N T]; intros d ts E; inversion E; subst.
  - rewrite map_map. cbn. apply map_id.
  - rewrite <- (IH d0 ts0 eq_refl). clear - N T. revert i N. induction ts0 as [|x l IH]; intros [|i] N; cbn in *; try discriminate.
    + inversion N; subst. f_equal. eapply lstep_calls; eauto.
    + f_equal. auto.
Qed.

(** ** The theorems *)

(** Any number of threads reload one tagger, each from its own files, in any interleaving.
    When they have ended, the tagger has for every word what one of the files alone gives it. *)
Theorem C124_word_by_word :
  forall (tab : sdict str) (progs : list (list lcall)) (d : ldata) (ts : list lthread) (w : str),
    lsteps (lstart tab progs) (d, ts) -> all_ended ts -> (exists lines, to_load progs lines) ->
    exists lines, to_load progs lines /\ sget (lobj d (l_cur d)) w = alone lines w.
Proof.
  intros tab progs d ts w S F (l0 & p & IP & IL). pose proof (linv_run _ _ _ _ S) as [_ _ TH _ _ NOW].
  assert (N : l_cur d <> 0%nat).
  { pose proof (lsteps_calls _ _ _ _ S) as C. rewrite <- C in IP. apply in_map_iff in IP. destruct IP as [th [<- IT]].
    unfold all_ended in F. rewrite Forall_forall in F. destruct (F th IT) as [E1 E2].
    unfold its_calls in IL. rewrite E1, E2, app_nil_r in IL. apply in_map_iff in IL. destruct IL as [[c x] [E IL]]. cbn in E. subst c.
    destruct (TH th IT) as (_ & _ & D). eapply D; eauto. }
  destruct (NOW N w) as [(lines & A & B)|(i & th & NI & C)]; [exists lines; auto|]. exfalso. apply C.
  unfold all_ended in F. rewrite Forall_forall in F. destruct (F th (nth_error_In _ _ NI)) as [E1 _].
  unfold to_come. rewrite E1. reflexivity.
Qed.

(** ... so if all load the same file the tagger is as after one load of it. *)
Theorem C124_same_file :
  forall (tab : sdict str) (progs : list (list lcall)) (d : ldata) (ts : list lthread) (lines : list bytes),
    lsteps (lstart tab progs) (d, ts) -> all_ended ts ->
    to_load progs lines -> (forall lines', to_load progs lines' -> lines' = lines) ->
    forall w, sget (lobj d (l_cur d)) w = sget (fst (load_word_tag lines [])) w.
Proof.
  intros tab progs d ts lines S F L U w.
  destruct (C124_word_by_word tab progs d ts w S F (ex_intro _ lines L)) as (l' & A & B).
  rewrite (U l' A) in B. exact B.
Qed.

(** A tag that is looked up meanwhile is the one of the table before, one that a line of a
    file gives this very word, or x. *)
Theorem C124_looked_up_meanwhile :
  forall (tab : sdict str) (progs : list (list lcall)) (d : ldata) (ts : list lthread) (th : lthread) (w : str) (x : lret),
    lsteps (lstart tab progs) (d, ts) -> In th ts -> In (LLook w, x) (lt_done th) ->
    x = LTag tag_x \/
    exists t, x = LTag t /\ (sget tab w = Some t \/ exists lines, to_load progs lines /\ in_file lines w t).
Proof.
  intros tab progs d ts th w x S IT IL. pose proof (linv_run _ _ _ _ S) as [_ _ _ _ AN _]. eapply AN; eauto.
Qed.

(** ** One thread *)

(** one call after the other: the table, and what the calls give *)
Definition in_turn (s : sdict str * list (lcall * lret)) (c : lcall) : sdict str * list (lcall * lret) :=
  match c with
  | LLook w => (fst s, snd s ++ [(c, LTag (tag_get (fst s) w))])
  | LLoad lines =>
      (fst (load_word_tag lines []), snd s ++ [(c, match snd (load_word_tag lines []) with None => LDone | Some _ => LFail end)])
  end.

Definition turn_ok (tab : sdict str) (d : ldata) (th : lthread) : Prop :=
  (l_cur d < length (l_objs d))%nat /\
  let s := fold_left in_turn (map fst (lt_done th)) (tab, []) in
  lt_done th = snd s /\
  match lt_cur th with
  | None => lobj d (l_cur d) = fst s
  | Some (LLook w, LkGet r) => r = l_cur d /\ lobj d (l_cur d) = fst s
  | Some (LLoad lines, LdNext rest) => load_word_tag lines [] = load_word_tag rest (lobj d (l_cur d))
  | Some (LLoad lines, LdStore k u r rest) => r = l_cur d /\ load_word_tag lines [] = load_word_tag rest (sset (lobj d (l_cur d)) k u)
  | _ => False
  end.

Lemma turn_step tab d th d' th' : turn_ok tab d th -> lstep d th = Some (d', th') -> turn_ok tab d' th'.
Proof.
  intros (L & DN & CU) ST. destruct th as [dn [[c p]|] td]; unfold lstep in ST; cbn [lt_done lt_cur lt_todo] in *.
  - assert (RET : forall x, d' = d -> th' = mkLT (dn ++ [(c, x)]) None td ->
      in_turn (fold_left in_turn (map fst dn) (tab, [])) c = (lobj d (l_cur d), snd (fold_left in_turn (map fst dn) (tab, [])) ++ [(c, x)]) ->
      turn_ok tab d' th').
    { intros x -> -> E. split; [exact L|]. cbn [lt_done lt_cur]. rewrite map_app, fold_left_app. cbn [map fold_left fst].
      rewrite E. cbn [fst snd]. split; [now rewrite <- DN|reflexivity]. }
    destruct p as [[|l rest]|k u r rest|r], c as [lines|w]; try contradiction; try discriminate ST.
    + injection ST as E1 E2. apply (RET LDone); auto. cbn [in_turn]. rewrite CU. reflexivity.
    + destruct (tag_line l) as [[[k u]|]|] eqn:EL; injection ST as E1 E2.
      * subst. split; [exact L|]. split; [exact DN|]. cbn [lt_cur]. split; auto. rewrite CU. cbn [load_word_tag]. rewrite EL. reflexivity.
      * subst. split; [exact L|]. split; [exact DN|]. cbn [lt_cur]. rewrite CU. cbn [load_word_tag]. rewrite EL. reflexivity.
      * apply (RET LFail); auto. cbn [in_turn]. rewrite CU. cbn [load_word_tag]. rewrite EL. reflexivity.
    + destruct CU as [-> CU]. injection ST as <- <-. split; [cbn [l_cur l_objs]; rewrite lput_length; exact L|].
      split; [exact DN|]. cbn [lt_cur l_cur]. rewrite CU. f_equal. unfold lobj at 2. cbn [l_objs].
      rewrite lput_get by exact L. now rewrite Nat.eqb_refl.
    + destruct CU as [-> CU]. injection ST as E1 E2. rewrite CU in E2. eapply RET; eauto. cbn [in_turn]. rewrite CU. reflexivity.
  - destruct td as [|[lines|w] td]; [discriminate|injection ST as <- <-|injection ST as <- <-].
    + split; [cbn [l_cur l_objs]; rewrite app_length; cbn [length]; lia|]. split; [exact DN|]. cbn [lt_cur l_cur].
      unfold lobj. cbn [l_objs]. rewrite app_nth2, Nat.sub_diag by lia. reflexivity.
    + split; [exact L|]. split; [exact DN|]. cbn [lt_cur]. auto.
Qed.

(** With one thread the calls happen one after the other: each load leaves the table of its
    file (up to a line that is refused), each lookup answers from the table of the last load. *)
Theorem C124_one_thread :
  forall (tab : sdict str) (calls : list lcall) (d : ldata) (ts : list lthread),
    lsteps (lstart tab [calls]) (d, ts) -> all_ended ts ->
    exists th, ts = [th] /\ (lobj d (l_cur d), lt_done th) = fold_left in_turn calls (tab, []).
Proof.
  intros tab calls d ts S F.
  assert (X : exists th, ts = [th] /\ turn_ok tab d th).
  { clear F. remember (d, ts) as x eqn:E. revert d ts E.
    induction S as [|d0 ts0 i th d' th' S IH N T]; intros d ts E; inversion E; subst.
    - eexists. split; [reflexivity|]. split; [cbn; lia|]. split; reflexivity.
    - destruct (IH d0 ts0 eq_refl) as (th0 & -> & I). destruct i as [|[|i]]; try discriminate.
      injection N as ->. exists th'. split; [reflexivity|]. eapply turn_step; eauto. }
  destruct X as (th & -> & _ & DN & CU). exists th. split; [reflexivity|].
  pose proof (lsteps_calls _ _ _ _ S) as C. inversion F as [|? ? [E1 E2] _]; subst. rewrite E1 in CU.
  unfold its_calls in C. cbn [map] in C. rewrite E1, E2, app_nil_r in C. injection C as C. rewrite C in *.
  rewrite CU, DN. now destruct (fold_left in_turn calls (tab, [])).
Qed.

(** ** Cases *)

(** running the threads in a given order *)
Fixpoint lsched (s : ldata * list lthread) (order : list nat) : option (ldata * list lthread) :=
  match order with
  | [] => Some s
  | i :: order' =>
      match nth_error (snd s) i with
      | None => None
      | Some th =>
          match lstep (fst s) th with
          | None => None
          | Some (d', th') => lsched (d', lput (snd s) i th') order'
          end
      end
  end.
Lemma lsched_steps order : forall s0 s s', lsteps s0 s -> lsched s order = Some s' -> lsteps s0 s'.
Proof.
  induction order as [|i order IH]; intros s0 [d ts] s' S E; cbn in E; [injection E as <-; exact S|].
  destruct (nth_error ts i) as [th|] eqn:N; [|discriminate]. destruct (lstep d th) as [[d' th']|] eqn:T; [|discriminate].
  eapply IH; [|exact E]. eapply l_more; eauto.
Qed.

(** "a 1 n", "a 1 v", "b 1 n", "b 1 v" *)
Definition an : bytes := [97; 32; 49; 32; 110; 10]%N.
Definition av : bytes := [97; 32; 49; 32; 118; 10]%N.
Definition bn : bytes := [98; 32; 49; 32; 110; 10]%N.
Definition bv : bytes := [98; 32; 49; 32; 118; 10]%N.
Definition tn : str := [110]%N.
Definition tv : str := [118]%N.

(** Two threads load a file each: the tagger can end with a table that is of neither file. *)
Theorem C124_one_of_the_files_refuted :
  exists d ts, lsteps (lstart [] [[LLoad [an; bn]]; [LLoad [av; bv]]]) (d, ts) /\ all_ended ts /\
    sget (lobj d (l_cur d)) [97]%N = Some tv /\ sget (lobj d (l_cur d)) [98]%N = Some tn /\
    alone [an; bn] [97]%N = Some tn /\ alone [av; bv] [98]%N = Some tv.
Proof.
  destruct (lsched (lstart [] [[LLoad [an; bn]]; [LLoad [av; bv]]]) [0; 0; 0; 1; 1; 1; 1; 1; 1; 0; 0; 0]) as [[d ts]|] eqn:E; [|vm_compute in E; discriminate E].
  exists d, ts. split; [eapply lsched_steps; [apply l_zero|exact E]|].
  vm_compute in E. injection E as <- <-. split; [repeat constructor|]. repeat split; vm_compute; reflexivity.
Qed.

(** A word that has the same tag in the table before and in the file is looked up as x
    while the file is being loaded. *)
Theorem C124_kept_tag_refuted :
  exists d ts, lsteps (lstart [([97]%N, tn)] [[LLoad [an]]; [LLook [97]%N]]) (d, ts) /\ all_ended ts /\
    map (fun th => lt_done th) ts = [[(LLoad [an], LDone)]; [(LLook [97]%N, LTag tag_x)]] /\
    sget (lobj d (l_cur d)) [97]%N = Some tn.
Proof.
  destruct (lsched (lstart [([97]%N, tn)] [[LLoad [an]]; [LLook [97]%N]]) [0; 1; 1; 0; 0; 0]) as [[d ts]|] eqn:E; [|vm_compute in E; discriminate E].
  exists d, ts. split; [eapply lsched_steps; [apply l_zero|exact E]|].
  vm_compute in E. injection E as <- <-. split; [repeat constructor|]. split; reflexivity.
Qed.

(** two threads load the same file, which gives "a" two tags, interleaved; the later line counts *)
Example C124_nonvacuous :
  let progs := [[LLoad [an; bn; av]]; [LLoad [an; bn; av]; LLook [97]%N]] in
  exists d ts, lsteps (lstart [([98]%N, tv)] progs) (d, ts) /\ all_ended ts /\
    to_load progs [an; bn; av] /\ (forall lines', to_load progs lines' -> lines' = [an; bn; av]) /\
    sget (lobj d (l_cur d)) [97]%N = Some tv /\ sget (lobj d (l_cur d)) [98]%N = Some tn.
Proof.
  intros progs.
  destruct (lsched (lstart [([98]%N, tv)] progs) [0; 0; 1; 1; 0; 0; 0; 1; 0; 0; 1; 0; 1; 1; 1; 1; 1; 1]) as [[d ts]|] eqn:E; [|vm_compute in E; discriminate E].
  exists d, ts. split; [eapply lsched_steps; [apply l_zero|exact E]|].
  vm_compute in E. injection E as <- <-. split; [repeat constructor|].
  split; [exists [LLoad [an; bn; av]]; split; left; reflexivity|]. split; [|split; reflexivity].
  intros lines' (p & [<-|[<-|[]]] & J); repeat (destruct J as [J|J]; [congruence|]); destruct J.
Qed.

(** one thread: a lookup, a load of a file whose second line is refused, two lookups *)
Example C124_one_thread_case :
  exists d ts, lsteps (lstart [([97]%N, tv)] [[LLook [97]%N; LLoad [an; [120]%N; bn]; LLook [97]%N; LLook [98]%N]]) (d, ts) /\ all_ended ts /\
    map lt_done ts = [[(LLook [97]%N, LTag tv); (LLoad [an; [120]%N; bn], LFail); (LLook [97]%N, LTag tn); (LLook [98]%N, LTag tag_x)]].
Proof.
  destruct (lsched (lstart [([97]%N, tv)] [[LLook [97]%N; LLoad [an; [120]%N; bn]; LLook [97]%N; LLook [98]%N]])
              [0; 0; 0; 0; 0; 0; 0; 0; 0; 0]) as [[d ts]|] eqn:E; [|vm_compute in E; discriminate E].
  exists d, ts. split; [eapply lsched_steps; [apply l_zero|exact E]|].
  vm_compute in E. injection E as <- <-. split; [repeat constructor|]. reflexivity.
Qed.

Print Assumptions C124_word_by_word.
Print Assumptions C124_same_file.
Print Assumptions C124_looked_up_meanwhile.
Print Assumptions C124_one_thread.
Print Assumptions C124_one_of_the_files_refuted.
Print Assumptions C124_kept_tag_refuted.
