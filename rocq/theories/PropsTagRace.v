(** * C89: tagging in some threads while others give tags *)
From Coq Require Import Lia Permutation.
From Verif Require Import PyBase ModelTagRace ProofsBase ProofsDict ProofsPosTags.

Lemma put_nth_length {A} (l : list A) i x : length (put_nth l i x) = length l.
Proof. revert i. induction l; intros [|i]; cbn; auto. Qed.
Lemma put_nth_In {A} (l : list A) i x y : In y (put_nth l i x) -> y = x \/ In y l.
Proof. revert i. induction l as [|z l IH]; intros [|i]; cbn; intuition. destruct (IH _ H0); auto. Qed.
Lemma put_nth_get {A} (l : list A) i x j d :
  (j < length l)%nat -> nth j (put_nth l i x) d = if (j =? i)%nat then x else nth j l d.
Proof.
  revert i j. induction l as [|y l IH]; intros [|i] [|j]; cbn; intros L; auto; try lia.
  apply IH. lia.
Qed.

(** dictionaries in which no key comes twice *)
Definition keys_once (d : sdict str) : Prop := NoDup (map fst d).
Lemma sset_keys_once (d : sdict str) w t : keys_once d -> keys_once (sset d w t).
Proof. apply sset_NoDup. Qed.

(** ** What every run keeps *)

Definition given (progs : list (list top)) (w t : str) : Prop := exists p, In p progs /\ In (TAdd w t) p.
(** the tags a thread has in hand *)
Definition own_calls (th : tthread) : list top :=
  tt_done th ++ match tt_cur th with Some (c, _) => [c] | None => [] end ++ tt_todo th.
Definition held (th : tthread) : option nat :=
  match tt_cur th with Some (_, AtSet r) | Some (_, AtTest r) | Some (_, AtUpdate r) => Some r | _ => None end.

Lemma tstep_calls d th d' th' : tstep d th = Some (d', th') -> own_calls th' = own_calls th.
Proof.
  unfold tstep, own_calls. destruct th as [dn [[c p]|] td]; cbn [tt_cur tt_done tt_todo].
  - destruct p; [destruct c|destruct (obj d r)| | |]; intros E; inversion E; subst; cbn; rewrite ?app_nil_r, <- ?app_assoc; auto.
  - destruct td as [|[w t|] td]; intros E; inversion E; subst; cbn; auto.
Qed.

Lemma tsteps_calls s d ts : tsteps s (d, ts) -> map own_calls ts = map own_calls (snd s).
Proof.
  intros S. remember (d, ts) as x eqn:E. revert d ts E.
  induction S as [|d0 ts0 i th d' th' S IH N T]; intros d ts E; inversion E; subst; auto.
  rewrite <- (IH d0 ts0 eq_refl). clear - N T. revert i N. induction ts0 as [|x l IH]; intros [|i] N; cbn in *; try discriminate.
  - inversion N; subst. f_equal. eapply tstep_calls; eauto.
  - f_equal. auto.
Qed.

Section Word.
  (** a word that nobody gives a tag meanwhile *)
  Variables (tab0 pend0 : sdict str) (w : str).
  Variable once : keys_once pend0.

  (** the tag of [w] once the pending tags are in the table *)
  Definition merged : option str := match sget pend0 w with Some t => Some t | None => sget tab0 w end.

  Record inv (d : tagdata) (ts : list tthread) : Prop := {
    i_cur : (d_cur d < length (d_objs d))%nat;
    i_once : Forall keys_once (d_objs d);
    i_first : sget (obj d 0) w = sget pend0 w;
    i_later : forall r, r <> 0 -> sget (obj d r) w = None;
    i_tab : sget (d_tab d) w = merged \/
            (sget (d_tab d) w = sget tab0 w /\ d_cur d = 0 /\
             forall th, In th ts -> (held th = None \/ held th = Some 0) /\
                        (forall c, tt_cur th = Some (c, AtReset) -> False) /\
                        (sget pend0 w <> None -> ~ In TTag (tt_done th)));
    i_held : forall th r, In th ts -> held th = Some r -> (r < length (d_objs d))%nat;
    i_quiet : forall th t, In th ts -> ~ In (TAdd w t) (own_calls th);
  }.

  Lemma inv_start progs : (forall t, ~ given progs w t) -> inv (fst (tstart tab0 pend0 progs)) (snd (tstart tab0 pend0 progs)).
  Proof.
    intros Q. cbn. constructor; cbn; auto.
    - intros [|[|r]]; cbn; congruence.
    - right. split; auto. split; auto. intros th I. apply in_map_iff in I. destruct I as (p & <- & I). cbn.
      split; auto. split; [discriminate|auto].
    - intros th r I. apply in_map_iff in I. destruct I as (p & <- & I). discriminate.
    - intros th t I. apply in_map_iff in I. destruct I as (p & <- & I). cbn. intros J. apply (Q t). exists p. auto.
  Qed.

  Lemma inv_step d ts i th d' th' :
    inv d ts -> nth_error ts i = Some th -> tstep d th = Some (d', th') -> inv d' (put_nth ts i th').
  Proof.
    intros [I1 I2 I3 I4 I5 I6 I7] N T.
    assert (IN : In th ts) by (eapply nth_error_In; eauto).
    pose proof (tstep_calls _ _ _ _ T) as OC.
    assert (Q7 : forall x t, In x (put_nth ts i th') -> ~ In (TAdd w t) (own_calls x)).
    { intros x t I. apply put_nth_In in I. destruct I as [->|I]; [rewrite OC; auto|auto]. }
    (* reading the current dictionary *)
    assert (KEEP : forall th1, d' = d -> (forall r, held th' = Some r -> r = d_cur d) -> th1 = th' ->
              (forall c, tt_cur th' = Some (c, AtReset) -> False) ->
              (sget (d_tab d) w = merged \/ (sget pend0 w <> None -> ~ In TTag (tt_done th'))) ->
              inv d' (put_nth ts i th')).
    { intros th1 -> HH _ NR ND. constructor; auto.
      - destruct I5 as [A|(A & B & C)]; [left; auto|]. destruct ND as [ND|ND]; [left; auto|].
        right. split; auto. split; auto. intros x I. apply put_nth_In in I. destruct I as [->|I]; auto.
        split; [|split; auto]. destruct (held th') as [r|]; auto. right. f_equal. rewrite (HH r); auto.
      - intros x r I E. apply put_nth_In in I. destruct I as [->|I]; eauto. rewrite (HH r E). auto. }
    unfold tstep in T. destruct th as [dn [[c p]|] td]; cbn [tt_cur tt_done tt_todo] in T.
    2:{ destruct td as [|[v t|] td]; [discriminate| |]; injection T as <- <-; eapply KEEP; try reflexivity;
          cbn [held tt_cur tt_done]; try congruence;
          (destruct I5 as [A|(_ & _ & C)]; [left; auto|right; intros X; apply (C _ IN); auto]). }
    destruct p.
    - (* AtSet *)
      destruct c as [v t|]; [|discriminate]. injection T as <- <-.
      assert (NE : v <> w).
      { intros ->. apply (I7 _ t IN). unfold own_calls. cbn. apply in_or_app. right. left. auto. }
      assert (L : (r < length (d_objs d))%nat) by (apply (I6 _ r IN); reflexivity).
      assert (SG : forall j, sget (nth j (put_nth (d_objs d) r (sset (obj d r) v t)) []) w = sget (obj d j) w).
      { intros j. unfold obj. destruct (Nat.lt_ge_cases j (length (d_objs d))) as [J|J].
        - rewrite put_nth_get by auto. destruct (Nat.eqb_spec j r) as [->|]; auto.
          apply sget_sset_other. auto.
        - rewrite !nth_overflow; auto. rewrite put_nth_length. auto. }
      constructor; cbn [d_cur d_objs d_tab]; rewrite ?put_nth_length; auto.
      + rewrite Forall_forall in *. intros x J. apply put_nth_In in J. destruct J as [->|J]; auto.
        apply sset_keys_once. apply I2. apply nth_In. auto.
      + unfold obj. cbn [d_objs]. rewrite SG. auto.
      + intros j J. unfold obj. cbn [d_objs]. rewrite SG. auto.
      + destruct I5 as [A|(A & B & C)]; [left; auto|]. right. split; auto. split; auto.
        intros x I. apply put_nth_In in I. destruct I as [->|I]; auto. destruct (C _ IN) as (_ & _ & C3).
        cbn. split; auto. split; [discriminate|]. intros X J. apply in_app_or in J.
        destruct J as [J|[J|[]]]; [apply C3; auto|discriminate].
      + intros x j I E. apply put_nth_In in I. destruct I as [->|I]; [discriminate|eauto].
    - (* AtTest *)
      assert (L : (r < length (d_objs d))%nat) by (apply (I6 _ r IN); reflexivity).
      destruct (obj d r) eqn:O; injection T as <- <-.
      + eapply KEEP; try reflexivity; cbn [held tt_cur tt_done]; try discriminate.
        destruct I5 as [A|(A & B & C)]; [left; auto|]. right. intros X.
        destruct (C _ IN) as ([H|H] & _ & C3); cbn in H; [discriminate|]. injection H as ->.
        rewrite O in I3. cbn in I3. congruence.
      + eapply KEEP; try reflexivity; cbn [held tt_cur tt_done]; try discriminate.
        destruct I5 as [A|(A & B & C)]; [left; auto|]. right. intros X. apply (C _ IN). auto.
    - (* AtGet *)
      injection T as <- <-. eapply KEEP; try reflexivity; cbn [held tt_cur tt_done]; try congruence.
      destruct I5 as [A|(A & B & C)]; [left; auto|]. right. intros X. apply (C _ IN). auto.
    - (* AtUpdate *)
      assert (L : (r < length (d_objs d))%nat) by (apply (I6 _ r IN); reflexivity).
      injection T as <- <-.
      assert (K : keys_once (obj d r)).
      { rewrite Forall_forall in I2. apply I2. apply nth_In. auto. }
      constructor; cbn [d_cur d_objs d_tab]; auto.
      + left. rewrite sget_dupdate by exact K. destruct (Nat.eq_dec r 0) as [->|R].
        * rewrite I3. unfold merged. destruct (sget pend0 w) eqn:P; auto.
          destruct I5 as [A|(A & _)]; auto. unfold merged in A. rewrite P in A. auto.
        * rewrite I4 by auto. destruct I5 as [A|(A & B & C)]; auto.
          destruct (C _ IN) as ([H|H] & _); cbn in H; [discriminate|congruence].
      + intros x j I E. apply put_nth_In in I. destruct I as [->|I]; [discriminate|eauto].
    - (* AtReset *)
      injection T as <- <-.
      assert (M : sget (d_tab d) w = merged).
      { destruct I5 as [A|(_ & _ & C)]; auto. exfalso. destruct (C _ IN) as (_ & C2 & _). eapply C2. reflexivity. }
      assert (SG : forall j, sget (nth j (d_objs d ++ [[]]) []) w = sget (obj d j) w).
      { intros j. unfold obj. destruct (Nat.lt_ge_cases j (length (d_objs d))) as [J|J].
        - rewrite app_nth1; auto.
        - rewrite app_nth2, (nth_overflow (d_objs d)) by auto. destruct (j - length (d_objs d)) as [|[|?]]; reflexivity. }
      constructor; cbn [d_cur d_objs d_tab]; rewrite ?app_length; cbn [length]; try lia; auto.
      + apply Forall_app. split; auto. repeat constructor.
      + unfold obj. cbn [d_objs]. rewrite SG. auto.
      + intros j J. unfold obj. cbn [d_objs]. rewrite SG. auto.
      + intros x j I E. apply put_nth_In in I. destruct I as [->|I]; [discriminate|].
        specialize (I6 x j I E). lia.
  Qed.
End Word.

Lemma inv_run tab pend w progs d ts :
  keys_once pend -> (forall t, ~ given progs w t) ->
  tsteps (tstart tab pend progs) (d, ts) -> inv tab pend w d ts.
Proof.
  intros O Q S. remember (d, ts) as x eqn:E. revert d ts E.
  induction S as [|d0 ts0 i th d' th' S IH N T]; intros d ts E.
  - unfold tstart in E. inversion E; subst. apply (inv_start tab pend w O progs Q).
  - inversion E; subst. eapply inv_step; eauto.
Qed.

(** A tag that was given before the threads started is in the table when the first
    tagging call has recorded the pending tags, and stays there, whatever other words
    are given tags meanwhile. *)
Theorem C89_tags_given_before :
  forall (tab pending : sdict str) (progs : list (list top)) (d : tagdata) (ts : list tthread) (w t : str),
    keys_once pending -> (forall t', ~ given progs w t') -> sget pending w = Some t ->
    tsteps (tstart tab pending progs) (d, ts) ->
    (exists th, In th ts /\ In TTag (tt_done th)) ->
    sget (d_tab d) w = Some t.
Proof.
  intros tab pend progs d ts w t O Q P S (th & I & D).
  destruct (inv_run _ _ _ _ _ _ O Q S) as [_ _ _ _ [A|(_ & _ & C)] _ _].
  - rewrite A. unfold merged. now rewrite P.
  - exfalso. destruct (C th I) as (_ & _ & X). apply X; auto. congruence.
Qed.

(** A word that is given no tag before or meanwhile keeps the one it has. *)
Theorem C89_other_words :
  forall (tab pending : sdict str) (progs : list (list top)) (d : tagdata) (ts : list tthread) (w : str),
    keys_once pending -> (forall t', ~ given progs w t') -> sget pending w = None ->
    tsteps (tstart tab pending progs) (d, ts) ->
    sget (d_tab d) w = sget tab w /\ sget (obj d (d_cur d)) w = None.
Proof.
  intros tab pend progs d ts w O Q P S. destruct (inv_run _ _ _ _ _ _ O Q S) as [_ _ F L [A|(A & _)] _ _]; split; auto.
  - rewrite A. unfold merged. now rewrite P.
  - destruct (Nat.eq_dec (d_cur d) 0) as [->|N]; [congruence|auto].
  - destruct (Nat.eq_dec (d_cur d) 0) as [->|N]; [congruence|auto].
Qed.

(** Every tag in the table is one that was there, was pending, or was given for this
    very word. *)
Theorem C89_nothing_invented :
  forall (tab pending : sdict str) (progs : list (list top)) (d : tagdata) (ts : list tthread) (w t : str),
    keys_once pending ->
    tsteps (tstart tab pending progs) (d, ts) ->
    sget (d_tab d) w = Some t ->
    sget tab w = Some t \/ sget pending w = Some t \/ given progs w t.
Proof.
  intros tab pend progs d ts w t O S.
  assert (X : (forall t, sget (d_tab d) w = Some t -> sget tab w = Some t \/ sget pend w = Some t \/ given progs w t) /\
              (forall o t, In o (d_objs d) -> sget o w = Some t -> sget pend w = Some t \/ given progs w t) /\
              Forall keys_once (d_objs d)).
  { pose proof (tsteps_calls _ _ _ S) as OC. remember (d, ts) as x eqn:E. revert d ts E OC.
    induction S as [|d0 ts0 i th d' th' S IH N T]; intros d ts E OC.
    - inversion E; subst. cbn. split; auto. split; [|repeat constructor; auto].
      intros o u [<-|[]]; auto.
    - inversion E; subst. destruct (IH d0 ts0 eq_refl) as (A & B & C); [eapply tsteps_calls; eauto|].
      pose proof (tsteps_calls _ _ _ S) as OC0.
      assert (G : forall u v, In (TAdd u v) (own_calls th) -> given progs u v).
      { intros u v I. apply nth_error_In in N. apply (in_map own_calls) in N. rewrite OC0 in N. cbn [tstart snd] in N.
        rewrite map_map in N. apply in_map_iff in N. destruct N as (p & E1 & N).
        rewrite <- E1 in I. exists p. auto. }
      unfold tstep in T. destruct th as [dn [[c p]|] td]; cbn [tt_cur tt_done tt_todo] in T.
      2:{ destruct td as [|[v u|] td]; inversion T; subst; auto. }
      destruct p; [destruct c; [|discriminate]|destruct (obj d0 r)| | |]; inversion T; subst; cbn [d_tab d_objs]; auto.
      + split; auto. split.
        * intros o u I Q. apply put_nth_In in I. destruct I as [->|I]; [|eauto]. rewrite sget_sset in Q.
          destruct (str_eqb w w0) eqn:E1.
          -- apply str_eqb_eq in E1. subst w0. injection Q as ->. right. apply G. unfold own_calls. cbn.
             apply in_or_app. right. left. auto.
          -- unfold obj in Q. destruct (nth_in_or_default r (d_objs d0) []) as [I| Z]; [eauto|]. rewrite Z in Q. discriminate.
        * rewrite Forall_forall in *. intros o I. apply put_nth_In in I. destruct I as [->|I]; auto.
          apply sset_keys_once. unfold obj. destruct (nth_in_or_default r (d_objs d0) []) as [I| ->]; [auto|constructor].
      + split; auto. intros u. assert (K : keys_once (obj d0 r)).
        { unfold obj. rewrite Forall_forall in C. destruct (nth_in_or_default r (d_objs d0) []) as [I| ->]; [auto|constructor]. }
        rewrite sget_dupdate by exact K. destruct (sget (obj d0 r) w) as [v|] eqn:Q; [|apply A].
        intros Z. injection Z as ->. right. unfold obj in Q.
        destruct (nth_in_or_default r (d_objs d0) []) as [I|Z]; [eapply B; eauto|]. rewrite Z in Q. discriminate.
      + split; auto. split.
        * intros o u I Q. apply in_app_or in I. destruct I as [I|[<-|[]]]; [eauto|discriminate].
        * apply Forall_app. split; auto. repeat constructor. }
  apply X.
Qed.

(** ** One thread *)

Definition one_inv (s0 : sdict str * sdict str) (d : tagdata) (th : tthread) : Prop :=
  let s := fold_left tcall (tt_done th) s0 in
  (d_cur d < length (d_objs d))%nat /\
  match tt_cur th with
  | None => (d_tab d, obj d (d_cur d)) = s
  | Some (TAdd _ _, AtSet r) | Some (TTag, AtTest r) => r = d_cur d /\ (d_tab d, obj d (d_cur d)) = s
  | Some (TTag, AtGet) => (d_tab d, obj d (d_cur d)) = s /\ snd s <> []
  | Some (TTag, AtUpdate r) => r = d_cur d /\ (d_tab d, obj d (d_cur d)) = s /\ snd s <> []
  | Some (TTag, AtReset) => d_tab d = dupdate str_eqb (fst s) (snd s) /\ snd s <> []
  | _ => False
  end.

Lemma one_step s0 d th d' th' : one_inv s0 d th -> tstep d th = Some (d', th') -> one_inv s0 d' th'.
Proof.
  unfold one_inv, tstep. destruct th as [dn [[c p]|] td]; cbn [tt_cur tt_done tt_todo]; intros [L I] T.
  2:{ destruct td as [|[v t|] td]; inversion T; subst; cbn [tt_cur tt_done]; auto. }
  destruct p, c; try contradiction; try discriminate.
  - destruct I as [-> I]. inversion T; subst. cbn [tt_cur tt_done d_cur d_objs d_tab].
    rewrite put_nth_length, fold_left_app, <- I. split; auto. unfold obj. cbn [d_objs fold_left tcall fst snd].
    rewrite put_nth_get by auto. now rewrite Nat.eqb_refl.
  - destruct I as [-> I]. destruct (obj d (d_cur d)) eqn:O; inversion T; subst; cbn [tt_cur tt_done]; split; auto.
    + rewrite fold_left_app, <- I. cbn. now rewrite O.
    + split; [congruence|]. rewrite <- I. discriminate.
  - inversion T; subst. cbn [tt_cur tt_done]. tauto.
  - destruct I as (-> & I & N). inversion T; subst. cbn [tt_cur tt_done d_cur d_objs d_tab]. split; auto. split; auto.
    now rewrite <- I.
  - destruct I as (I & N). inversion T; subst. cbn [tt_cur tt_done d_cur d_objs d_tab].
    rewrite app_length. cbn [length]. split; [lia|]. rewrite fold_left_app. unfold obj. cbn [d_objs].
    rewrite app_nth2, Nat.sub_diag by lia. cbn [nth fold_left tcall].
    destruct (snd (fold_left tcall dn s0)); [congruence|]. now rewrite I.
Qed.

(** The calls of a single thread have the effect of the calls one after the other. *)
Theorem C89_one_thread :
  forall (tab pending : sdict str) (calls : list top) (d : tagdata) (ts : list tthread),
    tsteps (tstart tab pending [calls]) (d, ts) ->
    Forall (fun th => tt_cur th = None /\ tt_todo th = []) ts ->
    (d_tab d, obj d (d_cur d)) = fold_left tcall calls (tab, pending).
Proof.
  intros tab pend calls d ts S F.
  assert (X : exists th, ts = [th] /\ one_inv (tab, pend) d th).
  { clear F. remember (d, ts) as x eqn:E. revert d ts E.
    induction S as [|d0 ts0 i th d' th' S IH N T]; intros d ts E; inversion E; subst.
    - eexists. split; [reflexivity|]. split; [cbn; lia|reflexivity].
    - destruct (IH d0 ts0 eq_refl) as (th0 & -> & I). destruct i as [|[|i]]; try discriminate.
      injection N as ->. exists th'. split; [reflexivity|]. eapply one_step; eauto. }
  destruct X as (th & -> & _ & I). pose proof (tsteps_calls _ _ _ S) as OC. inversion F as [|? ? [C D] _]; subst.
  rewrite C in I. rewrite I. cbn in OC. injection OC as OC. unfold own_calls in OC. rewrite C, D, !app_nil_r in OC.
  now rewrite OC.
Qed.

(** ** A tag given meanwhile can be lost *)

Fixpoint trun (is : list nat) (s : tagdata * list tthread) : option (tagdata * list tthread) :=
  match is with
  | [] => Some s
  | i :: r =>
      match nth_error (snd s) i with
      | None => None
      | Some th => match tstep (fst s) th with
                   | None => None
                   | Some (d', th') => trun r (d', put_nth (snd s) i th')
                   end
      end
  end.
Lemma trun_steps is s0 : forall s s', tsteps s0 s -> trun is s = Some s' -> tsteps s0 s'.
Proof.
  induction is as [|i r IH]; intros [d ts] s' S E; cbn [trun fst snd] in E; [injection E as <-; auto|].
  destruct (nth_error ts i) as [th|] eqn:N; [|discriminate].
  destruct (tstep d th) as [[d' th']|] eqn:T; [|discriminate].
  eapply IH; [|exact E]. econstructor; eauto.
Qed.

(** One thread tags, another gives 97 the tag 110: all calls have returned, and the tag is
    neither in the table nor pending, so no later call uses it, although in every order
    of the three calls it would be in one of the two. *)
Theorem C89_tag_is_kept_refuted :
  let a : str := [97%N] in
  let pending : sdict str := [([98%N], [118%N])] in
  let progs := [[TAdd a [110%N]]; [TTag; TTag]] in
  (exists d ts, tsteps (tstart [] pending progs) (d, ts) /\
     Forall (fun th => tt_cur th = None /\ tt_todo th = []) ts /\
     sget (d_tab d) a = None /\ sget (obj d (d_cur d)) a = None) /\
  (forall calls, Permutation calls (concat progs) ->
     let s := fold_left tcall calls ([], pending) in
     sget (fst s) a = Some [110%N] \/ sget (snd s) a = Some [110%N]).
Proof.
  intros a pending progs. split.
  - eexists; eexists. split.
    { eapply trun_steps with (is := [1; 1; 1; 1; 0; 0; 1; 1; 1]); [constructor|]. vm_compute. reflexivity. }
    split; [repeat constructor|split; reflexivity].
  - intros calls P s. unfold s. clear s.
    assert (O : keys_once pending) by (repeat constructor; intros []).
    assert (I : In (TAdd a [110%N]) calls) by (eapply Permutation_in; [symmetry; exact P|cbn; auto]).
    apply in_split in I. destruct I as (l1 & l2 & ->).
    assert (TT : forall x, In x (l1 ++ l2) -> x = TTag).
    { intros x I. assert (J : Permutation (TAdd a [110%N] :: l1 ++ l2) (TAdd a [110%N] :: [TTag; TTag])).
      { etransitivity; [apply Permutation_middle|]. exact P. }
      apply Permutation_cons_inv in J. apply (Permutation_in _ J) in I. cbn in I. intuition. }
    rewrite fold_left_app. cbn [fold_left].
    set (s := fold_left tcall l1 ([], pending)).
    assert (K : keys_once (snd s)).
    { unfold s. revert O. generalize pending. generalize (@nil (str * str)). clear -TT.
      induction l1 as [|c l1 IH]; intros t p O; [exact O|]. cbn [fold_left].
      rewrite (TT c) by (left; auto). cbn [tcall fst snd]. destruct p; apply IH; auto.
      all: try (intros x I; apply TT; right; auto). constructor. }
    set (g := fun s : sdict str * sdict str => keys_once (snd s) /\ ((sget (fst s) a = Some [110%N] /\ sget (snd s) a = None) \/ sget (snd s) a = Some [110%N])).
    assert (G : g (tcall s (TAdd a [110%N]))).
    { split; cbn [tcall snd]; [apply sset_keys_once; auto|]. right. apply sget_sset_same. }
    assert (ST : forall l x, (forall c, In c l -> c = TTag) -> g x -> g (fold_left tcall l x)).
    { induction l as [|c l IH]; intros x H X; auto. cbn [fold_left]. apply IH; [intros; apply H; right; auto|].
      rewrite (H c) by (left; auto). destruct x as [t p]. destruct X as [X1 X2]. cbn [tcall fst snd] in *.
      destruct p as [|q p]; [split; auto|]. split; [constructor|]. left. cbn [fst snd]. split; [|reflexivity].
      rewrite sget_dupdate by exact X1. destruct X2 as [[X2 X3]|X2].
      - now rewrite X3.
      - now rewrite X2. }
    destruct (ST l2 _ (fun c I => TT c (in_or_app _ _ _ (or_intror I))) G) as [_ [[A _]|A]]; auto.
Qed.

(** the theorems on runs apply here: a tag pending from before, others given meanwhile *)
Example C89_nonvacuous :
  let b : str := [98%N] in
  let pending : sdict str := [(b, [118%N])] in
  let progs := [[TAdd [97%N] [110%N]]; [TTag; TTag]; [TTag]] in
  keys_once pending /\ (forall t, ~ given progs b t) /\
  exists d ts, tsteps (tstart [(b, [120%N])] pending progs) (d, ts) /\
     (exists th, In th ts /\ In TTag (tt_done th)) /\ sget (d_tab d) b = Some [118%N] /\
     sget (d_tab d) [97%N] = Some [110%N].
Proof.
  intros b pending progs. split; [repeat constructor; intros []|]. split.
  - intros t (p & I & J). cbn in I. destruct I as [<-|[<-|[<-|[]]]]; cbn in J;
      repeat (destruct J as [J|J]; [discriminate J|]); exact J.
  - eexists; eexists. split.
    { eapply trun_steps with (is := [2; 1; 1; 0; 1; 0; 1; 1; 2; 2; 2; 2]); [constructor|]. vm_compute. reflexivity. }
    split; [eexists; split; [right; left; reflexivity|left; reflexivity]|split; reflexivity].
Qed.

Print Assumptions C89_tags_given_before.
Print Assumptions C89_other_words.
Print Assumptions C89_nothing_invented.
Print Assumptions C89_one_thread.
Print Assumptions C89_tag_is_kept_refuted.
