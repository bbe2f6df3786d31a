(** * Interleaved additions *)
From Coq Require Import Permutation.
From Verif Require Import PyBase PyRegex PyNum ModelFinalseg ModelSeg ModelDict ModelConc
  SpecBase SpecSeg SpecDict SpecOrder SpecConc ProofsBase ProofsDict ProofsOrder.
Set Implicit Arguments.

(** ** Lists *)
Lemma set_nth_same {A} (l : list A) i x y : nth_error l i = Some y -> nth_error (set_nth l i x) i = Some x.
Proof. revert i. induction l as [|a l IH]; intros [|i]; simpl; try discriminate; auto. Qed.
Lemma set_nth_other {A} (l : list A) i j x : i <> j -> nth_error (set_nth l i x) j = nth_error l j.
Proof.
  revert i j. induction l as [|a l IH]; intros [|i] [|j] N; simpl; auto. congruence.
Qed.
Lemma set_nth_map {A B} (f : A -> B) l i x y :
  nth_error l i = Some y -> f x = f y -> map f (set_nth l i x) = map f l.
Proof.
  revert i. induction l as [|a l IH]; intros [|i] E F; simpl in *; try discriminate; auto.
  - inversion E; subst. congruence.
  - f_equal. eauto.
Qed.
Lemma set_nth_case {A} (l : list A) i x y j z :
  nth_error l i = Some y -> nth_error (set_nth l i x) j = Some z ->
  (j = i /\ z = x) \/ (j <> i /\ nth_error l j = Some z).
Proof.
  intros E F. destruct (Nat.eq_dec j i) as [->|N].
  - left. rewrite (@set_nth_same _ l i x _ E) in F. inversion F; auto.
  - right. rewrite set_nth_other in F by auto. auto.
Qed.
Lemma set_nth_flat {A} (g : A -> list call) l i x y add c :
  nth_error l i = Some y -> g x = g y ++ add ->
  In c (flat_map g (set_nth l i x)) <-> In c (flat_map g l) \/ In c add.
Proof.
  revert i. induction l as [|a l IH]; intros [|i] E F; simpl in *; try discriminate.
  - inversion E; subst. rewrite F, !in_app_iff. tauto.
  - rewrite !in_app_iff, (IH i E F). tauto.
Qed.
Lemma sum_given_app a b : sum_given (a ++ b) = (sum_given a + sum_given b)%Z.
Proof. induction a as [|c a IH]; simpl; auto. rewrite IH. lia. Qed.
Lemma set_nth_sum {A} (g : A -> list call) l i x y add :
  nth_error l i = Some y -> g x = g y ++ add ->
  sum_given (flat_map g (set_nth l i x)) = (sum_given (flat_map g l) + sum_given add)%Z.
Proof.
  revert i. induction l as [|a l IH]; intros [|i] E F; simpl in *; try discriminate.
  - inversion E; subst. rewrite F, !sum_given_app. lia.
  - rewrite !sum_given_app, (IH i E F). lia.
Qed.

(** ** What a thread has done so far *)
Definition cur_calls (th : thread) : list call := match th_cur th with Some (c, _) => [c] | None => [] end.
Definition begun (th : thread) : list call := th_done th ++ cur_calls th.
Definition whole (th : thread) : list call := begun th ++ th_todo th.
Definition tagged (th : thread) : list call :=
  th_done th ++ match th_cur th with
                | Some (c, AtFrag _) | Some (c, AtInsert _) | Some (c, AtForce) => [c]
                | _ => []
                end.
Definition written (th : thread) : list call :=
  th_done th ++ match th_cur th with
                | Some (c, AtTag) | Some (c, AtFrag _) | Some (c, AtInsert _) | Some (c, AtForce) => [c]
                | _ => []
                end.

Lemma start_nth progs i th : nth_error (start progs) i = Some th ->
  exists p, nth_error progs i = Some p /\ th = mkTh [] None p.
Proof.
  unfold start. rewrite nth_error_map. destruct (nth_error progs i) as [p|]; simpl; [|discriminate].
  intros E; inversion E. eauto.
Qed.
Lemma start_whole progs : map whole (start progs) = progs.
Proof. unfold start. rewrite map_map. rewrite <- (map_id progs) at 2. apply map_ext. auto. Qed.
Lemma start_flat (g : thread -> list call) progs :
  (forall p, g (mkTh [] None p) = []) -> flat_map g (start progs) = [].
Proof. intros E. unfold start. induction progs as [|p progs IH]; simpl; auto. rewrite E, IH. auto. Qed.

Lemma finished_whole ts th : finished ts -> In th ts -> begun th = whole th /\ th_done th = whole th
  /\ tagged th = whole th /\ written th = whole th.
Proof.
  intros F I. unfold finished in F. rewrite Forall_forall in F. destruct (F _ I) as [A B].
  unfold whole, begun, cur_calls, tagged, written. rewrite A, B, !app_nil_r. auto.
Qed.
Lemma finished_flat g ts : finished ts -> (forall th, In th ts -> g th = whole th) ->
  flat_map g ts = concat (map whole ts).
Proof.
  intros _ E. rewrite flat_map_concat_map. f_equal. apply map_ext_in. auto.
Qed.

Ltac step_cases E :=
  unfold thread_step in E; cbv zeta in E;
  repeat match type of E with
  | match ?x with _ => _ end = _ => let Q := fresh "Q" in destruct x eqn:Q
  | (if ?x then _ else _) = _ => let Q := fresh "Q" in destruct x eqn:Q
  end; try discriminate E; inversion E; subst; clear E.

Lemma step_whole d th d' th' : thread_step d th = Some (d', th') -> whole th' = whole th.
Proof.
  intros E. step_cases E; unfold whole, begun, cur_calls; simpl; rewrite ?Q, ?Q0; simpl;
    rewrite <- ?app_assoc; simpl; auto.
Qed.
Lemma steps_whole s s' : conc_steps s s' -> map whole (snd s') = map whole (snd s).
Proof.
  induction 1 as [|s' s'' _ IH S]; auto. destruct S as [d ts i th d' th' N E]. cbn [snd] in *.
  rewrite <- IH. eapply set_nth_map; eauto using step_whole.
Qed.

(** ** Forced splits *)
Lemma steps_force d0 progs d ts :
  conc_steps (d0, start progs) (d, ts) -> forall x,
  In x (d_force d) <-> In x (d_force d0)
    \/ exists c, In c (flat_map th_done ts) /\ freq_given c = 0%Z /\ word_of c = x.
Proof.
  intros S. remember (d, ts) as s eqn:ES. revert d ts ES.
  induction S as [|s' s'' _ IH S]; intros d ts ES x.
  - inversion ES; subst. rewrite start_flat by auto. split; [tauto|]. intros [A|[c [[] _]]]; auto.
  - destruct S as [d1 ts1 i th d' th' N E]. inversion ES; subst. specialize (IH _ _ eq_refl x).
    assert (K : forall add, th_done th' = th_done th ++ add ->
      (In x (d_force d) <-> In x (d_force d1) \/ exists c, In c add /\ freq_given c = 0%Z /\ word_of c = x) ->
      In x (d_force d) <-> In x (d_force d0)
        \/ exists c, In c (flat_map th_done (set_nth ts1 i th')) /\ freq_given c = 0%Z /\ word_of c = x).
    { intros add A B. rewrite B, IH. clear - N A. split.
      - intros [[P|[c [P Q]]]|[c [P Q]]]; auto; right; exists c; split; auto;
          apply (@set_nth_flat _ th_done ts1 i _ _ _ c N A); auto.
      - intros [P|[c [P Q]]]; auto. apply (@set_nth_flat _ th_done ts1 i _ _ _ c N A) in P. destruct P; eauto. }
    assert (K0 : th_done th' = th_done th -> d_force d = d_force d1 ->
      In x (d_force d) <-> In x (d_force d0)
        \/ exists c, In c (flat_map th_done (set_nth ts1 i th')) /\ freq_given c = 0%Z /\ word_of c = x).
    { intros A B. apply (K []); [rewrite app_nil_r; auto|]. rewrite B. split; auto.
      intros [P|[c [[] _]]]; auto. }
    step_cases E; try (apply K0; reflexivity).
    apply (K [c]); [reflexivity|]. unfold set_force. cbn [d_force].
    destruct (snd (fst c) =? 0)%Z eqn:Z0.
    + apply Z.eqb_eq in Z0. rewrite set_add_In. split.
      * intros [P|P]; auto; subst; right; exists c; simpl; auto.
      * intros [P|[c' [[<-|[]] [_ P]]]]; auto.
    + apply Z.eqb_neq in Z0. split; auto. intros [P|[c' [[<-|[]] [P _]]]]; auto. unfold freq_given in P. congruence.
Qed.

(** ** Tags *)
Definition tag_set (c : call) : Prop := match snd c with Some (_ :: _) => True | _ => False end.

Lemma steps_tags d0 progs d ts :
  conc_steps (d0, start progs) (d, ts) -> forall k,
  (exists c, In c (flat_map tagged ts) /\ word_of c = k /\ tag_set c /\ sget (d_tags d) k = snd c)
  \/ ((forall c, In c (flat_map tagged ts) -> tag_set c -> word_of c <> k)
      /\ sget (d_tags d) k = sget (d_tags d0) k).
Proof.
  intros S. remember (d, ts) as s eqn:ES. revert d ts ES.
  induction S as [|s' s'' _ IH S]; intros d ts ES k.
  - inversion ES; subst. rewrite start_flat by auto. right. split; auto; intros c [].
  - destruct S as [d1 ts1 i th d' th' N E]. inversion ES; subst. specialize (IH _ _ eq_refl k).
    assert (K0 : tagged th' = tagged th -> d_tags d = d_tags d1 ->
      (exists c, In c (flat_map tagged (set_nth ts1 i th')) /\ word_of c = k /\ tag_set c /\ sget (d_tags d) k = snd c)
      \/ ((forall c, In c (flat_map tagged (set_nth ts1 i th')) -> tag_set c -> word_of c <> k)
          /\ sget (d_tags d) k = sget (d_tags d0) k)).
    { intros A B. assert (A' : tagged th' = tagged th ++ []) by (rewrite app_nil_r; auto).
      destruct IH as [[c [P Q]]|[P Q]]; [left|right].
      - exists c. rewrite B. split; auto. apply (@set_nth_flat _ tagged ts1 i _ _ _ c N A'); auto.
      - rewrite B. split; auto. intros c I. apply P. apply (@set_nth_flat _ tagged ts1 i _ _ _ c N A') in I.
        destruct I as [I|[]]; auto. }
    step_cases E; try (apply K0; [unfold tagged; simpl; rewrite ?Q, ?Q0, ?Q1, ?app_nil_r; reflexivity|reflexivity]).
    clear K0.
    assert (A' : tagged (mkTh (th_done th) (Some (c, AtFrag 0)) (th_todo th)) = tagged th ++ [c]).
    { unfold tagged; simpl. rewrite Q, app_nil_r. auto. }
    unfold set_tag. cbn [d_tags].
    assert (D : tag_set c \/ ~ tag_set c).
    { unfold tag_set. destruct (snd c) as [[|a t]|]; auto. }
    destruct D as [D|D].
    + assert (SG : sget (match snd c with Some (c' :: t') => sset (d_tags d1) (fst (fst c)) (c' :: t') | _ => d_tags d1 end) k
              = if str_eqb k (word_of c) then snd c else sget (d_tags d1) k).
      { unfold tag_set in D. destruct (snd c) as [[|a t]|]; try contradiction. rewrite sget_sset. auto. }
      rewrite SG. destruct (str_eqb k (word_of c)) eqn:EK.
      * apply str_eqb_eq in EK. left. exists c. split; [|auto].
        apply (@set_nth_flat _ tagged ts1 i _ _ _ c N A'). simpl. auto.
      * apply str_eqb_neq in EK. destruct IH as [[c' [P R]]|[P R]]; [left|right].
        -- exists c'. split; auto. apply (@set_nth_flat _ tagged ts1 i _ _ _ c' N A'); auto.
        -- split; auto. intros c' I. apply (@set_nth_flat _ tagged ts1 i _ _ _ c' N A') in I.
           destruct I as [I|[<-|[]]]; auto.
    + assert (SG : match snd c with Some (c' :: t') => sset (d_tags d1) (fst (fst c)) (c' :: t') | _ => d_tags d1 end = d_tags d1).
      { unfold tag_set in D. destruct (snd c) as [[|a t]|]; auto. contradiction D; auto. }
      rewrite SG. destruct IH as [[c' [P R]]|[P R]]; [left|right].
      * exists c'. split; auto. apply (@set_nth_flat _ tagged ts1 i _ _ _ c' N A'); auto.
      * split; auto. intros c' I T. apply (@set_nth_flat _ tagged ts1 i _ _ _ c' N A') in I.
        destruct I as [I|[<-|[]]]; auto.
Qed.

(** ** The total *)
Lemma steps_total d0 progs d ts :
  (forall c, In c (concat progs) -> (0 <= freq_given c)%Z) ->
  conc_steps (d0, start progs) (d, ts) ->
  (d_total d0 <= d_total d <= d_total d0 + sum_given (flat_map written ts))%Z /\
  forall i th c t, nth_error ts i = Some th -> th_cur th = Some (c, AtWrite t) ->
    (d_total d0 <= t <= d_total d0 + sum_given (flat_map written ts))%Z.
Proof.
  intros NN S. remember (d, ts) as s eqn:ES. revert d ts ES.
  induction S as [|s' s'' S0 IH S]; intros d ts ES.
  - inversion ES; subst. rewrite start_flat by auto. split; [simpl; lia|].
    intros i th c t N E. apply start_nth in N. destruct N as [p [_ ->]]. discriminate.
  - destruct S as [d1 ts1 i th d' th' N E]. inversion ES; subst. destruct (IH _ _ eq_refl) as [A B].
    assert (K0 : written th' = written th -> d_total d = d_total d1 ->
      (forall c t, th_cur th' = Some (c, AtWrite t) -> t = d_total d1) ->
      (d_total d0 <= d_total d <= d_total d0 + sum_given (flat_map written (set_nth ts1 i th')))%Z /\
      forall j th0 c t, nth_error (set_nth ts1 i th') j = Some th0 -> th_cur th0 = Some (c, AtWrite t) ->
        (d_total d0 <= t <= d_total d0 + sum_given (flat_map written (set_nth ts1 i th')))%Z).
    { intros W T NW. assert (W' : written th' = written th ++ []) by (rewrite app_nil_r; auto).
      rewrite (@set_nth_sum _ written ts1 i _ _ _ N W'), T. change (sum_given []) with 0%Z. split; [lia|].
      intros j th0 c t M C. destruct (@set_nth_case _ _ _ _ _ _ _ N M) as [[-> ->]|[_ M']].
      - apply NW in C. subst. lia.
      - apply B with (1 := M') in C. lia. }
    step_cases E; try (apply K0; [unfold written; simpl; rewrite ?Q, ?Q0, ?Q1, ?app_nil_r; reflexivity
                                 |reflexivity|simpl; intros ? ? G; inversion G; auto]).
    assert (W' : written (mkTh (th_done th) (Some (c, AtTag)) (th_todo th)) = written th ++ [c]).
    { unfold written; simpl. rewrite Q, app_nil_r. auto. }
    rewrite (@set_nth_sum _ written ts1 i _ _ _ N W'). unfold set_total. cbn [d_total].
    assert (F : (0 <= freq_given c)%Z).
    { apply NN. apply steps_whole in S0. cbn [snd] in S0. rewrite start_whole in S0. rewrite <- S0.
      apply in_concat. exists (whole th). split; [apply in_map; eapply nth_error_In; eauto|].
      unfold whole, begun, cur_calls. rewrite Q. rewrite !in_app_iff. simpl. auto. }
    unfold sum_given at 2 4. cbn [fold_right]. pose proof (B _ _ _ _ N Q) as R. unfold freq_given in *.
    split; [lia|]. intros j th0 c0 t0 M C. destruct (@set_nth_case _ _ _ _ _ _ _ N M) as [[-> ->]|[_ M']]; [discriminate C|].
    apply B with (1 := M') in C. lia.
Qed.

(** ** Frequencies *)
Definition kept (d0 d : dstate) (ts : list thread) (k : str) : Prop :=
  (exists c, In c (flat_map begun ts) /\ word_of c = k /\ sget (d_freq d) k = Some (freq_given c))
  \/ ((forall c, In c (flat_map begun ts) -> word_of c <> k) /\ sget (d_freq d) k = sget (d_freq d0) k)
  \/ (sget (d_freq d0) k = None /\ sget (d_freq d) k = Some 0%Z /\
      exists j th c', nth_error ts j = Some th /\ In c' (begun th) /\ extends (word_of c') k /\
                      forall c, In c (begun th) -> word_of c <> k).

Definition has_prefixes (d : dstate) (w : str) (n : nat) : Prop :=
  forall m, 1 <= m <= n -> sget (d_freq d) (firstn m w) <> None.
Definition reached (w : str) (p : pc) : nat :=
  match p with AtFrag ch | AtInsert ch => ch | AtForce => length w | _ => 0 end.

Record Inv (d0 d : dstate) (ts : list thread) : Prop := {
  inv_kept : forall k, kept d0 d ts k;
  inv_pend : forall i th c ch, nth_error ts i = Some th -> th_cur th = Some (c, AtInsert ch) ->
    ch < length (word_of c) /\ sget (d_freq d0) (firstn (ch + 1) (word_of c)) = None /\
    forall c', In c' (begun th) -> word_of c' <> firstn (ch + 1) (word_of c);
  inv_done : forall i th c, nth_error ts i = Some th -> In c (th_done th) ->
    has_prefixes d (word_of c) (length (word_of c));
  inv_cur : forall i th c p, nth_error ts i = Some th -> th_cur th = Some (c, p) ->
    has_prefixes d (word_of c) (reached (word_of c) p) /\ sget (d_freq d) (word_of c) <> None;
  inv_in : forall k, sget (d_freq d0) k <> None -> sget (d_freq d) k <> None;
}.

Lemma has_prefixes_mono d d' w n :
  (forall k, sget (d_freq d) k <> None -> sget (d_freq d') k <> None) ->
  has_prefixes d w n -> has_prefixes d' w n.
Proof. intros M P m L. auto. Qed.

(** a step that changes no frequency and begins no call *)
Lemma inv_quiet d0 d d' ts i th th' :
  Inv d0 d ts -> nth_error ts i = Some th -> begun th' = begun th -> d_freq d' = d_freq d ->
  (forall c ch, th_cur th' = Some (c, AtInsert ch) ->
    ch < length (word_of c) /\ sget (d_freq d) (firstn (ch + 1) (word_of c)) = None) ->
  (forall c, In c (th_done th') -> has_prefixes d (word_of c) (length (word_of c))) ->
  (forall c p, th_cur th' = Some (c, p) ->
     has_prefixes d (word_of c) (reached (word_of c) p) /\ sget (d_freq d) (word_of c) <> None) ->
  Inv d0 d' (set_nth ts i th').
Proof.
  intros I N B F P D C. assert (B' : begun th' = begun th ++ []) by (rewrite app_nil_r; auto).
  assert (HP : forall w n, has_prefixes d w n -> has_prefixes d' w n).
  { intros w n. apply has_prefixes_mono. rewrite F. auto. }
  constructor.
  - intros k. destruct (inv_kept I k) as [[c [A1 A2]]|[[A1 A2]|[A1 [A2 [j [t [c' [A3 [A4 [A5 A6]]]]]]]]]];
      unfold kept; rewrite F.
    + left. exists c. split; auto. apply (@set_nth_flat _ begun ts i _ _ _ c N B'); auto.
    + right. left. split; auto. intros c Ic. apply A1. apply (@set_nth_flat _ begun ts i _ _ _ c N B') in Ic.
      destruct Ic as [Ic|[]]; auto.
    + right. right. split; auto. split; auto. destruct (Nat.eq_dec j i) as [->|NE].
      * exists i, th', c'. rewrite N in A3. inversion A3; subst t. rewrite (@set_nth_same _ ts i th' _ N), B. auto.
      * exists j, t, c'. rewrite set_nth_other by auto. auto.
  - intros j t c ch M E. destruct (@set_nth_case _ _ _ _ _ _ _ N M) as [[-> ->]|[_ M']].
    + destruct (P _ _ E) as [L A]. split; auto.
      destruct (inv_kept I (firstn (ch + 1) (word_of c))) as [[x [A1 [A2 A3]]]|[[A1 A2]|[A1 [A2 _]]]]; try congruence.
      split; [congruence|]. intros c' Ic. apply A1. apply in_flat_map. exists th. split; [|congruence].
      eapply nth_error_In; eauto.
    + apply (inv_pend I _ M' E).
  - intros j t c M Ic. apply HP. destruct (@set_nth_case _ _ _ _ _ _ _ N M) as [[-> ->]|[_ M']]; auto.
    apply (inv_done I _ _ M' Ic).
  - intros j t c p M E. rewrite F. destruct (@set_nth_case _ _ _ _ _ _ _ N M) as [[-> ->]|[_ M']].
    + destruct (C _ _ E); auto.
    + destruct (inv_cur I _ M' E); auto.
  - intros k. rewrite F. apply (inv_in I).
Qed.

Lemma sset_keeps (d : dstate) k v k' :
  sget (d_freq d) k' <> None -> sget (d_freq (set_freq d k v)) k' <> None.
Proof. unfold set_freq. cbn [d_freq]. rewrite sget_sset. destruct (str_eqb k' k); congruence. Qed.

Lemma steps_inv d0 progs d ts : conc_steps (d0, start progs) (d, ts) -> Inv d0 d ts.
Proof.
  intros S. remember (d, ts) as s eqn:ES. revert d ts ES.
  induction S as [|s' s'' S0 IH S]; intros d ts ES.
  - inversion ES; subst. constructor.
    + intros k. right. left. rewrite start_flat by auto. split; auto; intros c [].
    + intros i th c ch N E. apply start_nth in N. destruct N as [p [_ ->]]. discriminate.
    + intros i th c N E. apply start_nth in N. destruct N as [p [_ ->]]. destruct E.
    + intros i th c p N E. apply start_nth in N. destruct N as [p' [_ ->]]. discriminate.
    + auto.
  - destruct S as [d1 ts1 i th d' th' N E]. inversion ES; subst. specialize (IH _ _ eq_refl).
    step_cases E.
    + eapply inv_quiet; eauto; simpl; try discriminate.
      * unfold begun, cur_calls. simpl. rewrite Q. auto.
      * intros c0 Ic. apply (inv_done IH _ _ N Ic).
      * intros c0 p0 G. inversion G; subst. apply (inv_cur IH _ N) in Q. split; [intros m L; simpl in L; lia|tauto].
    + eapply inv_quiet; eauto; simpl; try discriminate.
      * unfold begun, cur_calls. simpl. rewrite Q. auto.
      * intros c0 Ic. apply (inv_done IH _ _ N Ic).
      * intros c0 p0 G. inversion G; subst. apply (inv_cur IH _ N) in Q. split; [intros m L; simpl in L; lia|tauto].
    + eapply inv_quiet; eauto; simpl; try discriminate.
      * unfold begun, cur_calls. simpl. rewrite Q. auto.
      * intros c0 Ic. apply (inv_done IH _ _ N Ic).
      * intros c0 p0 G. inversion G; subst. apply (inv_cur IH _ N) in Q. split; [intros m L; simpl in L; lia|tauto].
    + (* the prefix is there *)
      eapply inv_quiet; eauto; simpl; try discriminate.
      * unfold begun, cur_calls. simpl. rewrite Q. auto.
      * intros c0 Ic. apply (inv_done IH _ _ N Ic).
      * intros c0 p0 G. inversion G; subst. apply (inv_cur IH _ N) in Q. destruct Q as [Q R]. split; auto.
        intros m L. simpl in L. destruct (Nat.eq_dec m (ch + 1)) as [->|NE].
        -- rewrite smem_sget in Q3. intros Z. unfold word_of in Z. rewrite Z in Q3. discriminate.
        -- apply Q. simpl. lia.
    + (* the prefix is absent *)
      eapply inv_quiet; eauto; simpl; try discriminate.
      * unfold begun, cur_calls. simpl. rewrite Q. auto.
      * intros c0 ch0 G. inversion G; subst. rewrite smem_sget in Q3. apply Nat.ltb_lt in Q2. split; auto.
        unfold word_of. destruct (sget (d_freq d) (firstn (ch0 + 1) (fst (fst c0)))); auto; discriminate.
      * intros c0 Ic. apply (inv_done IH _ _ N Ic).
      * intros c0 p0 G. inversion G; subst. apply (inv_cur IH _ N) in Q. auto.
    + (* no prefix left *)
      eapply inv_quiet; eauto; simpl; try discriminate.
      * unfold begun, cur_calls. simpl. rewrite Q. auto.
      * intros c0 Ic. apply (inv_done IH _ _ N Ic).
      * intros c0 p0 G. inversion G; subst. apply (inv_cur IH _ N) in Q. destruct Q as [Q R]. split; auto.
        apply Nat.ltb_ge in Q2. intros m L. simpl in L. apply Q. simpl. unfold word_of in *. lia.
    + (* the absent prefix comes in *)
      set (k0 := firstn (ch + 1) (fst (fst c))).
      set (th' := mkTh (th_done th) (Some (c, AtFrag (S ch))) (th_todo th)).
      assert (B : begun th' = begun th) by (unfold th', begun, cur_calls; simpl; rewrite Q; auto).
      assert (B' : begun th' = begun th ++ []) by (rewrite app_nil_r; auto).
      assert (IC : In c (begun th)).
      { unfold begun, cur_calls. rewrite Q. apply in_or_app. simpl. auto. }
      destruct (inv_pend IH _ N Q) as [L [A NS]]. fold k0 in A, NS.
      assert (KK : forall k', sget (d_freq d1) k' <> None -> sget (d_freq (set_freq d1 k0 0)) k' <> None)
        by (intros; apply sset_keeps; auto).
      assert (EX : extends (word_of c) k0).
      { split.
        - intros Z. apply (f_equal (@length _)) in Z. unfold k0 in Z. rewrite firstn_length in Z.
          unfold word_of in L. simpl in Z. lia.
        - exists (skipn (ch + 1) (word_of c)). unfold k0, word_of. rewrite firstn_skipn. split; auto.
          intros Z. apply (NS c IC). unfold k0, word_of in *.
          rewrite <- (firstn_skipn (ch + 1) (fst (fst c))) at 1. rewrite Z, app_nil_r. auto. }
      constructor.
      * intros k. unfold kept. destruct (str_eqb k k0) eqn:EK.
        -- apply str_eqb_eq in EK. subst k. right. right. split; auto.
           unfold set_freq. cbn [d_freq]. rewrite sget_sset_same. split; auto.
           exists i, th', c. rewrite (@set_nth_same _ ts1 i th' _ N), B. auto.
        -- apply str_eqb_neq in EK. unfold set_freq. cbn [d_freq]. rewrite sget_sset_other by auto.
           destruct (inv_kept IH k) as [[c0 [A1 A2]]|[[A1 A2]|[A1 [A2 [j [t [c' [A3 [A4 [A5 A6]]]]]]]]]].
           ++ left. exists c0. split; auto. apply (@set_nth_flat _ begun ts1 i _ _ _ c0 N B'); auto.
           ++ right. left. split; auto. intros c0 Ic. apply A1. apply (@set_nth_flat _ begun ts1 i _ _ _ c0 N B') in Ic.
              destruct Ic as [Ic|[]]; auto.
           ++ right. right. split; auto. split; auto. destruct (Nat.eq_dec j i) as [->|NE].
              ** exists i, th', c'. rewrite N in A3. inversion A3; subst t. rewrite (@set_nth_same _ ts1 i th' _ N), B. auto.
              ** exists j, t, c'. rewrite set_nth_other by auto. auto.
      * intros j t c0 ch0 M C. destruct (@set_nth_case _ _ _ _ _ _ _ N M) as [[-> ->]|[_ M']]; [discriminate C|].
        apply (inv_pend IH _ M' C).
      * intros j t c0 M Ic. apply has_prefixes_mono with (d := d1); auto.
        destruct (@set_nth_case _ _ _ _ _ _ _ N M) as [[-> ->]|[_ M']].
        -- apply (inv_done IH _ _ N Ic).
        -- apply (inv_done IH _ _ M' Ic).
      * intros j t c0 p M C. destruct (@set_nth_case _ _ _ _ _ _ _ N M) as [[-> ->]|[_ M']].
        -- unfold th' in C. simpl in C. inversion C; subst c0 p. destruct (inv_cur IH _ N Q) as [R1 R2].
           split; auto. intros m Lm. simpl in Lm. destruct (Nat.eq_dec m (ch + 1)) as [->|NE].
           ++ unfold set_freq. cbn [d_freq]. change (firstn (ch + 1) (word_of c)) with k0.
              rewrite sget_sset_same. discriminate.
           ++ apply KK. apply R1. simpl. lia.
        -- destruct (inv_cur IH _ M' C). split; auto. apply has_prefixes_mono with (d := d1); auto.
      * intros k G. apply KK. apply (inv_in IH); auto.
    + (* the call returns *)
      destruct (inv_cur IH _ N Q) as [R1 R2].
      eapply inv_quiet; eauto; simpl; try discriminate.
      * unfold begun, cur_calls. simpl. rewrite Q, app_nil_r. auto.
      * intros c0 Ic. apply in_app_or in Ic. destruct Ic as [Ic|[<-|[]]]; [apply (inv_done IH _ _ N Ic)|auto].
    + (* a call begins *)
      rename c into c0. set (th' := mkTh (th_done th) (Some (c0, AtRead)) l).
      assert (B : begun th' = begun th ++ [c0]).
      { unfold th', begun, cur_calls. simpl. rewrite Q, app_nil_r. auto. }
      assert (KK : forall k', sget (d_freq d1) k' <> None -> sget (d_freq (set_freq d1 (fst (fst c0)) (snd (fst c0)))) k' <> None)
        by (intros; apply sset_keeps; auto).
      constructor.
      * intros k. unfold kept. unfold set_freq. cbn [d_freq]. rewrite sget_sset.
        destruct (str_eqb k (fst (fst c0))) eqn:EK.
        -- apply str_eqb_eq in EK. left. exists c0. split; [|auto].
           apply (@set_nth_flat _ begun ts1 i _ _ _ c0 N B). simpl; auto.
        -- apply str_eqb_neq in EK.
           destruct (inv_kept IH k) as [[c [A1 A2]]|[[A1 A2]|[A1 [A2 [j [t [c' [A3 [A4 [A5 A6]]]]]]]]]].
           ++ left. exists c. split; auto. apply (@set_nth_flat _ begun ts1 i _ _ _ c N B); auto.
           ++ right. left. split; auto. intros c Ic. apply (@set_nth_flat _ begun ts1 i _ _ _ c N B) in Ic.
              destruct Ic as [Ic|[<-|[]]]; auto.
           ++ right. right. split; auto. split; auto. destruct (Nat.eq_dec j i) as [->|NE].
              ** exists i, th', c'. rewrite N in A3. inversion A3; subst t. rewrite (@set_nth_same _ ts1 i th' _ N), B.
                 split; auto. split; [apply in_or_app; auto|]. split; auto.
                 intros c Ic. apply in_app_or in Ic. destruct Ic as [Ic|[<-|[]]]; auto.
              ** exists j, t, c'. rewrite set_nth_other by auto. auto.
      * intros j t c ch M C. destruct (@set_nth_case _ _ _ _ _ _ _ N M) as [[-> ->]|[_ M']]; [discriminate C|].
        apply (inv_pend IH _ M' C).
      * intros j t c M Ic. apply has_prefixes_mono with (d := d1); auto.
        destruct (@set_nth_case _ _ _ _ _ _ _ N M) as [[-> ->]|[_ M']].
        -- apply (inv_done IH _ _ N Ic).
        -- apply (inv_done IH _ _ M' Ic).
      * intros j t c p M C. destruct (@set_nth_case _ _ _ _ _ _ _ N M) as [[-> ->]|[_ M']].
        -- unfold th' in C. simpl in C. inversion C; subst c p. split; [intros m L; simpl in L; lia|].
           unfold set_freq. cbn [d_freq]. unfold word_of. rewrite sget_sset_same. discriminate.
        -- destruct (inv_cur IH _ M' C). split; auto. apply has_prefixes_mono with (d := d1); auto.
      * intros k G. apply KK. apply (inv_in IH); auto.
Qed.

(** ** One thread *)
Definition seq_add (d : dstate) (l : list call) : dstate :=
  fold_left (fun d c => add_word_freq d (word_of c) (freq_given c) (snd c)) l d.
Lemma seq_add_adds d l : seq_add d l = adds d l.
Proof. reflexivity. Qed.

Definition upto (fr : freqs) (w : str) (n : nat) : freqs :=
  fold_left (fun d ch => let wfrag := firstn (ch + 1) w in
                         if smem d wfrag then d else sset d wfrag 0%Z) (seq 0 n) fr.
Lemma upto_S fr w n :
  upto fr w (S n) = if smem (upto fr w n) (firstn (n + 1) w) then upto fr w n
                    else sset (upto fr w n) (firstn (n + 1) w) 0%Z.
Proof. unfold upto. rewrite seq_S, fold_left_app. reflexivity. Qed.

Definition tag_put (e : dstate) (c : call) : sdict str :=
  match snd c with Some (a :: t) => sset (d_tags e) (word_of c) (a :: t) | _ => d_tags e end.
(** the state of a single thread's tokenizer in the middle of a call *)
Definition midway (e : dstate) (c : call) (p : pc) (d : dstate) : Prop :=
  let w := word_of c in let f := freq_given c in
  match p with
  | AtRead => d = mkD (sset (d_freq e) w f) (d_total e) (d_tags e) (d_force e)
  | AtWrite t => t = d_total e /\ d = mkD (sset (d_freq e) w f) (d_total e) (d_tags e) (d_force e)
  | AtTag => d = mkD (sset (d_freq e) w f) (d_total e + f) (d_tags e) (d_force e)
  | AtFrag ch => ch <= length w /\
      d = mkD (upto (sset (d_freq e) w f) w ch) (d_total e + f) (tag_put e c) (d_force e)
  | AtInsert ch => ch < length w /\ smem (upto (sset (d_freq e) w f) w ch) (firstn (ch + 1) w) = false /\
      d = mkD (upto (sset (d_freq e) w f) w ch) (d_total e + f) (tag_put e c) (d_force e)
  | AtForce => d = mkD (add_prefixes (sset (d_freq e) w f) w) (d_total e + f) (tag_put e c) (d_force e)
  end.

Definition one_ok (d0 d : dstate) (th : thread) : Prop :=
  match th_cur th with
  | None => d = seq_add d0 (th_done th)
  | Some (c, q) => midway (seq_add d0 (th_done th)) c q d
  end.
Lemma steps_one d0 p d ts :
  conc_steps (d0, start [p]) (d, ts) -> exists th, ts = [th] /\ one_ok d0 d th.
Proof.
  intros S. remember (d, ts) as s eqn:ES. revert d ts ES.
  induction S as [|s' s'' _ IH S]; intros d ts ES.
  - inversion ES; subst. eexists. split; reflexivity.
  - destruct S as [d1 ts1 i th d' th' N E]. inversion ES; subst.
    destruct (IH _ _ eq_refl) as [th0 [-> M]]. clear IH ES.
    destruct i as [|[|i]]; try discriminate N. inversion N; subst th0. clear N.
    exists th'. split; [reflexivity|].
    step_cases E; unfold one_ok in M |- *; rewrite Q in M; cbn [th_cur th_done midway] in M |- *;
      set (e := seq_add d0 (th_done th)) in *; unfold word_of, freq_given in *.
    + subst; auto.
    + destruct M as [-> ->]. reflexivity.
    + subst d1. split; [lia|]. reflexivity.
    + destruct M as [L ->]. cbn [d_freq] in Q3. apply Nat.ltb_lt in Q2. split; [lia|]. rewrite upto_S, Q3. auto.
    + destruct M as [L ->]. cbn [d_freq] in Q3. apply Nat.ltb_lt in Q2. auto.
    + destruct M as [L ->]. apply Nat.ltb_ge in Q2. assert (ch = length (fst (fst c))) by lia. subst ch. reflexivity.
    + destruct M as [L [G ->]]. split; [lia|]. rewrite upto_S, G. reflexivity.
    + subst d1. unfold seq_add. rewrite fold_left_app. reflexivity.
    + rewrite M. reflexivity.
Qed.

(** ** Every run ends *)
Definition cur_left (c : call) (p : pc) : nat :=
  let n := length (word_of c) in
  match p with
  | AtRead => 2 * n + 5
  | AtWrite _ => 2 * n + 4
  | AtTag => 2 * n + 3
  | AtFrag ch => 2 * (n - ch) + 2
  | AtInsert ch => if ch <? n then 2 * (n - ch) + 1 else 3
  | AtForce => 1
  end.
Definition left_of (th : thread) : nat :=
  match th_cur th with Some (c, p) => cur_left c p | None => 0 end
  + list_sum (map (fun c => 2 * length (word_of c) + 6) (th_todo th)).

Lemma step_left d th d' th' : thread_step d th = Some (d', th') -> left_of th' < left_of th.
Proof.
  intros E. step_cases E; unfold left_of, cur_left; cbn [th_cur th_todo]; rewrite Q; cbv zeta; try rewrite Q0;
    cbn [map list_sum fold_right]; unfold list_sum; unfold word_of in *;
    try match goal with |- context [fold_right Init.Nat.add 0 ?l] => set (X := fold_right Init.Nat.add 0 l) end; try lia.
  all: match goal with |- context [?a <? ?b] => destruct (a <? b) eqn:L end;
    [apply Nat.ltb_lt in L|apply Nat.ltb_ge in L]; first [lia|discriminate].
Qed.
Lemma set_nth_left ts i th th' :
  nth_error ts i = Some th -> left_of th' < left_of th ->
  list_sum (map left_of (set_nth ts i th')) < list_sum (map left_of ts).
Proof.
  revert i. induction ts as [|a ts IH]; intros [|i] E L; simpl in *; try discriminate.
  - inversion E; subst. lia.
  - specialize (IH i E L). lia.
Qed.
Lemma steps_end s : Acc (fun a b => conc_step b a) s.
Proof.
  assert (W : forall n s, list_sum (map left_of (snd s)) < n -> Acc (fun a b => conc_step b a) s).
  { induction n as [|n IH]; intros t L; [lia|]. constructor. intros u S. apply IH.
    destruct S as [d ts i th d' th' N E]. cbn [snd] in *. apply step_left in E.
    pose proof (set_nth_left ts i th' N E). lia. }
  apply (W (S (list_sum (map left_of (snd s))))). lia.
Qed.
Lemma not_finished_steps d ts : ~ finished ts -> exists s, conc_step (d, ts) s.
Proof.
  intros NF. assert (E : exists i th, nth_error ts i = Some th /\ ~ (th_cur th = None /\ th_todo th = [])).
  { unfold finished in NF. induction ts as [|a ts IH]; [contradiction NF; constructor|].
    destruct (th_cur a) eqn:C; [|destruct (th_todo a) eqn:T].
    - exists 0, a. simpl. split; auto. intros [X _]. congruence.
    - destruct IH as [i [th X]]; [|exists (S i), th; auto]. intros F. apply NF. constructor; auto.
    - exists 0, a. simpl. split; auto. intros [_ X]. congruence. }
  destruct E as [i [th [N B]]]. destruct (thread_step d th) as [[d' th']|] eqn:E.
  - eexists. econstructor; eauto.
  - exfalso. apply B. unfold thread_step in E. destruct (th_cur th) as [[c p]|].
    + destruct p; try discriminate. destruct (ch <? length (fst (fst c))); [|discriminate].
      destruct (smem (d_freq d) (firstn (ch + 1) (fst (fst c)))); discriminate.
    + destruct (th_todo th); [auto|discriminate].
Qed.

(** ** Concrete schedules *)
Fixpoint run_sched (is : list nat) (s : dstate * list thread) : option (dstate * list thread) :=
  match is with
  | [] => Some s
  | i :: r =>
      match nth_error (snd s) i with
      | None => None
      | Some th => match thread_step (fst s) th with
                   | None => None
                   | Some (d', th') => run_sched r (d', set_nth (snd s) i th')
                   end
      end
  end.
Lemma sched_steps_from is s0 s s' : conc_steps s0 s -> run_sched is s = Some s' -> conc_steps s0 s'.
Proof.
  revert s. induction is as [|i r IH]; intros [d ts] S; cbn [run_sched fst snd].
  - intros E; inversion E; subst; auto.
  - destruct (nth_error ts i) as [th|] eqn:N; [|discriminate].
    destruct (thread_step d th) as [[d' th']|] eqn:E; [|discriminate].
    apply IH. eapply conc_more; [exact S|]. econstructor; eauto.
Qed.
Lemma sched_steps is s s' : run_sched is s = Some s' -> conc_steps s s'.
Proof. apply sched_steps_from. constructor. Qed.

(** ** The sequential result *)
Lemma seq_add_word d l c :
  NoDup (map word_of l) -> In c l -> sget (d_freq (seq_add d l)) (word_of c) = Some (freq_given c).
Proof.
  intros ND I. apply in_split in I. destruct I as [l1 [l2 ->]].
  assert (P : Permutation (l1 ++ c :: l2) ((l1 ++ l2) ++ [c])).
  { rewrite <- Permutation_middle. apply Permutation_cons_append. }
  destruct (adds_perm P d ND) as [A _]. rewrite seq_add_adds, A. unfold adds. rewrite fold_left_app. cbn [fold_left].
  rewrite add1_freq. unfold after_add, word_of. rewrite str_eqb_refl. auto.
Qed.
Lemma seq_add_other d l k :
  (forall c, In c l -> word_of c <> k) ->
  sget (d_freq (seq_add d l)) k =
  match sget (d_freq d) k with
  | Some v => Some v
  | None => if existsb (fun c => is_prefix k (word_of c)) l then Some 0%Z else None
  end.
Proof.
  induction l as [|c l IH] using rev_ind; intros N.
  - simpl. destruct (sget (d_freq d) k); auto.
  - rewrite seq_add_adds. unfold adds. rewrite fold_left_app. cbn [fold_left]. rewrite add1_freq. unfold after_add.
    assert (E : str_eqb k (fst (fst c)) = false).
    { apply str_eqb_neq. intros ->. apply (N c); auto. apply in_or_app. simpl. auto. }
    rewrite E. change (fold_left add1 l d) with (seq_add d l). rewrite IH.
    + rewrite existsb_app. simpl. destruct (sget (d_freq d) k); auto.
      destruct (existsb (fun c0 => is_prefix k (word_of c0)) l); auto. simpl. rewrite orb_false_r. auto.
    + intros c' I. apply N. apply in_or_app. auto.
Qed.
Lemma seq_add_tags d l k :
  (exists c, In c l /\ word_of c = k /\ tag_set c /\ sget (d_tags (seq_add d l)) k = snd c)
  \/ ((forall c, In c l -> tag_set c -> word_of c <> k) /\ sget (d_tags (seq_add d l)) k = sget (d_tags d) k).
Proof.
  induction l as [|c l IH] using rev_ind.
  - right. split; auto.
  - rewrite seq_add_adds. unfold adds. rewrite fold_left_app. cbn [fold_left]. rewrite add1_tags.
    change (fold_left add1 l d) with (seq_add d l).
    assert (K : (~ tag_set c \/ word_of c <> k) -> 
      (exists c0, In c0 (l ++ [c]) /\ word_of c0 = k /\ tag_set c0 /\ sget (d_tags (seq_add d l)) k = snd c0)
      \/ ((forall c0, In c0 (l ++ [c]) -> tag_set c0 -> word_of c0 <> k)
          /\ sget (d_tags (seq_add d l)) k = sget (d_tags d) k)).
    { intros X. destruct IH as [[c0 [P Q]]|[P Q]]; [left|right].
      - exists c0. split; auto. apply in_or_app; auto.
      - split; auto. intros c0 I T. apply in_app_or in I. destruct I as [I|[<-|[]]]; auto. destruct X; auto. }
    destruct (snd c) as [[|a t]|] eqn:T.
    + apply K. left. unfold tag_set. rewrite T. auto.
    + destruct (str_eqb k (fst (fst c))) eqn:E.
      * left. exists c. apply str_eqb_eq in E. split; [apply in_or_app; simpl; auto|]. split; auto. split; auto.
        unfold tag_set. rewrite T. auto.
      * apply K. right. apply str_eqb_neq in E. unfold word_of. auto.
    + apply K. left. unfold tag_set. rewrite T. auto.
Qed.
Lemma seq_add_force d l x :
  In x (d_force (seq_add d l)) <-> In x (d_force d) \/ exists c, In c l /\ freq_given c = 0%Z /\ word_of c = x.
Proof.
  induction l as [|c l IH] using rev_ind.
  - simpl. split; [auto|]. intros [A|[c [[] _]]]; auto.
  - rewrite seq_add_adds. unfold adds. rewrite fold_left_app. cbn [fold_left]. rewrite add1_force.
    change (fold_left add1 l d) with (seq_add d l). rewrite IH. unfold freq_given, word_of. split.
    + intros [[A|[c0 [A B]]]|[A ->]]; auto; right; [exists c0|exists c]; rewrite in_app_iff; simpl; auto.
    + intros [A|[c0 [A [B C]]]]; auto. apply in_app_or in A. destruct A as [A|[<-|[]]]; [left; right; exists c0; auto|right; auto].
Qed.

(** ** Finished runs *)
Lemma run_whole d0 progs d ts : conc_steps (d0, start progs) (d, ts) -> map whole ts = progs.
Proof. intros S. apply steps_whole in S. cbn [snd] in S. rewrite start_whole in S. auto. Qed.
Lemma run_flat g d0 progs d ts :
  conc_steps (d0, start progs) (d, ts) -> (forall th, In th ts -> g th = whole th) -> flat_map g ts = concat progs.
Proof.
  intros S E. rewrite <- (@run_whole _ _ _ _ S), flat_map_concat_map. f_equal. apply map_ext_in. auto.
Qed.
Lemma makes_concat progs i c : makes progs i c -> In c (concat progs).
Proof. intros [p [N I]]. apply in_concat. exists p. split; auto. eapply nth_error_In; eauto. Qed.
Lemma same_word_same_call l (c c' : call) :
  NoDup (map word_of l) -> In c l -> In c' l -> word_of c = word_of c' -> c = c'.
Proof.
  induction l as [|a l IH]; simpl; [tauto|]. intros ND I I' E. inversion ND as [|? ? NI ND']; subst.
  destruct I as [<-|I], I' as [<-|I']; auto; exfalso; apply NI; [rewrite E|rewrite <- E]; apply in_map; auto.
Qed.

Lemma run_cases d0 progs d ts k :
  conc_steps (d0, start progs) (d, ts) -> finished ts ->
  (exists c, In c (concat progs) /\ word_of c = k /\ sget (d_freq d) k = Some (freq_given c))
  \/ ((forall c, In c (concat progs) -> word_of c <> k) /\ sget (d_freq d) k = sget (d_freq d0) k)
  \/ (sget (d_freq d0) k = None /\ sget (d_freq d) k = Some 0%Z /\
      exists j c', makes progs j c' /\ extends (word_of c') k /\ forall c, makes progs j c -> word_of c <> k).
Proof.
  intros S F. pose proof (inv_kept (@steps_inv _ _ _ _ S) k) as K. unfold kept in K.
  rewrite (@run_flat begun _ _ _ _ S) in K by (intros th I; apply (finished_whole th F I)).
  destruct K as [K|[K|[A [B [j [th [c' [N [I [E NE]]]]]]]]]]; auto. right. right. split; auto. split; auto.
  assert (W : nth_error progs j = Some (begun th)).
  { rewrite <- (@run_whole _ _ _ _ S), nth_error_map, N. simpl. f_equal. symmetry.
    apply (finished_whole th F). eapply nth_error_In; eauto. }
  exists j, c'. split; [exists (begun th); auto|]. split; auto. intros c [p [P Ic]]. rewrite W in P.
  inversion P; subst. auto.
Qed.

Lemma is_prefix_firstn k w : is_prefix k w = true -> exists m, 1 <= m <= length w /\ k = firstn m w.
Proof.
  intros P. apply is_prefix_spec in P. destruct P as [NE [t ->]]. exists (length k). split.
  - rewrite app_length. destruct k; simpl; [congruence|lia].
  - rewrite firstn_app, firstn_all, Nat.sub_diag. simpl. rewrite app_nil_r. auto.
Qed.
Lemma run_prefixes d0 progs d ts c k :
  conc_steps (d0, start progs) (d, ts) -> finished ts -> In c (concat progs) ->
  is_prefix k (word_of c) = true -> sget (d_freq d) k <> None.
Proof.
  intros S F I P. rewrite <- (@run_flat th_done _ _ _ _ S) in I by (intros th J; apply (finished_whole th F J)).
  apply in_flat_map in I. destruct I as [th [J I]]. apply In_nth_error in J. destruct J as [i N].
  apply is_prefix_firstn in P. destruct P as [m [L ->]]. apply (inv_done (@steps_inv _ _ _ _ S) _ _ N I); auto.
Qed.
Lemma extends_prefix w k : extends w k -> is_prefix k w = true.
Proof. intros [NE [t [_ ->]]]. apply is_prefix_spec. split; auto. exists t. auto. Qed.

Lemma run_other d0 progs d ts k :
  conc_steps (d0, start progs) (d, ts) -> finished ts ->
  (forall c, In c (concat progs) -> word_of c <> k) ->
  sget (d_freq d) k =
  match sget (d_freq d0) k with
  | Some v => Some v
  | None => if existsb (fun c => is_prefix k (word_of c)) (concat progs) then Some 0%Z else None
  end.
Proof.
  intros S F N. destruct (existsb (fun c => is_prefix k (word_of c)) (concat progs)) eqn:E.
  - apply existsb_exists in E. destruct E as [c [I P]]. pose proof (@run_prefixes _ _ _ _ c k S F I P) as Q.
    destruct (@run_cases _ _ _ _ k S F) as [[c' [A [B _]]]|[[_ A]|[A [B _]]]].
    + exfalso. apply (N c'); auto.
    + rewrite A in *. destruct (sget (d_freq d0) k); auto. congruence.
    + rewrite A. auto.
  - destruct (@run_cases _ _ _ _ k S F) as [[c' [A [B _]]]|[[_ A]|[A [B [j [c' [M [X _]]]]]]]].
    + exfalso. apply (N c'); auto.
    + rewrite A. destruct (sget (d_freq d0) k); auto.
    + exfalso. apply makes_concat in M. apply extends_prefix in X.
      enough (existsb (fun c => is_prefix k (word_of c)) (concat progs) = true) by congruence.
      apply existsb_exists. eauto.
Qed.
