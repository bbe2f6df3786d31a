(** * C88: the files of ids of the paddle mode *)
From Coq Require Import Lia.
From Verif Require Import PyBase ModelLac ModelVocab SpecVocab ProofsBase ProofsDictFile ProofsIdf ProofsUserdict ProofsLac ProofsDemo.

Lemma line_strip line t : line_text line t -> strip_by is_nl line = t.
Proof.
  intros [N E].
  assert (F : Forall (fun c => is_nl c = false) t).
  { apply Forall_forall. intros c I. unfold is_nl. apply N.eqb_neq. intros ->. auto. }
  destruct E as [->| ->]; [apply strip_by_none; auto|].
  unfold strip_by. assert (L : lstrip_by is_nl (t ++ [10%N]) = match t with [] => [] | _ => t ++ [10%N] end).
  { destruct t as [|c t]; [reflexivity|]. inversion F; subst. cbn [app lstrip_by]. rewrite H1. reflexivity. }
  rewrite L. destruct t as [|c t]; [reflexivity|]. unfold rstrip_by. rewrite rev_app_distr. cbn [rev app].
  change (rev t ++ [c]) with (rev (c :: t)). cbn [lstrip_by]. replace (is_nl 10%N) with true by reflexivity.
  assert (FR : Forall (fun c => is_nl c = false) (rev (c :: t))) by (apply Forall_rev; auto).
  transitivity (rev (rev (c :: t))); [f_equal|apply rev_involutive].
  destruct (rev (c :: t)); [reflexivity|]. inversion FR; subst. cbn [lstrip_by]. now rewrite H1.
Qed.

Lemma row_dec reverse t : (exists k v, row reverse t k v) \/ (forall k v, ~ row reverse t k v).
Proof.
  destruct (split_on 9%N t) as [|a [|b [|]]] eqn:E.
  - right. intros k v (a & b & R & N1 & N2 & _). pose proof (proj2 (split_two 9%N t a b) (conj R (conj N1 N2))). congruence.
  - right. intros k v (a' & b & R & N1 & N2 & _). pose proof (proj2 (split_two 9%N t a' b) (conj R (conj N1 N2))). congruence.
  - left. apply split_two in E. destruct E as (A & B & C).
    destruct reverse; [exists b, a|exists a, b]; exists a, b; auto.
  - right. intros k v (a' & b' & R & N1 & N2 & _). pose proof (proj2 (split_two 9%N t a' b') (conj R (conj N1 N2))). congruence.
Qed.
Lemma row_fun reverse t k v k' v' : row reverse t k v -> row reverse t k' v' -> k = k' /\ v = v'.
Proof.
  intros (a & b & R & A & B & E) (a' & b' & R' & A' & B' & E').
  pose proof (proj2 (split_two 9%N t a b) (conj R (conj A B))) as S.
  rewrite (proj2 (split_two 9%N t a' b') (conj R' (conj A' B'))) in S. injection S as <- <-.
  destruct reverse; injection E as -> ->; injection E' as -> ->; auto.
Qed.

Section Load.
  Context {V : Type} (reverse : bool) (vf : str -> res V).

  Lemma loop_row line t k v lines d :
    line_text line t -> row reverse t k v ->
    load_kv_loop reverse vf (line :: lines) d =
    (if smem d k then Err KeyError
     else rbind (vf v) (fun x => load_kv_loop reverse vf lines (sset d k x))).
  Proof.
    intros L (a & b & E & A & B & K). cbn [load_kv_loop]. rewrite (line_strip _ _ L).
    rewrite (proj2 (split_two 9%N t a b) (conj E (conj A B))).
    destruct reverse; injection K as -> ->; reflexivity.
  Qed.
  Lemma loop_skip line t lines d :
    line_text line t -> (forall k v, ~ row reverse t k v) ->
    load_kv_loop reverse vf (line :: lines) d = load_kv_loop reverse vf lines d.
  Proof.
    intros L N. cbn [load_kv_loop]. rewrite (line_strip _ _ L).
    destruct (split_on 9%N t) as [|a [|b [|]]] eqn:E; auto. exfalso. apply split_two in E. destruct E as (A & B & C).
    destruct reverse; [apply (N b a)|apply (N a b)]; exists a, b; auto.
  Qed.

  (** what the loop does from any table *)
  Definition bad_at (d : sdict V) (ts : list str) (e : exn) : Prop :=
    exists ts1 t ts2 k s, ts = ts1 ++ t :: ts2 /\ good_rows reverse vf ts1 /\
      (forall t' k' s', In t' ts1 -> row reverse t' k' s' -> sget d k' = None) /\ row reverse t k s /\
      let old := sget d k <> None \/ exists t' s', In t' ts1 /\ row reverse t' k s' in
      (old /\ e = KeyError) \/ (~ old /\ vf s = Err e).

  Lemma loop_all lines ts : Forall2 line_text lines ts -> forall d,
    match load_kv_loop reverse vf lines d with
    | Ok d' => good_rows reverse vf ts /\
               (forall t k s, In t ts -> row reverse t k s -> sget d k = None) /\
               (forall k v, sget d' k = Some v <->
                  sget d k = Some v \/ exists t s, In t ts /\ row reverse t k s /\ vf s = Ok v)
    | Err e => bad_at d ts e
    end.
  Proof.
    induction 1 as [|line t lines ts L F IH]; intros d.
    - cbn [load_kv_loop]. split; [split; [intros ? ? ? []|]|split; [intros ? ? ? []|]].
      + intros i j t t' k s s' A. destruct i; discriminate.
      + intros k v. split; auto. intros [A|(t & s & [] & _)]; auto.
    - destruct (row_dec reverse t) as [(k & s & R)|NR].
      + rewrite (loop_row line t k s) by auto. rewrite smem_sget. destruct (sget d k) as [x|] eqn:G.
        { exists [], t, ts, k, s. split; [reflexivity|]. split.
          { split; [intros ? ? ? []|]. intros i j ? ? ? ? ? A. destruct i; discriminate. }
          split; [intros ? ? ? []|]. split; auto. left. split; auto. left. congruence. }
        destruct (vf s) as [v|e] eqn:VS; cbn [rbind].
        2:{ exists [], t, ts, k, s. split; [reflexivity|]. split.
          { split; [intros ? ? ? []|]. intros i j ? ? ? ? ? A. destruct i; discriminate. }
          split; [intros ? ? ? []|]. split; auto. right. split; auto. intros [A|(? & ? & [] & _)]; auto. }
        specialize (IH (sset d k v)).
        assert (GOOD : forall us, good_rows reverse vf us ->
                  (forall t' k' s', In t' us -> row reverse t' k' s' -> sget (sset d k v) k' = None) ->
                  good_rows reverse vf (t :: us) /\
                  forall t' k' s', In t' (t :: us) -> row reverse t' k' s' -> sget d k' = None).
        { intros us [G1 G2] FR.
          assert (NK : forall t' s', In t' us -> ~ row reverse t' k s').
          { intros t' s' I R'. specialize (FR t' k s' I R'). rewrite sget_sset_same in FR. discriminate. }
          split; [split|].
          - intros t' k' s' [<-|I] R'; [|eauto]. destruct (row_fun _ _ _ _ _ _ R R') as [_ <-]. eauto.
          - intros [|i] [|j] t1 t2 k' s1 s2 A B C D; cbn in A, B; auto.
            + injection A as <-. destruct (row_fun _ _ _ _ _ _ R C) as [<- _]. exfalso.
              apply nth_error_In in B. eapply NK; eauto.
            + injection B as <-. destruct (row_fun _ _ _ _ _ _ R D) as [<- _]. exfalso.
              apply nth_error_In in A. eapply NK; eauto.
            + f_equal. eapply G2; eauto.
          - intros t' k' s' [<-|I] R'; [destruct (row_fun _ _ _ _ _ _ R R') as [<- _]; auto|].
            specialize (FR t' k' s' I R'). rewrite sget_sset in FR. destruct (str_eqb k' k); [discriminate|auto]. }
        destruct (load_kv_loop reverse vf lines (sset d k v)) as [d'|e].
        * destruct IH as (G1 & FR & SG). destruct (GOOD ts G1 FR) as (G2 & FR2). split; auto. split; auto.
          intros k' v'. rewrite SG, sget_sset. destruct (str_eqb k' k) eqn:EK.
          -- apply str_eqb_eq in EK. subst k'. split.
             ++ intros [A|(t' & s' & I & R' & _)].
                ** right. exists t, s. split; [left; auto|]. split; auto. congruence.
                ** exfalso. specialize (FR t' k s' I R'). rewrite sget_sset_same in FR. discriminate.
             ++ intros [A|(t' & s' & [<-|I] & R' & E)]; [congruence| |].
                ** destruct (row_fun _ _ _ _ _ _ R R') as [_ <-]. left. congruence.
                ** exfalso. specialize (FR t' k s' I R'). rewrite sget_sset_same in FR. discriminate.
          -- split.
             ++ intros [A|(t' & s' & I & Q)]; auto. right. exists t', s'. split; [right; auto|auto].
             ++ intros [A|(t' & s' & [<-|I] & R' & E)]; auto.
                ** destruct (row_fun _ _ _ _ _ _ R R') as [<- _]. rewrite str_eqb_refl in EK. discriminate.
                ** right. exists t', s'. auto.
        * destruct IH as (ts1 & t' & ts2 & k' & s' & E & G1 & FR & R' & O). subst ts.
          destruct (GOOD ts1 G1 FR) as (G2 & FR2).
          exists (t :: ts1), t', ts2, k', s'. split; [reflexivity|]. split; [auto|]. split; [auto|]. split; auto.
          assert (OLD : sget (sset d k v) k' <> None \/ (exists t0 s0, In t0 ts1 /\ row reverse t0 k' s0)
                  <-> sget d k' <> None \/ (exists t0 s0, In t0 (t :: ts1) /\ row reverse t0 k' s0)).
          { rewrite sget_sset. destruct (str_eqb k' k) eqn:EK.
            - apply str_eqb_eq in EK. subst k'. split; intros _; [right; exists t, s; split; [left|]; auto|left; discriminate].
            - split; intros [A|(t0 & s0 & I & R0)]; auto.
              + right. exists t0, s0. split; [right|]; auto.
              + destruct I as [<-|I]; [|right; exists t0, s0; auto].
                destruct (row_fun _ _ _ _ _ _ R R0) as [<- _]. rewrite str_eqb_refl in EK. discriminate. }
          cbn zeta in *. rewrite <- OLD. auto.
      + rewrite (loop_skip line t) by auto. specialize (IH d).
        assert (GOOD : forall us, good_rows reverse vf us -> good_rows reverse vf (t :: us)).
        { intros us [G1 G2]. split.
          - intros t' k' s' [<-|I] R'; [|eauto]. exfalso. eapply NR; eauto.
          - intros [|i] [|j] t1 t2 k' s1 s2 A B C D; cbn in A, B; auto.
            + injection A as <-. exfalso. eapply NR; eauto.
            + injection B as <-. exfalso. eapply NR; eauto.
            + f_equal. eapply G2; eauto. }
        destruct (load_kv_loop reverse vf lines d) as [d'|e].
        * destruct IH as (G1 & FR & SG). split; auto. split.
          -- intros t' k' s' [<-|I] R'; [exfalso; eapply NR; eauto|eauto].
          -- intros k v. rewrite SG. split; (intros [A|(t' & s' & I & R' & E)]; [auto|]).
             ++ right. exists t', s'. split; [right|]; auto.
             ++ destruct I as [<-|I]; [exfalso; eapply NR; eauto|]. right. exists t', s'. auto.
        * destruct IH as (ts1 & t' & ts2 & k' & s' & E & G1 & FR & R' & O). subst ts.
          exists (t :: ts1), t', ts2, k', s'. split; [reflexivity|]. split; [auto|]. split.
          { intros t0 k0 s0 [<-|I] R0; [exfalso; eapply NR; eauto|eauto]. }
          split; auto. cbn zeta in *.
          assert (OLD : (exists t0 s0, In t0 ts1 /\ row reverse t0 k' s0)
                  <-> (exists t0 s0, In t0 (t :: ts1) /\ row reverse t0 k' s0)).
          { split; intros (t0 & s0 & I & R0).
            - exists t0, s0. split; [right|]; auto.
            - destruct I as [<-|I]; [exfalso; eapply NR; eauto|]. exists t0, s0; auto. }
          rewrite <- OLD. auto.
  Qed.
End Load.

(** A file can be loaded exactly if every value can be read and no key comes twice;
    the table then says what the lines with two fields say, other lines being passed
    over. *)
Theorem C88_load :
  forall (V : Type) (reverse : bool) (value : str -> res V) (lines ts : list str),
    Forall2 line_text lines ts ->
    ((exists d, load_kv_dict reverse value lines = Ok d) <-> good_rows reverse value ts) /\
    forall d, load_kv_dict reverse value lines = Ok d ->
      forall k v, sget d k = Some v <-> exists t s, In t ts /\ row reverse t k s /\ value s = Ok v.
Proof.
  intros V reverse value lines ts F. pose proof (loop_all reverse value lines ts F []) as A.
  unfold load_kv_dict in *. split; [split|].
  - intros [d E]. rewrite E in A. tauto.
  - intros G. destruct (load_kv_loop reverse value lines []) as [d|e]; [eauto|]. exfalso.
    destruct A as (ts1 & t & ts2 & k & s & -> & _ & _ & R & [[[X|(t' & s' & I & R')] _]|[_ X]]).
    + now apply X.
    + apply In_nth_error in I. destruct I as [i N].
      assert (i < length ts1) by (apply nth_error_Some; congruence).
      assert (i = length ts1); [|lia]. destruct G as [_ G]. eapply (G i (length ts1) t' t); eauto.
      * rewrite nth_error_app1; auto.
      * rewrite nth_error_app2, Nat.sub_diag by lia. reflexivity.
    + destruct G as [G _]. destruct (G t k s) as [v Y]; auto; [apply in_or_app; right; left; auto|congruence].
  - intros d E. rewrite E in A. destruct A as (_ & _ & A). intros k v. rewrite A. split; auto.
    intros [X|X]; auto. discriminate X.
Qed.

(** The two tables made from one file of labels belong together: the label of an id
    has that id, and the id of a label is the id of a line with that label. *)
Theorem C88_two_tables :
  forall (lines ts : list str) (label2id : sdict Z) (id2label : sdict str),
    Forall2 line_text lines ts ->
    load_labels lines = Ok label2id -> load_kv_dict false Ok lines = Ok id2label ->
    (forall s label, sget id2label s = Some label ->
       exists i, int_value s = Ok i /\ sget label2id label = Some i) /\
    (forall label i, sget label2id label = Some i ->
       exists s, int_value s = Ok i /\ sget id2label s = Some label).
Proof.
  intros lines ts d d' F L L'.
  destruct (C88_load Z true int_value lines ts F) as [G A]. specialize (A d L).
  destruct (proj1 G (ex_intro _ d L)) as [G1 _].
  destruct (C88_load str false (@Ok str) lines ts F) as [_ A']. specialize (A' d' L').
  assert (SW : forall t k v, row false t k v <-> row true t v k).
  { intros t k v. split; intros (a & b & E & X & Y & K); exists a, b; repeat (split; auto); injection K as -> ->; reflexivity. }
  split.
  - intros s label E. apply A' in E. destruct E as (t & s' & I & R & V). injection V as ->.
    apply SW in R. destruct (G1 t label s I R) as [i IV]. exists i. split; auto. apply A. eauto.
  - intros label i E. apply A in E. destruct E as (t & s & I & R & V). exists s. split; auto.
    apply A'. exists t, label. split; auto. split; auto. apply SW. auto.
Qed.

(** Otherwise the first line that is in the way decides: KeyError if its key has come
    before, else the exception from reading its value. *)
Theorem C88_first_bad_line :
  forall (V : Type) (reverse : bool) (value : str -> res V) (lines ts : list str) (e : exn),
    Forall2 line_text lines ts -> load_kv_dict reverse value lines = Err e ->
    exists ts1 t ts2 k s, ts = ts1 ++ t :: ts2 /\ good_rows reverse value ts1 /\ row reverse t k s /\
      let seen := exists t' s', In t' ts1 /\ row reverse t' k s' in
      (seen /\ e = KeyError) \/ (~ seen /\ value s = Err e).
Proof.
  intros V reverse value lines ts e F E. pose proof (loop_all reverse value lines ts F []) as A.
  unfold load_kv_dict in E. rewrite E in A. destruct A as (ts1 & t & ts2 & k & s & A & B & _ & C & D).
  exists ts1, t, ts2, k, s. repeat (split; auto). cbn zeta in *. destruct D as [[[X|X] D]|[X D]].
  - now destruct X.
  - auto.
  - right. auto.
Qed.

Lemma max_value_ge d m : max_value d = Ok m -> forall k v, sget d k = Some v -> (v <= m)%Z.
Proof.
  unfold max_value. intros E k v G. apply sget_In in G. apply (in_map snd) in G. cbn [snd] in G.
  destruct (map snd d) as [|x xs]; [discriminate|]. injection E as <-.
  assert (A : forall l a, (a <= fold_left Z.max l a)%Z /\ forall y, In y l -> (y <= fold_left Z.max l a)%Z).
  { induction l as [|y l IH]; intros a; cbn [fold_left]; [split; [lia|intros ? []]|].
    destruct (IH (Z.max a y)) as [P Q]. split; [lia|]. intros z [<-|I]; [lia|auto]. }
  destruct (A xs x) as [P Q]. destruct G as [<-|I]; auto.
Qed.
Lemma rmap_all {A B} (f : A -> res B) (P : B -> Prop) : forall l bs,
  (forall a b, f a = Ok b -> P b) -> rmap f l = Ok bs -> Forall P bs /\ length bs = length l.
Proof.
  induction l as [|a l IH]; intros bs H E; cbn in E; [injection E as <-; auto|].
  destruct (f a) as [b|] eqn:FA; [|discriminate]. cbn [rbind] in E. destruct (rmap f l) as [bs'|] eqn:R; [|discriminate].
  injection E as <-. destruct (IH bs' H eq_refl). split; [constructor; eauto|cbn; auto].
Qed.

Lemma lookup_in_range (d : sdict Z) {A} (key : A -> str) (l : list A) (ids : list Z) :
  rmap (fun a => lookup d (key a)) l = Ok ids ->
  length ids = length l /\ (ids <> [] -> exists n, size_of d = Ok n /\ Forall (fun i => (i < n)%Z) ids).
Proof.
  intros E. assert (L : length ids = length l) by (apply (rmap_all _ (fun _ => True) _ _ (fun _ _ _ => I) E)).
  split; auto. intros NE. destruct (map snd d) as [|v vs] eqn:S.
  - exfalso. destruct l as [|a l]; [destruct ids; [auto|discriminate]|]. cbn [rmap] in E. unfold lookup in E at 1.
    destruct (sget d (key a)) as [v|] eqn:G; [|discriminate]. apply sget_In, (in_map snd) in G. rewrite S in G. destruct G.
  - exists (fold_left Z.max vs v + 1)%Z. unfold size_of, max_value. rewrite S. split; [reflexivity|].
    eapply rmap_all; [|exact E]. intros a i W. unfold lookup in W.
    destruct (sget d (key a)) as [x|] eqn:G; [|discriminate]. injection W as <-.
    assert (x <= fold_left Z.max vs v)%Z; [|lia]. eapply max_value_ge; [|exact G]. unfold max_value. now rewrite S.
Qed.

(** The ids given to the network, one for each character, are below the size of its
    table of characters; and the ids of labels are below the number of labels. *)
Theorem C88_ids_in_range :
  forall (ds : dataset) (s : str) (ids : list Z),
    get_vars ds s = Ok ids ->
    length ids = length (str_strip s) /\
    (ids <> [] -> exists n, size_of (word2id ds) = Ok n /\ Forall (fun i => (i < n)%Z) ids).
Proof. intros ds s ids G. exact (lookup_in_range _ _ _ _ G). Qed.
Theorem C88_label_ids_in_range :
  forall (d : sdict Z) (labels : list str) (ids : list Z),
    label_to_ids d labels = Ok ids ->
    length ids = length labels /\
    (ids <> [] -> exists n, size_of d = Ok n /\ Forall (fun i => (i < n)%Z) ids).
Proof. intros d labels ids G. exact (lookup_in_range _ _ _ _ G). Qed.

(** Every label becomes its own id, a label that is not in the table the id of "O";
    there is an exception exactly if there is such a label and no "O". *)
Theorem C88_each_label :
  forall (d : sdict Z) (labels : list str),
    match label_to_ids d labels with
    | Ok ids => Forall2 (fun l i => sget d l = Some i \/ (sget d l = None /\ sget d s_O = Some i)) labels ids
    | Err e => e = KeyError /\ sget d s_O = None /\ exists l, In l labels /\ sget d l = None
    end.
Proof.
  intros d labels. unfold label_to_ids. induction labels as [|l ls IH]; cbn [rmap]; [constructor|].
  unfold label_to_id at 1, lookup. rewrite smem_sget.
  destruct (sget d l) as [i|] eqn:E; [rewrite E|destruct (sget d s_O) as [i|] eqn:EO]; cbn [rbind].
  - destruct (rmap (label_to_id d) ls) as [ids|e]; cbn [rbind]; [constructor; auto|].
    destruct IH as (A & B & l' & I & N). split; auto. split; auto. exists l'. split; [right; auto|auto].
  - destruct (rmap (label_to_id d) ls) as [ids|e]; cbn [rbind]; [constructor; auto|].
    destruct IH as (A & B & _). discriminate B.
  - split; auto. split; auto. exists l. split; [left; auto|auto].
Qed.

(** The size is one more than the largest id of the table, and there is none for an
    empty table. *)
Theorem C88_size :
  forall (d : sdict Z),
    match size_of d with
    | Ok n => In (n - 1)%Z (map snd d) /\ forall i, In i (map snd d) -> (i <= n - 1)%Z
    | Err e => e = ValueError /\ d = []
    end.
Proof.
  intros d. unfold size_of, max_value. destruct d as [|[k v] d]; cbn [map snd rbind]; [auto|].
  replace (fold_left Z.max (map snd d) v + 1 - 1)%Z with (fold_left Z.max (map snd d) v) by lia.
  clear k. revert v. induction (map snd d) as [|x vs IH]; intros v; cbn [fold_left].
  - split; [left; auto|]. intros i [<-|[]]. lia.
  - destruct (IH (Z.max v x)) as [A B]. split.
    + destruct A as [A|A]; [|right; right; auto]. rewrite <- A. destruct (Z.max_dec v x) as [->| ->]; [left|right; left]; auto.
    + assert (M : (Z.max v x <= fold_left Z.max vs (Z.max v x))%Z) by (apply B; left; auto).
      intros i [<-|[<-|I]]; [lia|lia|]. apply B. right. auto.
Qed.

(** A text never stops the reader if the vocabulary has an entry for unknown
    characters, and without one exactly the texts with an unknown character do. *)
Theorem C88_unknown_characters :
  forall (ds : dataset) (s : str),
    (sget (word2id ds) s_OOV <> None -> exists ids, get_vars ds s = Ok ids) /\
    (sget (word2id ds) s_OOV = None ->
       (exists c, In c (str_strip s) /\ sget (word2id ds) [c] = None) <-> get_vars ds s = Err KeyError).
Proof.
  intros ds s. unfold get_vars. split.
  - intros O. induction (str_strip s) as [|c l [ids IH]]; [exists []; reflexivity|]. cbn [rmap].
    assert (X : exists i, word_to_id ds c = Ok i).
    { unfold word_to_id, lookup. rewrite smem_sget. destruct (sget (word2id ds) [c]) eqn:E; [rewrite E; eauto|].
      destruct (sget (word2id ds) s_OOV); [eauto|congruence]. }
    destruct X as [i ->]. cbn [rbind]. rewrite IH. cbn [rbind]. eauto.
  - intros O. induction (str_strip s) as [|c l IH]; cbn [rmap].
    + split; [intros (c & [] & _)|discriminate].
    + unfold word_to_id at 1, lookup. rewrite smem_sget. destruct (sget (word2id ds) [c]) as [i|] eqn:E.
      * rewrite E. cbn [rbind]. transitivity (rmap (word_to_id ds) l = Err KeyError).
        -- rewrite <- IH. split; intros (x & I & N); [destruct I as [<-|I]; [congruence|]|]; exists x; cbn; auto.
        -- destruct (rmap (word_to_id ds) l); cbn [rbind]; split; try discriminate; intros X; injection X as ->; auto.
      * rewrite O. cbn [rbind]. split; auto. intros _. exists c. cbn. auto.
Qed.

(** two good lines and one that is passed over; then a key for the second time, and a
    value that is no number *)
Example C88_nonvacuous :
  let l1 : str := [48; 9; 97; 10]%N in       (* "0\ta\n" *)
  let l2 : str := [35; 10]%N in              (* "#\n" *)
  let l3 : str := [49; 9; 98]%N in           (* "1\tb" *)
  let l4 : str := [50; 9; 97]%N in           (* "2\ta" *)
  let l5 : str := [120; 9; 99]%N in          (* "x\tc" *)
  Forall2 line_text [l1; l2; l3] [[48; 9; 97]; [35]; l3]%N /\
  load_kv_dict true int_value [l1; l2; l3] = Ok [([97%N], 0%Z); ([98%N], 1%Z)] /\
  load_kv_dict false Ok [l1; l2; l3] = Ok [([48%N], [97%N]); ([49%N], [98%N])] /\
  size_of [([97%N], 0%Z); ([98%N], 1%Z)] = Ok 2%Z /\
  load_kv_dict true int_value [l1; l2; l4] = Err KeyError /\
  load_kv_dict true int_value [l1; l2; l5] = Err ValueError /\
  label_to_ids [(s_O, 5%Z); ([98%N], 1%Z)] [[98%N]; [99%N]] = Ok [1%Z; 5%Z].
Proof.
  intros l1 l2 l3 l4 l5. split; [|repeat split; reflexivity].
  repeat apply Forall2_cons; try apply Forall2_nil;
    (split; [intros I; repeat (destruct I as [I|I]; [discriminate I|]); exact I|auto]).
Qed.

Print Assumptions C88_load.
Print Assumptions C88_two_tables.
Print Assumptions C88_first_bad_line.
Print Assumptions C88_ids_in_range.
Print Assumptions C88_label_ids_in_range.
Print Assumptions C88_each_label.
Print Assumptions C88_size.
Print Assumptions C88_unknown_characters.
