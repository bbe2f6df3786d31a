(** * The shipped tables of the tagger, with arbitrary log probabilities *)
From Verif Require Import PyBase PyNum ModelPosseg SpecPosseg DataPosseg ProofsBase ProofsPvit.

(** the keys of prob_trans.py, prob_start.py and prob_emit.py *)
Definition pos_states : list pstate :=
  flat_map (fun l => map (fun t => (l, t)) pos_tags) [l_B; l_E; l_M; l_S].

Definition pos_state (i : N) : pstate := nth (N.to_nat i) pos_states (l_S, []).
Definition pos_row (i : N) : list N := nth (N.to_nat i) pos_trans_rows [].

(** the numbers in the tables *)
Record pvalues (num : Num) := mkPv {
  v_start : pstate -> F num;                        (* prob_start.py *)
  v_trans : pstate -> pstate -> F num;              (* prob_trans.py *)
  v_emit : pstate -> char -> option (F num);        (* prob_emit.py *)
}.
Arguments v_start {num}. Arguments v_trans {num}. Arguments v_emit {num}.

Section Shipped.
  Variable num : Num.
  Variable v : pvalues num.

  (** the four tables: char_state_tab.py, prob_start.py, prob_trans.py, prob_emit.py *)
  Definition shipped : ptables num := {|
    t_states := fun c => option_map (map pos_state) (dget N.eqb pos_chars c);
    t_start := fun y => if p_in y pos_states then Some (v_start v y) else None;
    t_trans := map (fun xr => (fst xr, map (fun i => (pos_state i, v_trans v (fst xr) (pos_state i)))
                                           (snd xr)))
                   (combine pos_states pos_trans_rows);
    t_emit := fun y => if p_in y pos_states then Some (v_emit v y) else None;
  |}.
End Shipped.

(** ** Checks by computation *)

Fixpoint nodupb {A} (eqb : A -> A -> bool) (l : list A) : bool :=
  match l with
  | [] => true
  | x :: l' => negb (existsb (eqb x) l') && nodupb eqb l'
  end.

Lemma nodupb_ok {A} (eqb : A -> A -> bool) l :
  (forall a b, eqb a b = true <-> a = b) -> nodupb eqb l = true -> NoDup l.
Proof.
  intros OK. induction l as [|x l IH]; simpl; [constructor|].
  rewrite andb_true_iff, negb_true_iff. intros [H1 H2]. constructor; auto.
  intros HI. assert (existsb (eqb x) l = true); [|congruence].
  apply existsb_exists. exists x. split; auto. apply OK. reflexivity.
Qed.

Lemma pos_states_nodup : NoDup pos_states.
Proof. apply (nodupb_ok pstate_eqb); [apply pstate_eqb_ok|]. vm_compute. reflexivity. Qed.

Lemma pos_states_length : length pos_states = 256.
Proof. vm_compute. reflexivity. Qed.
Lemma pos_rows_length : length pos_trans_rows = 256.
Proof. vm_compute. reflexivity. Qed.

Definition liveb (i : N) : bool := match pos_row i with [] => false | _ => true end.
Definition followsb (a b : char) : bool :=
  (((a =? l_B) || (a =? l_M)) && ((b =? l_M) || (b =? l_E)) ||
   ((a =? l_E) || (a =? l_S)) && ((b =? l_B) || (b =? l_S)))%N.

(** every transition goes to a numbered state that can be left, follows the BMES
    grammar, and keeps the tag inside a word *)
Definition row_okb (i : N) : bool :=
  let x := pos_state i in
  nodupb N.eqb (pos_row i) &&
  forallb (fun j => let y := pos_state j in
     (j <? 256)%N && liveb j && followsb (fst x) (fst y)
     && (negb ((fst x =? l_B) || (fst x =? l_M))%N || str_eqb (snd x) (snd y)))
   (pos_row i).

Lemma rows_ok : forallb row_okb (map N.of_nat (seq 0 256)) = true.
Proof. vm_compute. reflexivity. Qed.

Lemma chars_ok :
  forallb (fun cl => forallb (fun j => (j <? 256)%N) (snd cl) && existsb liveb (snd cl)) pos_chars = true.
Proof. vm_compute. reflexivity. Qed.

Lemma some_live : liveb 1 = true.
Proof. vm_compute. reflexivity. Qed.

Lemma row_ok i : (i < 256)%N -> row_okb i = true.
Proof.
  intros L. pose proof rows_ok as R. rewrite forallb_forall in R. apply R.
  rewrite <- (N2Nat.id i). apply in_map. apply in_seq. lia.
Qed.

Lemma pos_state_In i : (i < 256)%N -> In (pos_state i) pos_states.
Proof.
  intros L. unfold pos_state. apply nth_In. rewrite pos_states_length.
  clear - L. lia.
Qed.

Lemma pos_state_inj i j : (i < 256)%N -> (j < 256)%N -> pos_state i = pos_state j -> i = j.
Proof.
  intros Li Lj E. unfold pos_state in E.
  apply N2Nat.inj. apply (proj1 (NoDup_nth pos_states (l_S, [])) pos_states_nodup); auto;
    rewrite pos_states_length; lia.
Qed.

Lemma combine_nth_In {A B} (l1 : list A) (l2 : list B) n d1 d2 :
  n < length l1 -> n < length l2 -> In (nth n l1 d1, nth n l2 d2) (combine l1 l2).
Proof.
  revert l1 l2. induction n as [|n IH]; intros [|a l1] [|b l2]; simpl; try lia; auto.
  intros. right. apply IH; lia.
Qed.

Lemma combine_In_nth {A B} (l1 : list A) (l2 : list B) a b d1 d2 :
  In (a, b) (combine l1 l2) ->
  exists n, n < length l1 /\ n < length l2 /\ nth n l1 d1 = a /\ nth n l2 d2 = b.
Proof.
  revert l2. induction l1 as [|x l1 IH]; intros [|y l2]; simpl; try tauto.
  intros [[= <- <-]|HI].
  - exists 0. repeat split; simpl; lia.
  - destruct (IH l2 HI) as [n [A1 [A2 [A3 A4]]]]. exists (S n). repeat split; auto; lia.
Qed.

Lemma map_fst_combine {A B} (l1 : list A) (l2 : list B) :
  length l1 = length l2 -> map fst (combine l1 l2) = l1.
Proof.
  revert l2. induction l1 as [|a l1 IH]; intros [|b l2]; simpl; auto; try discriminate.
  intros [= E]. f_equal. auto.
Qed.

(** ** The shipped tables satisfy the requirements *)

Section Ok.
  Variable num : Num.
  Variable v : pvalues num.

  Lemma shipped_keys : map fst (t_trans (shipped num v)) = pos_states.
  Proof.
    unfold shipped, t_trans. rewrite map_map. cbn [fst].
    apply map_fst_combine. rewrite pos_states_length, pos_rows_length. reflexivity.
  Qed.

  Lemma shipped_pstate y : is_pstate (shipped num v) y <-> In y pos_states.
  Proof. unfold is_pstate. rewrite shipped_keys. tauto. Qed.

  Lemma shipped_row x l :
    In (x, l) (t_trans (shipped num v)) ->
    exists i, (i < 256)%N /\ x = pos_state i
      /\ l = map (fun j => (pos_state j, v_trans v x (pos_state j))) (pos_row i).
  Proof.
    unfold shipped, t_trans. rewrite in_map_iff. intros [[x' r] [E HI]]. cbn [fst snd] in E.
    injection E as -> <-.
    apply (combine_In_nth _ _ _ _ (l_S, []) []) in HI.
    destruct HI as [n [L1 [L2 [E1 E2]]]]. 
    assert (L3 : n < 256) by (rewrite <- pos_states_length; exact L1).
    exists (N.of_nat n). unfold pos_state, pos_row. rewrite Nat2N.id. split; [lia|].
    rewrite E2. auto.
  Qed.

  Lemma shipped_step x y p :
    step_p (shipped num v) x y p <->
    exists i j, (i < 256)%N /\ In j (pos_row i) /\ x = pos_state i /\ y = pos_state j
      /\ p = v_trans v x y.
  Proof.
    split.
    - intros [l [A B]]. apply shipped_row in A. destruct A as [i [L [-> ->]]].
      apply in_map_iff in B. destruct B as [j [E HI]]. injection E as <- <-.
      exists i, j. auto.
    - intros [i [j [L [HI [-> [-> ->]]]]]].
      exists (map (fun j => (pos_state j, v_trans v (pos_state i) (pos_state j))) (pos_row i)).
      split.
      + unfold shipped, t_trans. apply in_map_iff.
        exists (pos_state i, pos_row i). split; auto.
        unfold pos_state, pos_row. apply combine_nth_In;
          [rewrite pos_states_length|rewrite pos_rows_length]; lia.
      + apply in_map_iff. exists j. auto.
  Qed.

  Lemma row_facts i j :
    (i < 256)%N -> In j (pos_row i) ->
    (j < 256)%N /\ liveb j = true /\ followsb (fst (pos_state i)) (fst (pos_state j)) = true
    /\ (fst (pos_state i) = l_B \/ fst (pos_state i) = l_M -> snd (pos_state i) = snd (pos_state j)).
  Proof.
    intros L HI. pose proof (row_ok i L) as R. unfold row_okb in R. cbv zeta in R.
    apply andb_true_iff in R. destruct R as [_ R]. rewrite forallb_forall in R.
    specialize (R j HI). rewrite !andb_true_iff in R. destruct R as [[[A B] C] D].
    apply N.ltb_lt in A. repeat split; auto.
    intros E. apply orb_true_iff in D. destruct D as [D|D].
    - exfalso. destruct E as [E|E]; rewrite E in D; discriminate.
    - apply str_eqb_eq. exact D.
  Qed.

  Lemma liveb_live i : (i < 256)%N -> liveb i = true -> live (shipped num v) (pos_state i).
  Proof.
    unfold liveb. intros L E. destruct (pos_row i) as [|j r] eqn:ER; [discriminate|].
    exists (pos_state j), (v_trans v (pos_state i) (pos_state j)). apply shipped_step.
    exists i, j. rewrite ER. repeat split; auto. left. auto.
  Qed.

  Lemma shipped_ok (NI : NumInf num) :
    (forall y, i_fin NI 1 (v_start v y)) -> (forall x y, i_fin NI 1 (v_trans v x y)) ->
    (forall y c x, v_emit v y c = Some x -> i_fin NI 1 x) ->
    tables_ok NI (shipped num v).
  Proof.
    intros VS VT VE. constructor.
    - rewrite shipped_keys. apply pos_states_nodup.
    - intros x l HI. apply shipped_row in HI. destruct HI as [i [L [-> ->]]].
      rewrite map_map. cbn [fst].
      pose proof (row_ok i L) as R. unfold row_okb in R. cbv zeta in R.
      apply andb_true_iff in R. destruct R as [R _].
      apply (nodupb_ok N.eqb) in R; [|apply N.eqb_eq].
      pose proof (row_facts i) as RF.
      assert (FA : forall j, In j (pos_row i) -> (j < 256)%N).
      { intros j HI. apply (RF j L HI). }
      revert R FA. generalize (pos_row i) as r. induction r as [|j r IH]; intros R FA; simpl; constructor.
      + inversion R as [|? ? NJ R']; subst. intros HI. apply in_map_iff in HI.
        destruct HI as [j' [E HI]]. apply pos_state_inj in E; [subst; auto| |]; apply FA; simpl; auto.
      + inversion R; subst. apply IH; auto. intros j' HI. apply FA. right. auto.
    - intros y HI. apply (proj1 (shipped_pstate y)) in HI. exists (v_start v y). split; auto.
      unfold shipped, t_start. apply p_in_In in HI. rewrite HI. auto.
    - intros y HI. apply (proj1 (shipped_pstate y)) in HI. exists (v_emit v y). split; eauto.
      unfold shipped, t_emit. apply p_in_In in HI. rewrite HI. auto.
    - intros x y p S. apply shipped_step in S. destruct S as [i [j [_ [_ [-> [-> ->]]]]]]. auto.
    - intros x y [p S]. apply shipped_step in S. destruct S as [i [j [L [HI [-> [-> ->]]]]]].
      destruct (row_facts i j L HI) as [A [B _]]. apply liveb_live; auto.
    - intros c l E. unfold shipped, t_states in E.
      destruct (dget N.eqb pos_chars c) as [r|] eqn:G; [|discriminate].
      injection E as <-. apply dget_In in G; [|apply N.eqb_eq].
      pose proof chars_ok as CO. rewrite forallb_forall in CO. specialize (CO (c, r) G).
      cbn [snd] in CO. apply andb_true_iff in CO. destruct CO as [C1 C2].
      rewrite forallb_forall in C1. split.
      + apply Forall_forall. intros y HI. apply in_map_iff in HI. destruct HI as [j [<- HI]].
        apply (proj2 (shipped_pstate _)). apply pos_state_In. apply N.ltb_lt. auto.
      + apply existsb_exists in C2. destruct C2 as [j [HI LB]].
        exists (pos_state j). split; [apply in_map; auto|]. apply liveb_live; auto.
        apply N.ltb_lt. auto.
    - exists (pos_state 1). apply liveb_live; [lia|apply some_live].
  Qed.

  Lemma shipped_bmes : bmes (shipped num v).
  Proof.
    split.
    - intros y HI. apply (proj1 (shipped_pstate y)) in HI. unfold pos_states in HI.
      apply in_flat_map in HI. destruct HI as [l [HL HI]]. apply in_map_iff in HI.
      destruct HI as [t [<- _]]. auto.
    - intros x y [p S]. apply shipped_step in S. destruct S as [i [j [L [HI [-> [-> ->]]]]]].
      destruct (row_facts i j L HI) as [_ [_ [B _]]]. unfold followsb in B. unfold letter_follows.
      rewrite orb_true_iff, !andb_true_iff, !orb_true_iff, !N.eqb_eq in B. tauto.
  Qed.

  (** inside a word the tag does not change *)
  Lemma shipped_same_tag x y :
    step (shipped num v) x y -> fst x = l_B \/ fst x = l_M -> snd x = snd y.
  Proof.
    intros [p S] E. apply shipped_step in S. destruct S as [i [j [L [HI [-> [-> ->]]]]]].
    destruct (row_facts i j L HI) as [_ [_ [_ T]]]. auto.
  Qed.
End Ok.
