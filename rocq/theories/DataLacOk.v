(** * The shipped vocabulary and labels are read without loss *)
From Coq Require Import FMapPositive.
From Verif Require Import PyBase ProofsBase PyNum ModelLac ProofsLac DataLac.

(** rows with the ids [z], [z + 1], ... *)
Fixpoint number (z : Z) (ws : list str) : list (Z * str) :=
  match ws with [] => [] | w :: ws' => (z, w) :: number (z + 1) ws' end.

Definition lac_words : list str := map (fun c => [c]) lac_chars.
Definition lac_rows : list (Z * str) := number 0 lac_words ++ lac_other.
Definition lac_label_rows : list (Z * str) := number 0 lac_labels.

(** the lines of the two files *)
Definition word_dic : list str := map kv_line lac_rows.
Definition tag_dic : list str := map kv_line lac_label_rows.

Lemma number_ids ws : forall z r, In r (number z ws) -> (z <= fst r < z + Z.of_nat (length ws))%Z /\ In (snd r) ws.
Proof.
  induction ws as [|w ws IH]; intros z r I; [destruct I|]. cbn [number length] in *. destruct I as [<-|I].
  - cbn [fst snd]. split; [lia|left; reflexivity].
  - apply IH in I. split; [lia|right; tauto].
Qed.

Lemma number_nodup ws : forall z, NoDup (map fst (number z ws)).
Proof.
  induction ws as [|w ws IH]; intros z; [constructor|]. cbn [number map fst]. constructor; [|apply IH].
  intros I. apply in_map_iff in I. destruct I as (r & E & I). apply number_ids in I. lia.
Qed.

Lemma number_words ws : forall z, map snd (number z ws) = ws.
Proof. induction ws as [|w ws IH]; intros z; cbn; auto. rewrite IH. reflexivity. Qed.

Lemma number_in ws : forall z w, In w ws -> exists i, (z <= i < z + Z.of_nat (length ws))%Z /\ In (i, w) (number z ws).
Proof.
  induction ws as [|w ws IH]; intros z v I; [destruct I|]. cbn [number length]. destruct I as [<-|I].
  - exists z. split; [lia|left; reflexivity].
  - destruct (IH (z + 1)%Z v I) as (i & L & J). exists i. split; [lia|right; exact J].
Qed.

Lemma number_nth ws : forall z i, (z <= i < z + Z.of_nat (length ws))%Z -> exists w, In (i, w) (number z ws).
Proof.
  induction ws as [|w ws IH]; intros z i L; cbn [number length] in *; [lia|].
  destruct (Z.eq_dec i z) as [->|N]; [exists w; left; reflexivity|].
  destruct (IH (z + 1)%Z i) as (v & I); [lia|]. exists v. right. exact I.
Qed.

Fixpoint distinct (s : PositiveMap.t unit) (l : list char) : bool :=
  match l with
  | [] => true
  | c :: l' => match PositiveMap.find (N.succ_pos c) s with
               | Some _ => false
               | None => distinct (PositiveMap.add (N.succ_pos c) tt s) l'
               end
  end.

Lemma succ_pos_inj a b : N.succ_pos a = N.succ_pos b -> a = b.
Proof. intros E. apply (f_equal N.pos) in E. rewrite !N.succ_pos_spec in E. lia. Qed.

Lemma distinct_ok l : forall s, distinct s l = true ->
  NoDup l /\ forall c, In c l -> PositiveMap.find (N.succ_pos c) s = None.
Proof.
  induction l as [|c l IH]; intros s E; [split; [constructor|intros c []]|]. cbn in E.
  destruct (PositiveMap.find (N.succ_pos c) s) eqn:F; [discriminate|]. apply IH in E. destruct E as [ND FR]. split.
  - constructor; auto. intros I. apply FR in I. rewrite PositiveMap.gss in I. discriminate.
  - intros d [<-|I]; auto. specialize (FR d I). rewrite PositiveMap.gso in FR; auto.
    intros X. apply succ_pos_inj in X. subst d. rewrite PositiveMap.gss in FR. discriminate.
Qed.

Lemma chars_distinct : NoDup lac_chars.
Proof. apply (distinct_ok lac_chars (PositiveMap.empty unit)). vm_cast_no_check (eq_refl true). Qed.

Definition no_tab_nl (w : str) : bool := negb (existsb (fun c => (c =? 9) || (c =? 10))%N w).
Lemma no_tab_ok w : no_tab_nl w = true -> ~ In 9%N w /\ ~ In 10%N w.
Proof.
  unfold no_tab_nl. rewrite negb_true_iff. intros E.
  assert (A : forall c, In c w -> (c =? 9)%N = false /\ (c =? 10)%N = false).
  { intros c I. destruct (c =? 9)%N eqn:E1; [|destruct (c =? 10)%N eqn:E2; auto];
      exfalso; assert (existsb (fun c => (c =? 9) || (c =? 10))%N w = true) by
        (apply existsb_exists; exists c; split; auto; rewrite ?E1, ?E2; cbn; auto using orb_true_r); congruence. }
  split; intros I; apply A in I; destruct I; discriminate.
Qed.

Lemma chars_clean : no_tab_nl lac_chars = true.
Proof. vm_cast_no_check (eq_refl true). Qed.

Lemma chars_count : Z.of_nat (length lac_chars) = 20935%Z.
Proof. vm_cast_no_check (eq_refl 20935%Z). Qed.

Lemma words_count : Z.of_nat (length lac_words) = 20935%Z.
Proof. unfold lac_words. rewrite map_length. exact chars_count. Qed.

Lemma other_ids r : In r lac_other -> (20935 <= fst r)%Z /\ length (snd r) <> 1 /\ clean_row r.
Proof.
  intros I. unfold lac_other in I. cbn in I.
  repeat (destruct I as [<-|I]; [cbn; split; [lia|]; split; [discriminate|]; split; [cbn; lia|]; split; [discriminate|];
    apply no_tab_ok; reflexivity|]). destruct I.
Qed.

Lemma lac_rows_ok : unique_rows lac_rows.
Proof.
  assert (ONE : forall r, In r (number 0 lac_words) ->
            (0 <= fst r < 20935)%Z /\ exists c, snd r = [c] /\ In c lac_chars).
  { intros r I. apply number_ids in I. rewrite words_count in I. destruct I as [L I]. split; [lia|].
    apply in_map_iff in I. destruct I as (c & E & I). exists c. auto. }
  unfold unique_rows, lac_rows. split; [|split].
  - apply Forall_forall. intros r I. apply in_app_iff in I. destruct I as [I|I]; [|apply other_ids; auto].
    apply ONE in I. destruct I as [L (c & E & I)]. split; [lia|]. rewrite E. split; [discriminate|].
    destruct (no_tab_ok lac_chars chars_clean) as [A B].
    split; intros [->|[]]; auto.
  - rewrite map_app. assert (ND2 : NoDup (map fst lac_other)) by (cbn; repeat constructor; cbn; intuition lia).
    assert (ND1 := number_nodup lac_words 0).
    revert ND1 ND2 ONE. generalize (number 0 lac_words). intros rows ND1 ND2 ONE.
    induction rows as [|r rows IH]; [exact ND2|]. cbn [map app] in ND1 |- *. inversion ND1; subst. constructor.
    + rewrite in_app_iff. intros [I|I]; [auto|]. apply in_map_iff in I. destruct I as (q & E & I).
      apply other_ids in I. destruct (ONE r) as [L _]; [left; reflexivity|]. lia.
    + apply IH; auto. intros q I. apply ONE. right. exact I.
  - rewrite map_app, number_words. assert (ND2 : NoDup (map snd lac_other)).
    { cbn. repeat constructor; cbn; intuition discriminate. }
    assert (ND1 := chars_distinct). revert ND1. clear ONE. unfold lac_words. generalize lac_chars. intros cs ND1.
    induction cs as [|c cs IH]; [exact ND2|]. inversion ND1; subst. cbn [map app]. constructor; [|auto].
    rewrite in_app_iff. intros [I|I].
    + apply in_map_iff in I. destruct I as (d & E & I). injection E as ->. auto.
    + apply in_map_iff in I. destruct I as (q & E & I). apply other_ids in I. rewrite E in I. cbn in I. tauto.
Qed.

Lemma lac_labels_ok : unique_rows lac_label_rows.
Proof.
  unfold unique_rows, lac_label_rows. split; [|split; [apply number_nodup|rewrite number_words]].
  - apply Forall_forall. intros r I. apply number_ids in I. destruct I as [L I]. split; [lia|].
    assert (F : forallb (fun w => no_tab_nl w && match w with [] => false | _ => true end) lac_labels = true) by reflexivity.
    rewrite forallb_forall in F. apply F in I. apply andb_true_iff in I. destruct I as [I J].
    split; [intros E; rewrite E in J; discriminate|apply no_tab_ok; auto].
  - assert (ND : forall l, (fix nd l := match l with [] => true | x :: l' => negb (existsb (str_eqb x) l') && nd l' end) l = true -> NoDup l).
    { induction l as [|x l IH]; intros E; [constructor|]. apply andb_true_iff in E. destruct E as [A B]. constructor; auto.
      intros I. apply negb_true_iff in A. assert (existsb (str_eqb x) l = true); [|congruence].
      apply existsb_exists. exists x. split; auto. apply str_eqb_refl. }
    apply ND. reflexivity.
Qed.
