(** * Loading IDF tables and stop words *)
From Coq Require Import Reals Lra Permutation.
From Verif Require Import PyBase PyNum SpecNum ProofsBase ProofsDictFile ModelAnalyse SpecAnalyse.

(** ** Lines *)

Lemma split_on_join sep s : exists p ps, split_on sep s = p :: ps /\ ~ In sep p /\
  s = p ++ concat (map (cons sep) ps) /\ Forall (fun q => ~ In sep q) ps.
Proof.
  induction s as [|c s (p & ps & E & N1 & J & N2)]; cbn.
  - exists [], []. auto.
  - destruct (N.eqb_spec c sep) as [->|NE].
    + exists [], (split_on sep s). split; auto. split; auto. rewrite E. cbn. rewrite <- J. auto.
    + rewrite E. exists (c :: p), ps. split; auto. split; [intros [|]; auto|]. cbn. rewrite <- J. auto.
Qed.

Lemma split_two sep s a b :
  split_on sep s = [a; b] <-> s = a ++ sep :: b /\ ~ In sep a /\ ~ In sep b.
Proof.
  split.
  - intros E. destruct (split_on_join sep s) as (p & ps & E' & N1 & J & N2). rewrite E in E'.
    injection E' as <- <-. cbn in J. rewrite app_nil_r in J. inversion N2; subst. auto.
  - intros (-> & NA & NB). rewrite split_on_app, split_on_none; auto.
Qed.

Section Idf.
  Variable num : Num.
  Variable float_of : str -> option (F num).

  Lemma idf_line_split line e : idf_line float_of line e <->
    exists f, split_on 32%N (str_strip line) = [fst e; f] /\ float_of f = Some (snd e).
  Proof.
    unfold idf_line. split; intros (f & H).
    - exists f. split; [|tauto]. apply split_two. tauto.
    - exists f. destruct H as [H1 H2]. apply split_two in H1. tauto.
  Qed.

  Definition table (es : list (str * F num)) (tab : sdict (F num)) : sdict (F num) :=
    fold_left (fun t e => sset t (fst e) (snd e)) es tab.

  Lemma idf_lines_ok lines es tab : Forall2 (idf_line float_of) lines es ->
    idf_lines num float_of lines tab = (table es tab, None).
  Proof.
    intros F2. revert tab. induction F2 as [|line e lines es L _ IH]; intros tab; auto.
    cbn [idf_lines]. apply idf_line_split in L. destruct L as (f & -> & ->). apply IH.
  Qed.

  Lemma idf_lines_bad lines tab :
    (exists es, Forall2 (idf_line float_of) lines es) \/
    (exists pre line post es, lines = pre ++ line :: post /\ Forall2 (idf_line float_of) pre es /\
       (forall e, ~ idf_line float_of line e) /\
       idf_lines num float_of lines tab = (table es tab, Some ValueError)).
  Proof.
    revert tab. induction lines as [|line lines IH]; intros tab; [left; exists []; constructor|].
    destruct (split_on 32%N (str_strip line)) as [|a [|b [|c r]]] eqn:SP;
      try (right; exists [], line, lines, []; split; auto; split; [constructor|]; split;
           [intros e E; apply idf_line_split in E; destruct E as (f & E & _); rewrite SP in E; discriminate|];
           cbn [idf_lines]; rewrite SP; reflexivity).
    destruct (float_of b) as [x|] eqn:FL.
    - destruct (IH (sset tab a x)) as [(es & F2)|(pre & line' & post & es & -> & F2 & N & E)].
      + left. exists ((a, x) :: es). constructor; auto. apply idf_line_split. exists b. auto.
      + right. exists (line :: pre), line', post, ((a, x) :: es). split; auto.
        split; [constructor; auto; apply idf_line_split; exists b; auto|]. split; auto.
        change ((line :: pre) ++ line' :: post) with (line :: (pre ++ line' :: post)).
        cbn [idf_lines]. rewrite SP, FL. auto.
    - right. exists [], line, lines, []. split; auto. split; [constructor|]. split.
      + intros e E. apply idf_line_split in E. destruct E as (f & E & E2). rewrite SP in E. congruence.
      + cbn [idf_lines]. rewrite SP, FL. reflexivity.
  Qed.

End Idf.

Section Table.
  Variable num : Num.
  Notation table := (table num).

  Lemma table_snoc es e tab : table (es ++ [e]) tab = sset (table es tab) (fst e) (snd e).
  Proof. unfold table. rewrite fold_left_app. auto. Qed.

  Lemma last_value_snoc {V} (es : list (str * V)) w v w' v' :
    last_value (es ++ [(w, v)]) w' v' <-> (w' = w /\ v' = v) \/ (w' <> w /\ last_value es w' v').
  Proof.
    unfold last_value. split.
    - intros (a & b & E & N). destruct b as [|e b _] using rev_ind.
      + apply app_inj_tail in E. destruct E as [_ E]. injection E as -> ->. auto.
      + replace (a ++ (w', v') :: b ++ [e]) with ((a ++ (w', v') :: b) ++ [e]) in E
          by (rewrite <- app_assoc; auto).
        apply app_inj_tail in E. destruct E as [-> <-]. right.
        rewrite map_app, in_app_iff in N. cbn in N. split; [intros ->; tauto|]. exists a, b. tauto.
    - intros [[-> ->]|[NE (a & b & -> & N)]].
      + exists es, []. auto.
      + exists a, (b ++ [(w, v)]). rewrite <- app_assoc. split; auto.
        rewrite map_app, in_app_iff. cbn. intros [?|[?|[]]]; auto.
  Qed.

  Lemma last_value_nil {V} w (v : V) : ~ last_value [] w v.
  Proof. intros (a & b & E & _). destruct a; discriminate. Qed.

  Lemma table_get es w v : sget (table es []) w = Some v <-> last_value es w v.
  Proof.
    revert v. induction es as [|[w' v'] es IH] using rev_ind; intros v.
    - cbn. split; [discriminate|]. intros H. destruct (last_value_nil _ _ H).
    - rewrite table_snoc, last_value_snoc. cbn [fst snd]. unfold sget, sset.
      destruct (list_eq_dec N.eq_dec w w') as [->|NE].
      + rewrite (dget_dset_same _ str_eqb_eq). split; [intros [= ->]; auto|]. intros [[_ ->]|[? _]]; congruence.
      + rewrite (dget_dset_other _ str_eqb_eq) by auto. fold (sget (table es []) w). rewrite IH.
        split; [auto|]. intros [[? _]|[_ ?]]; [contradiction|auto].
  Qed.

  Lemma table_keys es : NoDup (map fst (table es [])) /\
    forall w, In w (map fst (table es [])) <-> In w (map fst es).
  Proof.
    induction es as [|[w v] es [IH1 IH2]] using rev_ind; [split; [constructor|cbn; tauto]|].
    rewrite table_snoc. cbn [fst snd]. unfold sset. split; [apply (dset_NoDup _ str_eqb_eq); auto|].
    intros w'. rewrite dset_keys, map_app, in_app_iff, <- IH2. cbn.
    unfold dmem. destruct (dget str_eqb (table es []) w) as [v'|] eqn:E.
    - apply (dget_In _ str_eqb_eq) in E. apply (in_map fst) in E. cbn in E.
      split; [auto|]. intros [?|[<-|[]]]; auto.
    - rewrite in_app_iff. cbn. tauto.
  Qed.

  Lemma table_values es : word_values es (map snd (table es [])).
  Proof.
    destruct (table_keys es) as [ND K]. exists (map fst (table es [])). split; auto. split; auto.
    assert (A : forall kv, In kv (table es []) -> last_value es (fst kv) (snd kv)).
    { intros [k v] I. apply table_get. apply (In_dget _ str_eqb_eq); auto. }
    clear ND K. revert A. generalize (table es []) as t. induction t as [|kv t IH]; intros A; constructor.
    - apply A. left. auto.
    - apply IH. intros. apply A. right. auto.
  Qed.
End Table.

(** ** The median *)

Section Sort.
  Variable num : Num.
  Variable O : NumOrder num.
  Notation val := (o_val O).

  Lemma insert_asc_perm x l : Permutation (x :: l) (insert_asc (f_lt num) x l).
  Proof.
    induction l as [|y l IH]; cbn; auto. destruct (f_lt num y x); auto.
    eapply perm_trans; [apply perm_swap|]. auto.
  Qed.

  Lemma sorted_asc_perm l : Permutation l (sorted_asc (f_lt num) l).
  Proof.
    induction l as [|x l IH]; cbn; auto.
    eapply perm_trans; [apply perm_skip, IH|]. apply insert_asc_perm.
  Qed.

  Fixpoint ascending (l : list (F num)) : Prop :=
    match l with [] => True | x :: l' => Forall (fun y => (val x <= val y)%R) l' /\ ascending l' end.

  Lemma insert_asc_ascending x l : o_dom O x -> Forall (o_dom O) l -> ascending l ->
    ascending (insert_asc (f_lt num) x l).
  Proof.
    intros DX. induction l as [|y l IH]; cbn [insert_asc ascending]; intros DL A; [split; auto|].
    inversion DL as [|? ? DY DL']; subst. destruct A as [A1 A2].
    destruct (f_lt num y x) eqn:E; cbn [ascending].
    - split; auto. eapply Permutation_Forall; [apply insert_asc_perm|].
      constructor; auto. apply (o_lt _ O) in E; auto. lra.
    - assert (LE : (val x <= val y)%R).
      { destruct (Rle_or_lt (val x) (val y)) as [|L]; auto. apply (o_lt _ O) in L; auto. congruence. }
      split; [|split; auto]. constructor; auto. eapply Forall_impl; [|exact A1]. cbn. intros; lra.
  Qed.

  Lemma sorted_asc_ascending l : Forall (o_dom O) l -> ascending (sorted_asc (f_lt num) l).
  Proof.
    induction l as [|x l IH]; cbn; intros D; auto. inversion D; subst.
    apply insert_asc_ascending; auto. eapply Permutation_Forall; [apply sorted_asc_perm|]. auto.
  Qed.

  Lemma ascending_split a m b : ascending (a ++ m :: b) ->
    Forall (fun v => (val v <= val m)%R) a /\ Forall (fun v => (val m <= val v)%R) b.
  Proof.
    induction a as [|x a IH]; cbn; [intros [F _]; split; auto|]. intros [F A]. destruct (IH A). split; auto.
    constructor; auto. rewrite Forall_app in F. destruct F as [_ F]. inversion F; auto.
  Qed.

  Lemma median_ok tab : tab <> [] -> Forall (o_dom O) (map snd tab) ->
    exists m, idf_median num tab = Ok m /\ upper_median val (map snd tab) m.
  Proof.
    intros NE D. unfold idf_median.
    pose proof (sorted_asc_perm (map snd tab)) as P.
    pose proof (sorted_asc_ascending _ D) as A. pose proof (Permutation_length P) as LE.
    rewrite map_length in LE.
    assert (0 < length tab) by (destruct tab; [congruence|cbn; lia]).
    assert (LT : length tab / 2 < length (sorted_asc (f_lt num) (map snd tab))).
    { rewrite <- LE. apply Nat.div_lt; lia. }
    destruct (nth_error (sorted_asc (f_lt num) (map snd tab)) (length tab / 2)) as [m|] eqn:E.
    2: { apply nth_error_None in E. lia. }
    exists m. split; auto. apply nth_error_split in E. destruct E as (lo & hi & E & L).
    rewrite E in P, A. apply ascending_split in A. exists lo, hi. rewrite map_length. tauto.
  Qed.
End Sort.

Lemma word_values_nil {V} (es : list (str * V)) vs : word_values es vs -> vs = [] -> es = [].
Proof.
  intros (ws & _ & K & F2) ->. inversion F2; subst. destruct es as [|[w v] es]; auto.
  destruct (K w) as [_ C]. destruct C. left. auto.
Qed.
