(** * The block structure of [cut] *)
From Verif Require Import PyBase PyRegex PyNum ModelFinalseg ModelSeg SpecBase ProofsBase ProofsRegex.

Lemma skip_hd n0 s :
  hd_error (rmatch n0 re_skip_default s []) =
    match s with
    | [] => None
    | c :: s' =>
        match s' with
        | d :: s'' =>
            if ((c =? 13) && (d =? 10))%N then Some (s'', [(1, [c; d])])
            else if is_space c then Some (s', [(1, [c])]) else None
        | [] => if is_space c then Some (s', [(1, [c])]) else None
        end
    end.
Proof.
  destruct s as [|c [|d s]]; auto.
  - cbn [rmatch re_skip_default strip_prefix].
    destruct (13 =? c)%N, (is_space c); reflexivity.
  - cbn [rmatch re_skip_default strip_prefix].
    rewrite (N.eqb_sym c), (N.eqb_sym d).
    destruct (13 =? c)%N; cbn [andb].
    + destruct (10 =? d)%N.
      * cbn [app map hd_error fst snd]. do 4 f_equal.
        apply (@firstn_minus_app _ (c :: d :: s) [c; d] s). reflexivity.
      * cbn [app]. destruct (is_space c); cbn [map hd_error fst snd]; auto. do 4 f_equal.
        apply (@firstn_minus_app _ (c :: d :: s) [c] (d :: s)). reflexivity.
    + cbn [app]. destruct (is_space c); cbn [map hd_error fst snd]; auto. do 4 f_equal.
      apply (@firstn_minus_app _ (c :: d :: s) [c] (d :: s)). reflexivity.
Qed.

Lemma space13 : is_space 13%N = true.
Proof. reflexivity. Qed.

Lemma skip_matches s : re_matches re_skip_default s = match s with c :: _ => is_space c | [] => false end.
Proof.
  unfold re_matches, re_match. rewrite skip_hd.
  destruct s as [|c [|d s]]; auto.
  - destruct (is_space c); auto.
  - destruct ((c =? 13) && (d =? 10))%N eqn:E.
    + apply andb_true_iff in E. destruct E as [E _]. apply N.eqb_eq in E. subst. reflexivity.
    + destruct (is_space c); auto.
Qed.

Lemma cut_other_go n0 fuel acc s :
  length s < fuel -> Forall (fun c => is_space c = false) acc ->
  gfor (re_split_go fuel n0 re_skip_default acc s)
       (fun x => if re_matches re_skip_default x then gone x
                 else gof (map (fun c => [c]) x))
  = gof (map (fun c => [c]) (rev acc) ++ chars_crlf s).
Proof.
  revert acc s. induction fuel as [|fuel IH]; intros acc s L FA; [lia|].
  assert (HA : re_matches re_skip_default (rev acc) = false).
  { rewrite skip_matches. destruct (rev acc) as [|c l] eqn:E; auto.
    rewrite Forall_forall in FA. apply FA. apply in_rev. rewrite E. left; auto. }
  assert (PUSH : forall c s', s = c :: s' -> is_space c = false ->
    gfor (re_split_go fuel n0 re_skip_default (c :: acc) s')
       (fun x => if re_matches re_skip_default x then gone x
                 else gof (map (fun c => [c]) x))
    = gof (map (fun c => [c]) (rev acc) ++ chars_crlf s)).
  { intros c s' -> SP. simpl in L. rewrite IH; [|lia|constructor; auto].
    simpl rev. rewrite map_app, <- app_assoc. f_equal. f_equal. simpl.
    destruct s' as [|d s']; auto.
    destruct (c =? 13)%N eqn:E; auto. apply N.eqb_eq in E. subst. rewrite space13 in SP. discriminate. }
  cbn [re_split_go]. destruct s as [|c s].
  - cbn [gfor]. rewrite HA. rewrite gapp_nil_r. simpl. rewrite app_nil_r. reflexivity.
  - rewrite skip_hd.
    destruct s as [|d s].
    + destruct (is_space c) eqn:SP.
      * cbn [length Nat.ltb Nat.leb gfor]. rewrite HA. cbn [Nat.sub firstn].
        rewrite skip_matches, SP. rewrite IH by (auto; simpl in *; lia). reflexivity.
      * apply PUSH; auto.
    + destruct ((c =? 13) && (d =? 10))%N eqn:E.
      * replace (length s <? length (c :: d :: s)) with true
          by (symmetry; apply Nat.ltb_lt; simpl; lia).
        rewrite (@firstn_minus_app _ (c :: d :: s) [c; d] s) by reflexivity.
        cbn [gfor]. rewrite HA, skip_matches.
        pose proof E as E0. apply andb_true_iff in E0. destruct E0 as [E1 E2].
        pose proof E1 as E1'. apply N.eqb_eq in E1'. rewrite E1', space13.
        rewrite IH by (auto; simpl in *; lia).
        cbn [chars_crlf]. rewrite E2. reflexivity.
      * destruct (is_space c) eqn:SP.
        -- replace (length (d :: s) <? length (c :: d :: s)) with true
             by (symmetry; apply Nat.ltb_lt; simpl; lia).
           rewrite (@firstn_minus_app _ (c :: d :: s) [c] (d :: s)) by reflexivity.
           cbn [gfor]. rewrite HA, skip_matches, SP.
           rewrite IH by (auto; simpl in *; lia).
           cbn [chars_crlf]. rewrite E. reflexivity.
        -- apply PUSH; auto.
Qed.

Lemma cut_other_false blk : cut_other false blk = gof (chars_crlf blk).
Proof. unfold cut_other, re_split. simpl negb. rewrite cut_other_go; auto. Qed.

Lemma chars_crlf_spec s : concat (chars_crlf s) = s /\ Forall (fun w => w <> []) (chars_crlf s).
Proof.
  remember (length s) as n eqn:E. assert (L : length s <= n) by lia. clear E.
  revert s L. induction n as [|n IH]; intros [|c s] L; simpl in L; try lia; auto.
  - split; auto. constructor.
  - split; auto. constructor.
  - destruct s as [|d s]; [simpl; split; auto; repeat constructor; discriminate|].
    cbn [chars_crlf]. simpl in L. destruct ((c =? 13) && (d =? 10))%N.
    + destruct (IH s) as [I1 I2]; [lia|]. simpl. rewrite I1. split; auto.
      constructor; auto; discriminate.
    + destruct (IH (d :: s)) as [I1 I2]; [simpl; lia|]. simpl concat. simpl in I1. rewrite I1.
      split; auto. constructor; auto; discriminate.
Qed.

(** the class of [re_han_default] *)
Lemma is_word_char_ok c : is_word_char c = word_char c.
Proof.
  unfold is_word_char, word_char, is_han, han_char, is_alnum, is_lower, is_upper, is_digit09, in_range.
  cbn [existsb]. rewrite orb_false_r, !orb_assoc. reflexivity.
Qed.

Lemma runs_ext p q s : (forall c, p c = q c) -> runs p s = runs q s.
Proof. intros E. induction s as [|c s IH]; simpl; auto. rewrite IH, E. reflexivity. Qed.

Section Cut.
  Variable num : Num.
  Variable H : hmm num.

  (** [cut] iterates over the maximal runs of word characters and of other
      characters. *)
  Lemma cut_runs m fr total force s :
    cut num H m fr total force s =
    gfor (runs word_char s)
         (fun br => if fst br then cut_block num H m fr total force (snd br)
                    else cut_other (is_full m) (snd br)).
  Proof.
    unfold cut, re_han_default. rewrite gfor_split_class by reflexivity. rewrite gfor_map.
    rewrite (runs_ext _ _ s is_word_char_ok).
    apply gfor_ext. intros [b blk] HI.
    pose proof (runs_class word_char s) as RC. rewrite Forall_forall in RC.
    destruct (RC _ HI) as [NE FA]. simpl in *.
    destruct blk as [|c blk]; [congruence|].
    inversion FA as [|? ? Hc _]; subst.
    rewrite re_matches_plus, is_word_char_ok. destruct (word_char c); reflexivity.
  Qed.

  Lemma cut_runs_accurate m fr total force s :
    is_full m = false ->
    cut num H m fr total force s =
    gfor (runs word_char s)
         (fun br => if fst br then cut_block num H m fr total force (snd br)
                    else gof (chars_crlf (snd br))).
  Proof.
    intros Hm. rewrite cut_runs. apply gfor_ext. intros [b blk] _. simpl.
    destruct b; auto. rewrite Hm. apply cut_other_false.
  Qed.
End Cut.
