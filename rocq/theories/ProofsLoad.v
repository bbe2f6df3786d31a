(** * load_userdict as a sequence of add_word calls *)
From Verif Require Import PyBase PyRegex PyNum PyUtf8 ModelFinalseg ModelSeg ModelDict ModelApi
  SpecBase SpecSeg SpecDict SpecApi ProofsBase ProofsDict ProofsUserdict ProofsTotal.
Set Implicit Arguments.

Lemma no_newline_In s : no_newline s <-> ~ In 10%N s.
Proof.
  unfold no_newline. rewrite Forall_forall. split.
  - intros F HI. apply (F _ HI). reflexivity.
  - intros NI c HI ->. auto.
Qed.

Lemma parse_newline text : no_final_newline text -> In 10%N text -> parse_userdict_line text = None.
Proof.
  intros NF HI. destruct (parse_userdict_line text) as [[[w f] t]|] eqn:E; auto.
  destruct (parse_sound NF E) as [NN _]. apply no_newline_In in NN. tauto.
Qed.

Lemma whole_parts text : text <> [] -> line_parts text text None None.
Proof. intros NE. split; auto. simpl. rewrite !app_nil_r. auto. Qed.

Section Load.
  Variable num : Num.
  Variable H : hmm num.

  Lemma load_reads d l e :
    line_reads l e ->
    load_userdict_line num H d l =
    match e with None => Ok d | Some (w, f, t) => add_word num H d w f t end.
  Proof.
    intros [text [E R]]. unfold load_userdict_line. rewrite E.
    destruct e as [[[w f] t]|]; [|subst; reflexivity].
    destruct R as [NN [ds [LP [-> MIN]]]].
    assert (text <> []). { intros ->. destruct LP as [NW [E0 _]]. destruct w; [congruence|discriminate]. }
    rewrite (parse_exact (proj2 (no_newline_In _) NN) LP MIN).
    destruct text; [congruence|]. destruct ds as [ds|]; auto.
    destruct LP as [_ [_ [[ND FD] _]]]. rewrite parse_int_ascii by auto. reflexivity.
  Qed.

  Lemma load_refused d l e : line_refused l e -> load_userdict_line num H d l = Err e.
  Proof.
    intros [[E ->]|[text [E [HI ->]]]]; unfold load_userdict_line; rewrite E; auto.
    rewrite (parse_newline (uline_no_final_newline _ E) HI). destruct text; [contradiction|reflexivity].
  Qed.

  Lemma line_cases l : (exists e, line_reads l e) \/ (exists e, line_refused l e).
  Proof.
    destruct (uline_text l) as [text|] eqn:E; [|right; exists ValueError; left; auto].
    destruct text as [|c text]; [left; exists None; exists []; auto|].
    destruct (in_dec N.eq_dec 10%N (c :: text)) as [HI|NI]; [right; eexists; right; eauto|].
    left. destruct (parse_userdict_line (c :: text)) as [[[w f] t]|] eqn:EP.
    - destruct (parse_sound (uline_no_final_newline _ E) EP) as [_ [LP MIN]].
      exists (Some (w, option_map digits_val f, t)). exists (c :: text). split; auto. split; auto. eauto.
    - exfalso. eapply (@parse_total (c :: text)); [apply no_newline_In; auto| |exact EP].
      apply whole_parts. discriminate.
  Qed.

  Lemma load_all d lines es rest :
    Forall2 line_reads lines es ->
    load_userdict num H d (lines ++ rest) =
    match add_each num H d es with
    | (d', None) => load_userdict num H d' rest
    | r => r
    end.
  Proof.
    intros F. revert d. induction F as [|l e lines es R F IH]; intros d; auto.
    simpl. rewrite (load_reads d R). destruct e as [[[w f] t]|]; auto.
    destruct (add_word num H d w f t); auto.
  Qed.

  Lemma lines_split lines :
    exists good rest es, lines = good ++ rest /\ Forall2 line_reads good es /\
      (rest = [] \/ exists l r e, rest = l :: r /\ line_refused l e).
  Proof.
    induction lines as [|l lines IH]; [exists [], [], []; auto|].
    destruct (line_cases l) as [[e R]|[e R]].
    - destruct IH as (good & rest & es & -> & F & D). exists (l :: good), rest, (e :: es). auto.
    - exists [], (l :: lines), []. split; auto. split; auto. right. eauto 6.
  Qed.

  (** with all frequencies given nothing can raise *)
  Fixpoint given (es : list (option (str * option Z * option str))) : option (list (str * Z)) :=
    match es with
    | [] => Some []
    | None :: es' => given es'
    | Some (w, Some f, _) :: es' => option_map (cons (w, f)) (given es')
    | Some (_, None, _) :: _ => None
    end.

  Lemma add_each_given d es l :
    given es = Some l ->
    exists d', add_each num H d es = (d', None) /\
      (forall k, last_freq l k = None -> forall n, sget (d_freq d) k = Some n -> sget (d_freq d') k = Some n) /\
      (forall k n, last_freq l k = Some n -> sget (d_freq d') k = Some n) /\
      d_total d' = (d_total d + fold_right Z.add 0 (map snd l))%Z.
  Proof.
    revert d l. induction es as [|[[[w [f|]] t]|] es IH]; intros d l E; simpl in E; try discriminate.
    - inversion E; subst. exists d. simpl. repeat split; auto; [discriminate|lia].
    - destruct (given es) as [l'|] eqn:EG; [|discriminate]. inversion E; subst. clear E.
      destruct (IH (add_word_freq d w f t) l' eq_refl) as [d' [E1 [E2 [E3 E4]]]].
      exists d'. simpl. split; [exact E1|]. split; [|split].
      + intros k. destruct (last_freq l' k) eqn:EL; [discriminate|]. destruct (str_eqb k w) eqn:EW; [discriminate|].
        intros _ n G. apply E2; auto. simpl. rewrite add_get. unfold after_add. rewrite EW, G. reflexivity.
      + intros k n. destruct (last_freq l' k) eqn:EL; [intros X; inversion X; subst; auto|].
        destruct (str_eqb k w) eqn:EW; [|discriminate]. intros X; inversion X; subst. apply E2; auto.
        simpl. rewrite add_get. unfold after_add. rewrite EW. reflexivity.
      + rewrite E4. simpl. lia.
    - apply IH; auto.
  Qed.
End Load.
