From Verif Require Import PyBase ProofsBase PyNum ModelFinalseg ModelSeg ModelDict ModelApi ModelPosseg ModelInit
  ModelCLI SpecCli.

Lemma universal_line l nl rest : no_newline l -> newline nl rest ->
  universal (l ++ nl ++ rest) = l ++ 10%N :: universal rest.
Proof.
  intros [A B] N. induction l as [|c l IH].
  - destruct N as [->|[->|[-> NR]]]; try reflexivity. destruct rest as [|d rest]; [reflexivity|].
    cbn [app universal]. destruct (N.eqb_spec d 10); [subst; destruct (NR rest eq_refl)|]. reflexivity.
  - cbn [app universal]. destruct (N.eqb_spec c 13) as [->|NC]; [destruct B; left; auto|].
    f_equal. apply IH; intros I; [apply A|apply B]; right; auto.
Qed.

Lemma universal_last l : no_newline l -> universal l = l.
Proof.
  intros [A B]. induction l as [|c l IH]; auto. cbn [universal].
  destruct (N.eqb_spec c 13) as [->|NC]; [destruct B; left; auto|].
  f_equal. apply IH; intros I; [apply A|apply B]; right; auto.
Qed.

Lemma readlines_line l t : ~ In 10%N l -> readlines (l ++ 10%N :: t) = (l ++ [10%N]) :: readlines t.
Proof.
  induction l as [|c l IH]; intros A; auto. cbn [app readlines].
  destruct (N.eqb_spec c 10) as [->|NC]; [destruct A; left; auto|].
  rewrite IH; auto. intros I. apply A. right. auto.
Qed.

Lemma readlines_last l : l <> [] -> ~ In 10%N l -> readlines l = [l].
Proof.
  induction l as [|c l IH]; intros NE A; [congruence|]. cbn [readlines].
  destruct (N.eqb_spec c 10) as [->|NC]; [destruct A; left; auto|].
  destruct l as [|d l]; auto. rewrite IH; [auto|discriminate|]. intros I. apply A. right. auto.
Qed.

Lemma rstrip_id l : no_newline l -> rstrip_crlf l = l.
Proof.
  intros [A B]. induction l as [|c l IH]; auto. cbn [rstrip_crlf]. rewrite IH; [|intros I; apply A; right; auto|intros I; apply B; right; auto].
  destruct l; auto. destruct (N.eqb_spec c 13) as [->|]; [destruct B; left; auto|].
  destruct (N.eqb_spec c 10) as [->|]; [destruct A; left; auto|]. auto.
Qed.

Lemma rstrip_line l : no_newline l -> rstrip_crlf (l ++ [10%N]) = l.
Proof.
  intros [A B]. induction l as [|c l IH]; auto. cbn [app rstrip_crlf]. rewrite IH; [|intros I; apply A; right; auto|intros I; apply B; right; auto].
  destruct l; auto. destruct (N.eqb_spec c 13) as [->|]; [destruct B; left; auto|].
  destruct (N.eqb_spec c 10) as [->|]; [destruct A; left; auto|]. auto.
Qed.

(** what the loop cuts are the lines *)
Lemma lines_read s ls : lines_of s ls -> map rstrip_crlf (readlines (universal s)) = ls.
Proof.
  induction 1 as [|l NE NN|l nl rest ls NN NL _ IH]; auto.
  - rewrite universal_last, readlines_last by (auto; apply NN). cbn [map]. rewrite rstrip_id; auto.
  - rewrite universal_line, readlines_line by (auto; apply NN). cbn [map]. rewrite rstrip_line, IH; auto.
Qed.

Lemma first_line s : exists l rest, no_newline l /\ s = l ++ rest /\
  (rest = [] \/ exists c r, rest = c :: r /\ (c = 10%N \/ c = 13%N)).
Proof.
  induction s as [|c s IH].
  - exists [], []. repeat split; cbn; auto.
  - destruct (N.eq_dec c 10) as [->|N1]; [|destruct (N.eq_dec c 13) as [->|N2]].
    + exists [], (10%N :: s). repeat split; cbn; auto. right. eauto.
    + exists [], (13%N :: s). repeat split; cbn; auto. right. eauto.
    + destruct IH as (l & rest & [A B] & -> & C). exists (c :: l), rest. split; [|auto].
      split; intros [E|I]; try congruence; auto.
Qed.

Lemma lines_exist s : exists ls, lines_of s ls.
Proof.
  remember (length s) as n eqn:E. assert (L : length s <= n) by lia. clear E. revert s L.
  induction n as [|n IH]; intros s L.
  - destruct s; [|cbn in L; lia]. exists []. constructor.
  - destruct (first_line s) as (l & rest & NN & -> & [->|(c & r & -> & C)]).
    + rewrite app_nil_r. destruct l as [|c0 l]; [exists []; constructor|]. exists [c0 :: l]. apply lo_last; [discriminate|auto].
    + rewrite app_length in L. cbn [length] in L. destruct C as [->| ->].
      * destruct (IH r) as (ls & LS); [lia|]. exists (l :: ls). apply (lo_line l [10%N] r); auto. left. auto.
      * destruct r as [|d r].
        { exists [l]. apply (lo_line l [13%N] []); auto; [|constructor]. right. right. split; auto. intros r E. discriminate. }
        destruct (N.eq_dec d 10) as [->|ND].
        { cbn [length] in L. destruct (IH r) as (ls & LS); [lia|]. exists (l :: ls).
          apply (lo_line l [13; 10]%N r); auto. right. left. auto. }
        destruct (IH (d :: r)) as (ls & LS); [lia|]. exists (l :: ls).
        apply (lo_line l [13%N] (d :: r)); auto. right. right. split; auto. intros r' E. congruence.
Qed.

Lemma join_between sep ws : join_with sep ws = between sep ws.
Proof.
  destruct ws as [|w ws]; auto. revert w. induction ws as [|x ws IH]; intros w.
  - cbn. rewrite app_nil_r. auto.
  - change (join_with sep (w :: x :: ws)) with (w ++ sep ++ join_with sep (x :: ws)). rewrite IH. cbn.
    rewrite !app_assoc. auto.
Qed.

Lemma between_nil ws : between [] ws = concat ws.
Proof. destruct ws; auto. cbn. rewrite map_id. auto. Qed.

(** ** The loop *)
Section Loop.
  Context {S : Type}.
  Variable delim : str.
  Variable f : S -> str -> S * gen str.
  Variable Inv : S -> Prop.
  Variable R : str -> gen str -> Prop.
  Variable Good : str -> Prop.
  Hypothesis f_ok : forall st l, Inv st -> Good l -> Inv (fst (f st l)) /\ R l (snd (f st l)).

  Lemma print_ok : (forall l g, R l g -> snd g = None) -> forall lns st, Inv st -> Forall Good (map rstrip_crlf lns) ->
    exists wss, Forall2 (fun l ws => R l (gof ws)) (map rstrip_crlf lns) wss /\
      print_lines delim f st lns = (printed (map (between delim) wss), None).
  Proof.
    intros N. induction lns as [|ln lns IH]; intros st I G.
    - exists []. split; constructor.
    - cbn [print_lines map] in *. inversion G as [|? ? G1 G2]; subst. pose proof (f_ok st (rstrip_crlf ln) I G1) as [I' RR].
      destruct (f st (rstrip_crlf ln)) as [st' [ws e]]. cbn [fst snd] in *.
      pose proof (N _ _ RR) as E. cbn in E. subst e. destruct (IH st' I' G2) as (wss & F2 & E). rewrite E.
      exists (ws :: wss). split; [constructor; auto|]. rewrite join_between. unfold printed. cbn.
      rewrite <- app_assoc. reflexivity.
  Qed.

  (** the first line that fails ends it *)
  Lemma print_fails lns1 ln lns2 e : forall st, Inv st ->
    Forall Good (map rstrip_crlf (lns1 ++ ln :: lns2)) ->
    (forall l g, In l (map rstrip_crlf lns1) -> R l g -> snd g = None) ->
    (forall g, R (rstrip_crlf ln) g -> snd g = Some e) ->
    exists wss, Forall2 (fun l ws => R l (gof ws)) (map rstrip_crlf lns1) wss /\
      print_lines delim f st (lns1 ++ ln :: lns2) = (printed (map (between delim) wss), Some e).
  Proof.
    induction lns1 as [|l0 lns1 IH]; intros st I G N B; cbn [app map] in G; inversion G as [|? ? G1 G2]; subst.
    - exists []. split; [constructor|]. cbn [app print_lines]. pose proof (f_ok st (rstrip_crlf ln) I G1) as [_ RR].
      destruct (f st (rstrip_crlf ln)) as [st' [ws e']]. cbn [snd] in RR. pose proof (B _ RR) as E. cbn in E. subst. reflexivity.
    - cbn [app print_lines map]. pose proof (f_ok st (rstrip_crlf l0) I G1) as [I' RR].
      destruct (f st (rstrip_crlf l0)) as [st' [ws e']]. cbn [fst snd] in *.
      pose proof (N _ _ (or_introl eq_refl) RR) as E. cbn in E. subst e'.
      destruct (IH st' I') as (wss & F2 & E); auto.
      { intros l g IN. apply N. right. auto. }
      rewrite E. exists (ws :: wss). split; [constructor; auto|]. rewrite join_between. unfold printed. cbn.
      rewrite <- app_assoc. reflexivity.
  Qed.
End Loop.
