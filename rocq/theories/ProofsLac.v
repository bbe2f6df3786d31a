From Coq Require Import DecimalFacts DecimalN DecimalPos FMapPositive.
From Verif Require Import PyBase ProofsBase PyNum ModelFinalseg ModelSeg ModelPosseg ModelArgs ModelLac SpecLac
  ProofsDictFile ProofsUserdict ProofsDemo.

(** ** Numbers as text *)

Fixpoint uval (acc : Z) (u : Decimal.uint) : Z :=
  match u with
  | Decimal.Nil => acc
  | Decimal.D0 u => uval (acc * 10 + 0) u
  | Decimal.D1 u => uval (acc * 10 + 1) u
  | Decimal.D2 u => uval (acc * 10 + 2) u
  | Decimal.D3 u => uval (acc * 10 + 3) u
  | Decimal.D4 u => uval (acc * 10 + 4) u
  | Decimal.D5 u => uval (acc * 10 + 5) u
  | Decimal.D6 u => uval (acc * 10 + 6) u
  | Decimal.D7 u => uval (acc * 10 + 7) u
  | Decimal.D8 u => uval (acc * 10 + 8) u
  | Decimal.D9 u => uval (acc * 10 + 9) u
  end%Z.

Lemma parse_digits_uval u : forall b acc, (u = Decimal.Nil -> b = true) ->
  parse_digits b acc (digits u) = Some (uval acc u).
Proof.
  induction u; intros b acc N; cbn [digits uval]; [cbn; rewrite N; auto| | | | | | | | | |];
    cbn [parse_digits];
    match goal with |- context [digit_val ?c] => let v := eval vm_compute in (digit_val c) in change (digit_val c) with v end;
    cbv iota beta; rewrite IHu by auto; reflexivity.
Qed.

Lemma uval_acc u : forall p, uval (Zpos p) u = Zpos (Pos.of_uint_acc u p).
Proof.
  induction u; intros p; cbn [uval Pos.of_uint_acc]; auto; rewrite <- IHu; f_equal; lia.
Qed.

Lemma uval_of u : uval 0 u = Z.of_N (N.of_uint u).
Proof.
  unfold N.of_uint. induction u; cbn [uval Pos.of_uint]; auto;
    match goal with |- uval ?a _ = _ => let v := eval vm_compute in a in change a with v end;
    rewrite ?uval_acc; auto.
Qed.

Lemma digits_chars u : Forall (fun c => (48 <= c <= 57)%N) (digits u).
Proof. induction u; cbn [digits]; constructor; auto; lia. Qed.

Lemma digit_char_ok c : (48 <= c <= 57)%N -> is_int_space c = false /\ c <> 45%N /\ c <> 43%N /\ c <> 9%N /\ c <> 10%N.
Proof.
  intros L. assert (I : In c [48; 49; 50; 51; 52; 53; 54; 55; 56; 57]%N) by (cbn; lia).
  cbn in I. repeat (destruct I as [<-|I]; [vm_compute; intuition discriminate|]). destruct I.
Qed.

Lemma to_uint_some n : N.to_uint n <> Decimal.Nil.
Proof.
  destruct n as [|p]; cbn; [discriminate|]. unfold Pos.to_uint. intros E.
  pose proof (DecimalPos.Unsigned.of_to p) as OT. unfold Pos.to_uint in OT. rewrite E in OT. cbn in OT. discriminate.
Qed.

Lemma str_int_pos z : (0 <= z)%Z -> str_int z = digits (N.to_uint (Z.to_N z)).
Proof. destruct z; intros L; try reflexivity. lia. Qed.

Lemma parse_str_int z : (0 <= z)%Z -> parse_int (str_int z) = Some z.
Proof.
  intros L. rewrite str_int_pos by auto. set (u := N.to_uint (Z.to_N z)). pose proof (digits_chars u) as F.
  unfold parse_int. rewrite strip_by_none.
  - destruct (digits u) as [|c s'] eqn:E.
    + exfalso. assert (NE : u <> Decimal.Nil) by apply to_uint_some. destruct u; cbn in E; congruence.
    + inversion F; subst. destruct (digit_char_ok c) as (_ & A & B & _); auto.
      cbv beta iota. destruct (N.eqb_spec c 45); [congruence|]. destruct (N.eqb_spec c 43); [congruence|].
      assert (PD : parse_digits false 0 (digits u) = Some (uval 0 u))
        by (apply parse_digits_uval; intros X; destruct (to_uint_some _ X)).
      rewrite E, uval_of in PD. unfold u in PD. rewrite DecimalN.Unsigned.of_to, Z2N.id in PD by auto. exact PD.
  - eapply Forall_impl; [|exact F]. intros c C. apply digit_char_ok in C. tauto.
Qed.

Lemma str_int_inj a b : (0 <= a)%Z -> (0 <= b)%Z -> str_int a = str_int b -> a = b.
Proof. intros A B E. apply (f_equal parse_int) in E. rewrite !parse_str_int in E by auto. congruence. Qed.

Lemma str_int_clean z : (0 <= z)%Z -> Forall (fun c => c <> 9%N /\ c <> 10%N) (str_int z).
Proof.
  intros L. rewrite str_int_pos by auto. eapply Forall_impl; [|apply digits_chars]. intros c C. apply digit_char_ok in C. tauto.
Qed.

Lemma str_int_some z : (0 <= z)%Z -> str_int z <> [].
Proof.
  intros L E. pose proof (parse_str_int z L) as P. rewrite E in P. vm_compute in P. discriminate.
Qed.

(** ** Loading the tables *)

Definition kv_line (iw : Z * str) : str := str_int (fst iw) ++ 9%N :: snd iw ++ [10%N].
Definition clean_row (iw : Z * str) : Prop := (0 <= fst iw)%Z /\ snd iw <> [] /\ ~ In 9%N (snd iw) /\ ~ In 10%N (snd iw).

Lemma strip_kv iw : clean_row iw -> strip_by is_nl (kv_line iw) = str_int (fst iw) ++ 9%N :: snd iw.
Proof.
  intros (A & NE & B & C). unfold kv_line.
  replace (str_int (fst iw) ++ 9%N :: snd iw ++ [10%N]) with ((str_int (fst iw) ++ 9%N :: snd iw) ++ [10%N])
    by (rewrite <- app_assoc; reflexivity).
  assert (NL : forall c, c <> 10%N -> is_nl c = false) by (intros c X; unfold is_nl; destruct (N.eqb_spec c 10); congruence).
  apply strip_by_app; [repeat constructor| |].
  - destruct (str_int (fst iw)) as [|c s] eqn:E; [destruct (str_int_some _ A E)|].
    exists c, (s ++ 9%N :: snd iw). split; [reflexivity|]. apply NL.
    pose proof (str_int_clean _ A) as F. rewrite E in F. inversion F; tauto.
  - destruct (exists_last NE) as (u & c & E). exists c, (str_int (fst iw) ++ 9%N :: u). split.
    + rewrite E, <- app_assoc. reflexivity.
    + apply NL. intros ->. apply C. rewrite E. apply in_app_iff. right. left. reflexivity.
Qed.

Lemma split_kv iw : clean_row iw -> split_on 9 (strip_by is_nl (kv_line iw)) = [str_int (fst iw); snd iw].
Proof.
  intros CR. rewrite strip_kv by auto. destruct CR as (A & NE & B & C).
  rewrite split_on_app, split_on_none; auto.
  intros I. pose proof (str_int_clean _ A) as F. rewrite Forall_forall in F. apply F in I. tauto.
Qed.

Lemma load_kv {V} (reverse : bool) (vf : str -> res V) (key : Z * str -> str) (val : Z * str -> V) rows :
  Forall clean_row rows ->
  (forall r, In r rows -> key r = if reverse then snd r else str_int (fst r)) ->
  (forall r, In r rows -> vf (if reverse then str_int (fst r) else snd r) = Ok (val r)) ->
  NoDup (map key rows) ->
  forall d, (forall r, In r rows -> sget d (key r) = None) ->
  exists d', load_kv_loop reverse vf (map kv_line rows) d = Ok d' /\
    (forall r, In r rows -> sget d' (key r) = Some (val r)) /\
    (forall k, ~ In k (map key rows) -> sget d' k = sget d k).
Proof.
  induction rows as [|r rows IH]; intros CR KY VL ND d FR.
  - exists d. repeat split; auto. intros r [].
  - inversion CR as [|? ? C1 C2]; subst. inversion ND as [|? ? N1 N2]; subst.
    cbn [map load_kv_loop]. rewrite split_kv by auto. cbv beta iota zeta.
    pose proof (KY r (or_introl eq_refl)) as K1. pose proof (VL r (or_introl eq_refl)) as V1.
    pose proof (FR r (or_introl eq_refl)) as F1.
    assert (ST : (if smem d (if reverse then snd r else str_int (fst r)) then Err KeyError
                  else rbind (vf (if reverse then str_int (fst r) else snd r))
                         (fun v => load_kv_loop reverse vf (map kv_line rows) (sset d (if reverse then snd r else str_int (fst r)) v)))
                 = load_kv_loop reverse vf (map kv_line rows) (sset d (key r) (val r))).
    { rewrite V1, <- K1, smem_sget, F1. reflexivity. }
    change (exists d', (if smem d (if reverse then snd r else str_int (fst r)) then Err KeyError
                  else rbind (vf (if reverse then str_int (fst r) else snd r))
                         (fun v => load_kv_loop reverse vf (map kv_line rows) (sset d (if reverse then snd r else str_int (fst r)) v))) = Ok d' /\
      (forall x, In x (r :: rows) -> sget d' (key x) = Some (val x)) /\
      (forall k, ~ In k (map key (r :: rows)) -> sget d' k = sget d k)).
    rewrite ST.
    destruct (IH C2) with (d := sset d (key r) (val r)) as (d' & E & A & B); auto.
    { intros x I. apply KY. right. auto. }
    { intros x I. apply VL. right. auto. }
    { intros x I. rewrite sget_sset_other; [apply FR; right; auto|]. intros X. apply N1. rewrite <- X. apply in_map. auto. }
    exists d'. split; [exact E|]. split.
    + intros x [<-|I]; [|auto]. rewrite B by auto. apply sget_sset_same.
    + intros k NI. rewrite B by (intros I; apply NI; right; auto). apply sget_sset_other. intros ->. apply NI. left. reflexivity.
Qed.

(** a table and the labels read from clean files *)
Definition unique_rows (rows : list (Z * str)) : Prop :=
  Forall clean_row rows /\ NoDup (map fst rows) /\ NoDup (map snd rows).

Lemma nodup_map {A B} (f : A -> B) l : (forall a b, In a l -> In b l -> f a = f b -> a = b) -> NoDup l -> NoDup (map f l).
Proof.
  induction l as [|x l IH]; intros INJ ND; [constructor|]. inversion ND; subst. cbn. constructor.
  - intros I. apply in_map_iff in I. destruct I as (y & E & I). apply INJ in E; cbn; auto. subst. auto.
  - apply IH; auto. intros a b IA IB. apply INJ; right; auto.
Qed.

Lemma kv_keys rows : unique_rows rows -> NoDup (map (fun r => str_int (fst r)) rows).
Proof.
  intros (C & N & _). rewrite <- (map_map fst str_int). apply nodup_map; auto.
  intros a b IA IB. apply in_map_iff in IA, IB. destruct IA as (x & <- & IA), IB as (y & <- & IB).
  rewrite Forall_forall in C. apply str_int_inj; [apply (C x IA)|apply (C y IB)].
Qed.

Lemma load_ids rows : unique_rows rows -> exists d, load_kv_dict true int_value (map kv_line rows) = Ok d /\
  (forall i w, In (i, w) rows -> sget d w = Some i) /\ (forall w, ~ In w (map snd rows) -> sget d w = None).
Proof.
  intros U. destruct (load_kv true int_value snd fst rows) with (d := @nil (str * Z)) as (d & E & A & B); auto; try apply U.
  - intros r I. unfold int_value. rewrite parse_str_int; auto. destruct U as (C & _). rewrite Forall_forall in C. apply (C r I).
  - exists d. split; [exact E|]. split; [|exact B]. intros i w I. apply (A (i, w) I).
Qed.

Lemma load_names rows : unique_rows rows -> exists d, load_kv_dict false (@Ok str) (map kv_line rows) = Ok d /\
  (forall i w, In (i, w) rows -> sget d (str_int i) = Some w).
Proof.
  intros U. destruct (load_kv false (@Ok str) (fun r => str_int (fst r)) snd rows) with (d := @nil (str * str)) as (d & E & A & B); auto; try apply U.
  - apply kv_keys; auto.
  - exists d. split; [exact E|]. intros i w I. apply (A (i, w) I).
Qed.

Lemma load_ok rows labels : unique_rows rows -> unique_rows labels ->
  exists ds, load_dataset (map kv_line rows) (map kv_line labels) = Ok ds /\
    (forall i w, In (i, w) rows -> sget (word2id ds) w = Some i /\ sget (id2word ds) (str_int i) = Some w) /\
    (forall w, ~ In w (map snd rows) -> sget (word2id ds) w = None) /\
    (forall i l, In (i, l) labels -> sget (id2label ds) (str_int i) = Some l).
Proof.
  intros U V. unfold load_dataset.
  destruct (load_ids rows U) as (w2i & -> & A & A'). destruct (load_names rows U) as (i2w & -> & B).
  destruct (load_ids labels V) as (l2i & -> & _). destruct (load_names labels V) as (i2l & -> & C). cbn [rbind].
  exists (mkSet w2i i2w i2l). split; [reflexivity|]. cbn [word2id id2word id2label].
  split; [intros i w I; split; auto|]. split; auto.
Qed.

(** ** Reading the text *)

Lemma strip_spec s : stripped s (str_strip s).
Proof.
  unfold str_strip. destruct (lstrip_by_suffix is_space s) as (a & E).
  unfold stripped, strip_by, rstrip_by. set (t := lstrip_by is_space s) in *.
  destruct (lstrip_by_suffix is_space (rev t)) as (b & E2). set (r := lstrip_by is_space (rev t)) in *.
  assert (ET : t = rev r ++ rev b). { apply (f_equal (@rev _)) in E2. rewrite rev_involutive, rev_app_distr in E2. exact E2. }
  assert (PRE : forall x u, x = u ++ lstrip_by is_space x -> Forall (fun c => is_space c = true) u).
  { induction x as [|c x IH]; intros u X; cbn in X.
    - destruct u; [constructor|discriminate].
    - destruct (is_space c) eqn:EC.
      + destruct u as [|d u]; cbn in X.
        * exfalso. pose proof (lstrip_by_suffix is_space x) as (v & Y). apply (f_equal (@length _)) in X, Y. rewrite app_length in Y. cbn in X. lia.
        * injection X as <- X. constructor; auto.
      + destruct u as [|d u]; [constructor|]. apply (f_equal (@length _)) in X. rewrite app_length in X. cbn in X. lia. }
  assert (HD : forall x c u, lstrip_by is_space x = c :: u -> is_space c = false).
  { induction x as [|d x IH]; cbn; [discriminate|]. intros c u. destruct (is_space d) eqn:ED; [apply IH|].
    intros X. injection X as <- _. exact ED. }
  exists a, (rev b). split; [rewrite E, ET; reflexivity|]. split.
  - apply Forall_app. split; [eapply PRE; exact E|]. apply Forall_rev. eapply PRE. exact E2.
  - split.
    + intros c u X. rewrite X in ET. apply (HD s c (u ++ rev b)). exact ET.
    + intros c u X. apply (f_equal (@rev _)) in X. rewrite rev_involutive, rev_app_distr in X. apply (HD (rev t) c (rev u)). exact X.
Qed.

Lemma rmap_ok {A B} (f : A -> res B) (g : A -> B) l : (forall a, In a l -> f a = Ok (g a)) -> rmap f l = Ok (map g l).
Proof.
  induction l as [|a l IH]; intros E; auto. cbn. rewrite E by (left; auto). cbn. rewrite IH; auto. intros x I. apply E. right. auto.
Qed.

(** ** Words *)

Lemma ends_B_ok l : ends_B l = true <-> exists t, l = t ++ [45; 66]%N.
Proof.
  unfold ends_B. split.
  - destruct (rev l) as [|b [|d r]] eqn:E; try discriminate. rewrite andb_true_iff, !N.eqb_eq. intros [-> ->].
    exists (rev r). apply (f_equal (@rev _)) in E. rewrite rev_involutive in E. rewrite E. cbn. rewrite <- app_assoc. reflexivity.
  - intros (t & ->). rewrite rev_app_distr. reflexivity.
Qed.

Lemma begins_ok prev l : (ends_B l || (str_eqb l s_O && negb (str_eqb prev s_O)))%bool = true <-> begins prev l.
Proof.
  unfold begins. rewrite orb_true_iff, andb_true_iff, negb_true_iff, ends_B_ok.
  rewrite str_eqb_eq. split; (intros [A|[A B]]; [left; exact A|right; split; [exact A|]]).
  - intros ->. rewrite str_eqb_refl in B. discriminate.
  - apply str_eqb_neq. exact B.
Qed.

Lemma tag_part_ok l : tag_of l (tag_part l).
Proof.
  unfold tag_of, tag_part. induction l as [|c l IH]; cbn.
  - split; auto.
  - destruct (N.eqb_spec c 45) as [->|NC]; cbn.
    + split; [intros []|]. right. exists l. reflexivity.
    + destruct (split_on 45 l) as [|x xs] eqn:E; cbn in IH |- *.
      * split; [intros [X|[]]; congruence|]. destruct IH as [_ [->|(r & ->)]]; [left; reflexivity|]. right. exists r. reflexivity.
      * destruct IH as [A B]. split; [intros [X|I]; [congruence|auto]|]. destruct B as [->|(r & ->)]; [left; reflexivity|]. right. exists r. reflexivity.
Qed.

Definition word_text (cs : list (char * str)) : str := map fst cs.
Definition word_tag (cs : list (char * str)) : str := match cs with (_, l) :: _ => tag_part l | [] => [] end.

(** the loop, inside a word [cur] that is not empty *)
Lemma parse_inside cs : forall prev cur, cur <> [] -> forall so tg, length so < length tg ->
  exists on rest ws, cs = on ++ rest /\ goes_on prev on /\ divided (Some (last (map snd on) prev)) rest ws /\
    parse_loop (map (fun cl => [fst cl]) cs) (map snd cs) prev cur so tg =
      Ok (so ++ (cur ++ word_text on) :: map word_text ws, tg ++ map word_tag ws).
Proof.
  induction cs as [|[c l] cs IH]; intros prev cur NE so tg LT.
  - exists [], [], []. repeat split; try constructor. cbn [map parse_loop word_text]. destruct (Nat.ltb_spec (length so) (length tg)); [|lia].
    rewrite !app_nil_r. reflexivity.
  - cbn [map fst snd parse_loop]. destruct cur as [|x cur]; [congruence|].
    destruct (ends_B l || (str_eqb l s_O && negb (str_eqb prev s_O)))%bool eqn:EB.
    + apply begins_ok in EB. destruct (IH l [c]) with (so := so ++ [x :: cur]) (tg := tg ++ [tag_part l]) as (on & rest & ws & E & G & D & P).
      { discriminate. } { rewrite !app_length. cbn. lia. }
      exists [], ((c, l) :: cs), (((c, l) :: on) :: ws). split; [reflexivity|]. split; [exact I|]. split.
      * cbn [last map]. rewrite E. constructor; auto.
      * etransitivity; [exact P|]. cbn [word_text word_tag map fst]. rewrite app_nil_r, <- !app_assoc. reflexivity.
    + assert (NB : ~ begins prev l) by (rewrite <- begins_ok; congruence).
      destruct (IH l ((x :: cur) ++ [c])) with (so := so) (tg := tg) as (on & rest & ws & E & G & D & P); auto.
      { discriminate. }
      exists ((c, l) :: on), rest, ws. split; [rewrite E; reflexivity|]. split; [split; auto|]. split.
      * cbn [map snd]. replace (last (l :: map snd on) prev) with (last (map snd on) l); auto.
        clear. revert l prev. induction on as [|[d m] on IH]; intros l prev; auto. cbn [map snd] in *. cbn [last] in *.
        destruct (map snd on); auto.
      * etransitivity; [exact P|]. cbn [word_text map fst]. rewrite <- app_assoc. reflexivity.
Qed.

Lemma parse_words cs : exists ws, divided None cs ws /\
  parse_loop (map (fun cl => [fst cl]) cs) (map snd cs) [] [] [] [] = Ok (map word_text ws, map word_tag ws).
Proof.
  destruct cs as [|[c l] cs]; [exists []; split; [constructor|reflexivity]|].
  cbn [map fst snd parse_loop].
  destruct (parse_inside cs l [c]) with (so := @nil str) (tg := [] ++ [tag_part l]) as (on & rest & ws & E & G & D & P).
  { discriminate. } { cbn. lia. }
  exists (((c, l) :: on) :: ws). split; [rewrite E; constructor; auto; exact I|]. etransitivity; [exact P|]. reflexivity.
Qed.

Lemma divided_concat prev cs ws : divided prev cs ws -> concat ws = cs /\ Forall (fun w => w <> []) ws.
Proof.
  induction 1 as [|prev c l cs rest ws B G D [IH1 IH2]]; [split; constructor|]. cbn. rewrite IH1.
  split; [reflexivity|constructor; [discriminate|auto]].
Qed.

Lemma last_cons {A} (x : A) l d e : last (x :: l) d = last (x :: l) e.
Proof. revert x. induction l as [|y l IH]; intros x; auto. apply (IH y). Qed.

Lemma last_labels (q : char) l (on : list (char * str)) p : last (map snd ((q, l) :: on)) p = last (map snd on) l.
Proof.
  cbn [map snd]. destruct (map snd on) as [|m ms]; [reflexivity|].
  change (last (l :: m :: ms) p) with (last (m :: ms) p). apply last_cons.
Qed.

Lemma goes_on_unique cs : forall l cs' rest rest' ws ws', goes_on l cs -> goes_on l cs' ->
  divided (Some (last (map snd cs) l)) rest ws -> divided (Some (last (map snd cs') l)) rest' ws' ->
  cs ++ rest = cs' ++ rest' -> cs' = cs /\ rest' = rest.
Proof.
  induction cs as [|[c l1] cs IH]; intros l cs' rest rest' ws ws' G G' D D2 E.
  - destruct cs' as [|[c' l'] cs']; [auto|]. cbn in E. subst rest. cbn in G'. destruct G' as [NB _].
    inversion D; subst. cbn in *. tauto.
  - destruct cs' as [|[c' l'] cs']; cbn in E.
    + subst rest'. cbn in G. destruct G as [NB _]. inversion D2; subst. cbn in *. tauto.
    + injection E as -> -> E. cbn in G, G'. destruct G as [_ G], G' as [_ G'].
      rewrite last_labels in D, D2. destruct (IH l' cs' rest rest' ws ws') as [-> ->]; auto.
Qed.

Lemma divided_unique prev cs ws : divided prev cs ws -> forall ws', divided prev cs ws' -> ws' = ws.
Proof.
  induction 1 as [|prev c l cs rest ws B G D IH]; intros ws' D'.
  - inversion D'. reflexivity.
  - remember ((c, l) :: cs ++ rest) as all eqn:EA. destruct D' as [|prev c' l' cs' rest' ws2 B' G' D2]; [discriminate|].
    injection EA as -> -> E. destruct (goes_on_unique cs l cs' rest rest' ws ws2) as [-> ->]; auto.
    f_equal. apply IH. exact D2.
Qed.
