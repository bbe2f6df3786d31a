(** * Lines of a main dictionary *)
From Verif Require Import PyBase PyRegex PyNum PyUtf8 ModelFinalseg ModelSeg ModelDict
  SpecBase SpecSeg SpecDict ProofsBase ProofsDict ProofsUserdict ProofsUtf8.
Set Implicit Arguments.

Lemma split_on_app sep u v : ~ In sep u -> split_on sep (u ++ sep :: v) = u :: split_on sep v.
Proof.
  induction u as [|c u IH]; simpl; intros NI.
  - rewrite N.eqb_refl. reflexivity.
  - destruct (N.eqb_spec c sep); [subst; tauto|]. rewrite IH by tauto. reflexivity.
Qed.

Lemma split_on_none sep u : ~ In sep u -> split_on sep u = [u].
Proof.
  induction u as [|c u IH]; simpl; intros NI; auto.
  destruct (N.eqb_spec c sep); [subst; tauto|]. rewrite IH by tauto. reflexivity.
Qed.

Lemma strip_by_app (p : N -> bool) u v :
  Forall (fun c => p c = true) v ->
  (exists c u', u = c :: u' /\ p c = false) -> (exists c u', u = u' ++ [c] /\ p c = false) ->
  strip_by p (u ++ v) = u.
Proof.
  intros FV [c [u' [E1 P1]]] [d [u'' [E2 P2]]].
  unfold strip_by, rstrip_by.
  assert (L1 : lstrip_by p (u ++ v) = u ++ v). { rewrite E1. simpl. rewrite P1. reflexivity. }
  rewrite L1, rev_app_distr.
  assert (L2 : forall x y, Forall (fun c => p c = true) x -> lstrip_by p (x ++ y) = lstrip_by p y).
  { induction x as [|z x IH]; intros y F; auto. inversion F; subst. simpl. rewrite H1. auto. }
  rewrite L2 by (apply Forall_rev; auto).
  assert (L3 : lstrip_by p (rev u) = rev u). { rewrite E2, rev_app_distr. simpl. rewrite P2. reflexivity. }
  rewrite L3. apply rev_involutive.
Qed.

Lemma utf8_char_first c b : utf8_char c = Some b -> exists x r, b = x :: r /\ (x = c \/ (0x80 <= x)%N).
Proof.
  intros E. apply utf8_char_cases in E.
  destruct E as [[L ->]|[(x & y & X & Y & E & ->)|[(x & y & z & X & Y & Z & E & L & NS & ->)|
                 (x & y & z & w & X & Y & Z & W & E & L & ->)]]]; eexists; eexists; (split; [reflexivity|]); auto; right; lia.
Qed.

Lemma utf8_char_last c b : utf8_char c = Some b -> exists x r, b = r ++ [x] /\ (x = c \/ (0x80 <= x)%N).
Proof.
  intros E. apply utf8_char_cases in E.
  destruct E as [[L ->]|[(x & y & X & Y & E & ->)|[(x & y & z & X & Y & Z & E & L & NS & ->)|
                 (x & y & z & w & X & Y & Z & W & E & L & ->)]]].
  - exists c, []. auto.
  - exists (0x80 + y)%N, [0xC0 + x]%N. split; auto. right; lia.
  - exists (0x80 + z)%N, [0xE0 + x; 0x80 + y]%N. split; auto. right; lia.
  - exists (0x80 + w)%N, [0xF0 + x; 0x80 + y; 0x80 + z]%N. split; auto. right; lia.
Qed.

Lemma high_not_bspace x : (0x80 <= x)%N -> is_bspace x = false.
Proof.
  intros L. unfold is_bspace, in_range.
  destruct (N.leb_spec x 0xD); [lia|]. destruct (N.eqb_spec x 0x20); [lia|]. rewrite andb_false_r. reflexivity.
Qed.

Lemma encode_cons c s b : utf8_encode (c :: s) = Some b ->
  exists x r, utf8_char c = Some x /\ utf8_encode s = Some r /\ b = x ++ r.
Proof.
  simpl. destruct (utf8_char c); [|discriminate]. destruct (utf8_encode s); [|discriminate].
  intros E; inversion E. eauto.
Qed.

Lemma encode_first c s b : utf8_encode (c :: s) = Some b -> is_bspace c = false ->
  exists x b', b = x :: b' /\ is_bspace x = false.
Proof.
  intros E NB. apply encode_cons in E. destruct E as (x & r & E1 & _ & ->).
  apply utf8_char_first in E1. destruct E1 as (y & r' & -> & D). exists y, (r' ++ r). split; auto.
  destruct D as [->|D]; auto. apply high_not_bspace; auto.
Qed.

Lemma encode_last s c b : utf8_encode (s ++ [c]) = Some b -> is_bspace c = false ->
  exists x b', b = b' ++ [x] /\ is_bspace x = false.
Proof.
  rewrite encode_app. intros E NB. destruct (utf8_encode s) as [a|]; [|discriminate].
  destruct (utf8_encode [c]) as [r|] eqn:EC; [|discriminate]. inversion E; subst.
  apply encode_cons in EC. destruct EC as (x & r' & E1 & E2 & ->). simpl in E2. inversion E2; subst.
  rewrite app_nil_r. apply utf8_char_last in E1. destruct E1 as (y & q & -> & D).
  exists y, (a ++ q). rewrite app_assoc. split; auto.
  destruct D as [->|D]; auto. apply high_not_bspace; auto.
Qed.

Lemma digit_not_bspace c : is_digit09 c = true -> is_bspace c = false.
Proof.
  intros D. apply digit_ascii_facts in D. destruct D as [D _]. unfold is_int_space in D.
  apply orb_false_iff in D. tauto.
Qed.

Lemma digits_no_blank ds : Forall (fun c => is_digit09 c = true) ds -> ~ In 32%N ds.
Proof. intros F HI. rewrite Forall_forall in F. apply F in HI. discriminate. Qed.

Lemma dict_line_parse line w f : dict_line line w f -> parse_dict_line line = Some (w, f).
Proof.
  intros (ds & tag & b & eol & NW & NB & W1 & ND & FD & -> & TG & EB & FE & ->).
  unfold parse_dict_line, bytes_strip. rewrite strip_by_app; auto.
  - rewrite (decode_encode _ _ EB). rewrite split_on_app by auto.
    assert (P2 : exists rest, split_on 32 (ds ++ match tag with Some t => 32%N :: t | None => [] end) = ds :: rest).
    { pose proof (digits_no_blank FD). destruct tag.
      - rewrite split_on_app by auto. eauto.
      - rewrite app_nil_r, split_on_none by auto. eauto. }
    destruct P2 as [rest ->]. rewrite parse_int_ascii by auto. reflexivity.
  - destruct w as [|c w]; [congruence|]. eapply encode_first; eauto.
  - assert (E : exists s c, w ++ 32%N :: ds ++ match tag with Some t => 32%N :: t | None => [] end = s ++ [c]
              /\ is_bspace c = false).
    { destruct tag as [t|].
      - destruct TG as (t0 & c & -> & NC). exists (w ++ 32%N :: ds ++ 32%N :: t0), c. split; auto.
        rewrite <- app_assoc. simpl. rewrite <- app_assoc. reflexivity.
      - destruct (exists_last ND) as [d0 [c ->]]. exists (w ++ 32%N :: d0), c.
        split; [rewrite app_nil_r, <- app_assoc; reflexivity|].
        apply Forall_app in FD. destruct FD as [_ FD]. inversion FD; subst. apply digit_not_bspace; auto. }
    destruct E as (s & c & E & NC). rewrite E in EB. eapply encode_last; eauto.
Qed.

(** lines that cannot be read *)
Lemma parse_bad_utf8 line : utf8_decode (bytes_strip line) = None -> parse_dict_line line = None.
Proof. unfold parse_dict_line. intros ->. reflexivity. Qed.

Lemma parse_no_blank line text :
  utf8_decode (bytes_strip line) = Some text -> ~ In 32%N text -> parse_dict_line line = None.
Proof. unfold parse_dict_line. intros -> NI. rewrite split_on_none by auto. reflexivity. Qed.
