(** * Strict UTF-8 decoding and encoding are inverse *)
From Coq Require Import ZifyN ZifyBool.
From Verif Require Import PyBase PyUtf8.
Local Open Scope N_scope.
Ltac Zify.zify_post_hook ::= Z.div_mod_to_equations.

Lemma utf8_char_cases c b :
  utf8_char c = Some b ->
  (c < 0x80 /\ b = [c]) \/
  (exists x y, 0x2 <= x < 0x20 /\ y < 0x40 /\ c = x * 0x40 + y /\ b = [0xC0 + x; 0x80 + y]) \/
  (exists x y z, x < 0x10 /\ y < 0x40 /\ z < 0x40 /\ c = x * 0x1000 + y * 0x40 + z /\
     0x800 <= c /\ ~ (0xD800 <= c <= 0xDFFF) /\ b = [0xE0 + x; 0x80 + y; 0x80 + z]) \/
  (exists x y z w, x < 0x5 /\ y < 0x40 /\ z < 0x40 /\ w < 0x40 /\ c = x * 0x40000 + y * 0x1000 + z * 0x40 + w /\
     0x10000 <= c < 0x110000 /\ b = [0xF0 + x; 0x80 + y; 0x80 + z; 0x80 + w]).
Proof.
  unfold utf8_char, in_range.
  destruct (N.ltb_spec c 0x80); [intros E; inversion E; auto|].
  destruct (N.ltb_spec c 0x800).
  { intros E; inversion E; subst. right. left. exists (c / 0x40), (c mod 0x40). repeat split; lia. }
  destruct (N.ltb_spec c 0x10000).
  { destruct (N.leb_spec 0xD800 c), (N.leb_spec c 0xDFFF); simpl; try discriminate; intros E; inversion E; subst;
      right; right; left; exists (c / 0x1000), (c / 0x40 mod 0x40), (c mod 0x40); repeat split; try lia. }
  destruct (N.ltb_spec c 0x110000); [|discriminate].
  intros E; inversion E; subst. right. right. right.
  exists (c / 0x40000), (c / 0x1000 mod 0x40), (c / 0x40 mod 0x40), (c mod 0x40). repeat split; lia.
Qed.

Ltac dec_bool :=
  repeat match goal with
         | |- context [?a <? ?b] => destruct (N.ltb_spec a b); try lia
         | |- context [?a <=? ?b] => destruct (N.leb_spec a b); try lia
         | |- context [?a =? ?b] => destruct (N.eqb_spec a b); try lia
         end; cbn [andb orb negb implb].

Lemma decode_char c b r :
  utf8_char c = Some b -> utf8_decode (b ++ r) = option_map (cons c) (utf8_decode r).
Proof.
  intros E. apply utf8_char_cases in E.
  destruct E as [[L ->]|[(x & y & X & Y & E & ->)|[(x & y & z & X & Y & Z & E & L & NS & ->)|
                 (x & y & z & w & X & Y & Z & W & E & L & ->)]]]; cbn [app utf8_decode]; unfold is_cont, in_range.
  - dec_bool. reflexivity.
  - dec_bool; f_equal; f_equal; lia.
  - dec_bool; f_equal; f_equal; lia.
  - dec_bool; f_equal; f_equal; lia.
Qed.

Lemma decode_encode s b : utf8_encode s = Some b -> utf8_decode b = Some s.
Proof.
  revert b. induction s as [|c s IH]; intros b; simpl.
  - intros E; inversion E. reflexivity.
  - destruct (utf8_char c) as [x|] eqn:EC; [|discriminate].
    destruct (utf8_encode s) as [r|] eqn:ES; [|discriminate]. intros E; inversion E; subst.
    rewrite (decode_char _ _ _ EC), (IH r); auto.
Qed.

(** one step of the decoder *)
Lemma decode_step b s :
  utf8_decode b = Some s -> b <> [] ->
  exists c x r s', s = c :: s' /\ b = x ++ r /\ x <> [] /\ utf8_char c = Some x /\ utf8_decode r = Some s'.
Proof.
  intros E NB. destruct b as [|b0 r0]; [congruence|]. simpl in E.
  assert (OM : forall (c : N) r s, option_map (cons c) (utf8_decode r) = Some s ->
              exists s', s = c :: s' /\ utf8_decode r = Some s').
  { intros c r s0. destruct (utf8_decode r); simpl; intros EO; inversion EO. eauto. }
  destruct (N.ltb_spec b0 0x80).
  { apply OM in E. destruct E as [s' [-> E]]. exists b0, [b0], r0, s'.
    split; auto. split; auto. split; [discriminate|]. split; auto.
    unfold utf8_char. dec_bool. reflexivity. }
  unfold in_range in E.
  destruct ((0xC2 <=? b0) && (b0 <=? 0xDF)) eqn:E2.
  { apply andb_true_iff in E2. rewrite !N.leb_le in E2.
    destruct r0 as [|b1 r1]; [discriminate|].
    destruct (is_cont b1) eqn:C1; [|discriminate]. unfold is_cont, in_range in C1.
    apply andb_true_iff in C1. rewrite !N.leb_le in C1.
    apply OM in E. destruct E as [s' [-> E]].
    exists ((b0 - 0xC0) * 0x40 + (b1 - 0x80)), [b0; b1], r1, s'.
    split; auto. split; auto. split; [discriminate|]. split; auto.
    unfold utf8_char. dec_bool. f_equal. f_equal; [|f_equal]; lia. }
  destruct ((0xE0 <=? b0) && (b0 <=? 0xEF)) eqn:E3.
  { apply andb_true_iff in E3. rewrite !N.leb_le in E3.
    destruct r0 as [|b1 [|b2 r2]]; try discriminate.
    destruct (is_cont b1) eqn:C1; [|discriminate]. destruct (is_cont b2) eqn:C2; [|discriminate].
    unfold is_cont, in_range in C1, C2.
    apply andb_true_iff in C1. apply andb_true_iff in C2. rewrite !N.leb_le in C1, C2. simpl in E.
    destruct (implb (b0 =? 0xE0) (0xA0 <=? b1)) eqn:I1; [|discriminate].
    destruct (implb (b0 =? 0xED) (b1 <=? 0x9F)) eqn:I2; [|discriminate].
    assert (J1 : b0 = 0xE0 -> 0xA0 <= b1).
    { intros ->. simpl in I1. apply N.leb_le in I1. auto. }
    assert (J2 : b0 = 0xED -> b1 <= 0x9F).
    { intros ->. simpl in I2. apply N.leb_le in I2. auto. }
    simpl in E. apply OM in E. destruct E as [s' [-> E]].
    exists ((b0 - 0xE0) * 0x1000 + (b1 - 0x80) * 0x40 + (b2 - 0x80)), [b0; b1; b2], r2, s'.
    split; auto. split; auto. split; [discriminate|]. split; auto.
    unfold utf8_char, in_range. clear I1 I2 OM E. dec_bool; f_equal; f_equal; [|f_equal; [|f_equal]| |f_equal;[|f_equal]]; lia. }
  destruct ((0xF0 <=? b0) && (b0 <=? 0xF4)) eqn:E4; [|discriminate].
  apply andb_true_iff in E4. rewrite !N.leb_le in E4.
  destruct r0 as [|b1 [|b2 [|b3 r3]]]; try discriminate.
  destruct (is_cont b1) eqn:C1; [|discriminate]. destruct (is_cont b2) eqn:C2; [|discriminate].
  destruct (is_cont b3) eqn:C3; [|discriminate].
  unfold is_cont, in_range in C1, C2, C3.
  apply andb_true_iff in C1. apply andb_true_iff in C2. apply andb_true_iff in C3.
  rewrite !N.leb_le in C1, C2, C3. simpl in E.
  destruct (implb (b0 =? 0xF0) (0x90 <=? b1)) eqn:I1; [|discriminate].
  destruct (implb (b0 =? 0xF4) (b1 <=? 0x8F)) eqn:I2; [|discriminate].
  assert (J1 : b0 = 0xF0 -> 0x90 <= b1).
  { intros ->. simpl in I1. apply N.leb_le in I1. auto. }
  assert (J2 : b0 = 0xF4 -> b1 <= 0x8F).
  { intros ->. simpl in I2. apply N.leb_le in I2. auto. }
  simpl in E. apply OM in E. destruct E as [s' [-> E]].
  exists ((b0 - 0xF0) * 0x40000 + (b1 - 0x80) * 0x1000 + (b2 - 0x80) * 0x40 + (b3 - 0x80)), [b0; b1; b2; b3], r3, s'.
  split; auto. split; auto. split; [discriminate|]. split; auto.
  unfold utf8_char. clear I1 I2 OM E. dec_bool; f_equal; f_equal; [|f_equal; [|f_equal; [|f_equal]]]; lia.
Qed.

Lemma encode_decode b s : utf8_decode b = Some s -> utf8_encode s = Some b.
Proof.
  remember (length b) as n eqn:EN. assert (L : (length b <= n)%nat) by lia. clear EN.
  revert b s L. induction n as [|n IH]; intros b s L E.
  - destruct b; [|simpl in L; lia]. simpl in E. inversion E. reflexivity.
  - destruct b as [|b0 b]; [simpl in E; inversion E; reflexivity|].
    destruct (decode_step _ _ E) as (c & x & r & s' & -> & EB & NX & EC & ER); [discriminate|].
    simpl. rewrite EC. rewrite (IH r s').
    + rewrite EB. reflexivity.
    + rewrite EB in L. rewrite app_length in L. destruct x; [congruence|]. simpl in L. lia.
    + auto.
Qed.

Theorem utf8_inverse b s : utf8_decode b = Some s <-> utf8_encode s = Some b.
Proof. split; [apply encode_decode | apply decode_encode]. Qed.

Lemma encode_app u v : utf8_encode (u ++ v) =
  match utf8_encode u, utf8_encode v with Some a, Some b => Some (a ++ b) | _, _ => None end.
Proof.
  induction u as [|c u IH]; simpl.
  - destruct (utf8_encode v); reflexivity.
  - rewrite IH. destruct (utf8_char c); auto. destruct (utf8_encode u); auto.
    destruct (utf8_encode v); auto. rewrite app_assoc. reflexivity.
Qed.

(** a text ends with an ASCII character exactly if its encoding does *)
Lemma decode_last_ascii b t c : c < 0x80 -> utf8_decode b = Some (t ++ [c]) -> exists b', b = b' ++ [c].
Proof.
  intros L E. apply encode_decode in E. rewrite encode_app in E.
  destruct (utf8_encode t) as [a|]; [|discriminate]. simpl in E. unfold utf8_char in E.
  destruct (N.ltb_spec c 0x80); [|lia]. inversion E. eauto.
Qed.
