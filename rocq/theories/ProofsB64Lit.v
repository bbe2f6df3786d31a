(** * Facts used for the shipped tables *)
From Coq Require Import Reals Lra.
From Flocq Require Import Core BinarySingleNaN.
From Verif Require Import PyBase PyRegex PyNum ModelFinalseg ModelSeg SpecBase SpecSeg SpecUnknown InstB64 InstB64Ext B64Lit
  ProofsBase ProofsFinalseg ProofsNoHmm ProofsSuggest ProofsMode ProofsUnknown.

Definition entry_small (o : option (Z * Z)) : bool :=
  match o with
  | Some (m, e) => (Z.abs m <? 2 ^ 53)%Z && (-1074 <=? e)%Z && (e <=? 0)%Z
                   && ((e <=? -48) || (Z.abs m <=? Z.shiftl 32 (- e)))%Z
  | None => true
  end.
Lemma b64_of_small m e : (Z.abs m < 2 ^ 53)%Z -> (-1074 <= e <= 0)%Z -> small (b64_of (m, e)).
Proof.
  intros BM BE. unfold b64_of. cbn [fst snd].
  pose proof (binary_normalize_correct 53 1024 _ _ mode_NE m e false) as BC. cbv zeta in BC.
  assert (B : (Rabs (F2R (Float radix2 m e)) <= bpow radix2 53)%R).
  { unfold F2R. cbn [Fnum Fexp]. rewrite Rabs_mult, <- abs_IZR, (Rabs_right (bpow radix2 e)) by (apply Rle_ge, bpow_ge_0).
    rewrite <- (Rmult_1_r (bpow radix2 53)). apply Rmult_le_compat.
    - apply IZR_le. lia.
    - apply bpow_ge_0.
    - change (bpow radix2 53) with (IZR (2 ^ 53)). apply IZR_le. lia.
    - change 1%R with (bpow radix2 0). apply bpow_le. lia. }
  assert (R : (Rabs (round radix2 (SpecFloat.fexp 53 1024) (round_mode mode_NE) (F2R (Float radix2 m e))) <= bpow radix2 53)%R).
  { apply abs_round_le_generic; auto.
    - apply fexp_correct. reflexivity.
    - apply valid_rnd_round_mode.
    - apply generic_format_bpow. unfold SpecFloat.fexp, SpecFloat.emin. lia. }
  rewrite Rlt_bool_true in BC by (eapply Rle_lt_trans; [exact R|apply bpow_lt; lia]).
  destruct BC as (BV & BF & _). split; auto. rewrite BV. eapply Rle_trans; [exact R|]. apply bpow_le. lia.
Qed.

Lemma entry_small_ok me : entry_small (Some me) = true -> small (b64_of me).
Proof.
  destruct me as [m e]. cbn [entry_small]. intros X. apply andb_prop in X. destruct X as [X _].
  apply andb_prop in X. destruct X as [X X3]. apply andb_prop in X. destruct X as [X1 X2].
  apply Z.ltb_lt in X1. apply Z.leb_le in X2, X3. apply b64_of_small; auto.
Qed.

(** ... and it is at most 32 *)
Lemma b64_of_32 m e : (Z.abs m < 2 ^ 53)%Z -> (-1074 <= e <= 0)%Z -> (e <= -48 \/ Z.abs m <= Z.shiftl 32 (- e))%Z ->
  is_finite (b64_of (m, e)) = true /\ (Rabs (B2R (b64_of (m, e))) <= 32)%R.
Proof.
  intros BM BE B32. split; [apply b64_of_small; auto|]. unfold b64_of. cbn [fst snd].
  pose proof (binary_normalize_correct 53 1024 _ _ mode_NE m e false) as BC. cbv zeta in BC.
  assert (B : (Rabs (F2R (Float radix2 m e)) <= 32)%R).
  { unfold F2R. cbn [Fnum Fexp]. rewrite Rabs_mult, <- abs_IZR, (Rabs_right (bpow radix2 e)) by (apply Rle_ge, bpow_ge_0).
    destruct B32 as [L|L].
    - replace 32%R with (bpow radix2 53 * bpow radix2 (-48))%R by (rewrite <- bpow_plus; reflexivity).
      apply Rmult_le_compat; [apply IZR_le; lia|apply bpow_ge_0| |apply bpow_le; auto].
      change (bpow radix2 53) with (IZR (2 ^ 53)). apply IZR_le. lia.
    - rewrite Z.shiftl_mul_pow2 in L by lia. apply IZR_le in L. rewrite mult_IZR in L.
      replace 32%R with (32 * (bpow radix2 (- e) * bpow radix2 e))%R
        by (rewrite <- bpow_plus, Z.add_opp_diag_l; cbn [bpow]; lra).
      rewrite <- Rmult_assoc. apply Rmult_le_compat_r; [apply bpow_ge_0|].
      replace (bpow radix2 (- e)) with (IZR (2 ^ (- e))); auto. rewrite <- IZR_Zpower by lia. reflexivity. }
  assert (R : (Rabs (round radix2 (SpecFloat.fexp 53 1024) (round_mode mode_NE) (F2R (Float radix2 m e))) <= 32)%R).
  { apply abs_round_le_generic; auto.
    - apply fexp_correct. reflexivity.
    - apply valid_rnd_round_mode.
    - change 32%R with (bpow radix2 5). apply generic_format_bpow. unfold SpecFloat.fexp, SpecFloat.emin. lia. }
  rewrite Rlt_bool_true in BC.
  2:{ eapply Rle_lt_trans; [exact R|]. change 32%R with (bpow radix2 5). apply bpow_lt. lia. }
  destruct BC as (BV & _ & _). rewrite BV. exact R.
Qed.
Lemma entry_32 me : entry_small (Some me) = true ->
  is_finite (b64_of me) = true /\ (Rabs (B2R (b64_of me)) <= 32)%R.
Proof.
  destruct me as [m e]. cbn [entry_small]. intros X. apply andb_prop in X. destruct X as [X X4].
  apply andb_prop in X. destruct X as [X X3]. apply andb_prop in X. destruct X as [X1 X2].
  apply Z.ltb_lt in X1. apply Z.leb_le in X2, X3. apply b64_of_32; auto.
  apply orb_true_iff in X4. destruct X4 as [X4|X4]; apply Z.leb_le in X4; auto.
Qed.

(** a text without dictionary words of two or more characters *)
Lemma chosen_singles num fr total s :
  sane (sget fr) total -> prefix_closed (sget fr) ->
  (forall a w b, s = a ++ w ++ b -> is_word (sget fr) w -> length w = 1) ->
  chosen num fr total s = map (fun x => [x]) s.
Proof.
  intros SA PC NW. pose proof (chosen_candidate num s SA PC) as CA. revert CA. generalize (chosen num fr total s).
  intros l. revert s NW. induction l as [|w l IH]; intros s NW CA; cbn in CA.
  - subst. reflexivity.
  - destruct CA as (t & -> & NE & W & CA).
    assert (LW : length w = 1).
    { destruct W as [W|[W _]]; auto. apply (NW [] w t); auto. }
    destruct w as [|x [|y w]]; try discriminate. cbn. f_equal. apply IH; auto.
    intros a w b E. apply (NW ([x] ++ a) w b). rewrite E. rewrite <- !app_assoc. reflexivity.
Qed.
