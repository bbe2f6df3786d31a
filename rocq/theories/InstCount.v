(** * The counting laws of [SpecAnalyse.NumCount] for the arithmetics *)
From Coq Require Import Reals Lra QArith Qcanon.
From Flocq Require Import Core BinarySingleNaN.
From Verif Require Import PyBase PyNum SpecNum ModelAnalyse SpecAnalyse InstR InstQ InstB64 InstExt.

Definition countR : NumCount numR orderR.
Proof.
  refine (@Build_NumCount numR orderR (fun _ => True) _ _ _ _ (fun _ => True) _);
    unfold lit; cbn [F f_of_Z f_add f_zero f_eq o_dom orderR numR]; auto.
  - intros n m _ _ _. rewrite plus_IZR. auto.
  - intros n P _. apply Reqb_false. apply Rgt_not_eq. apply IZR_lt in P. lra.
Defined.

Definition countQ : NumCount numQ orderQ.
Proof.
  refine (@Build_NumCount numQ orderQ (fun _ => True) _ _ _ _ (fun _ => True) _);
    unfold lit; cbn [F f_of_Z f_add f_zero f_eq o_dom orderQ numQ]; auto.
  - intros n m _ _ _. unfold inject_Z, Qplus. cbn [Qnum Qden]. rewrite !Z.mul_1_r. cbn [Pos.mul].
    apply Qred_identity. cbn [Qnum Qden]. apply Z.gcd_1_r.
  - intros n P _. unfold Qeq_bool. cbn. rewrite Z.mul_1_r. destruct n; auto; lia.
Defined.

(** ** Binary64 *)

Local Open Scope R_scope.

Lemma format_int n : (0 <= n < 2 ^ 53)%Z -> generic_format radix2 (SpecFloat.fexp 53 1024) (IZR n).
Proof.
  intros B. change (SpecFloat.fexp 53 1024) with (FLT_exp (-1074) 53).
  apply generic_format_FLT. exists {| Fnum := n; Fexp := 0 |}.
  - unfold F2R. cbn [Fnum Fexp bpow]. lra.
  - cbn [Fnum]. rewrite Z.abs_eq by lia. exact (proj2 B).
  - cbn [Fexp]. lia.
Qed.

Lemma small_lt_M n : (0 <= n < 2 ^ 53)%Z -> Rabs (IZR n) < bpow radix2 1024.
Proof.
  intros B. rewrite Rabs_pos_eq by (apply IZR_le; lia).
  apply Rlt_trans with (bpow radix2 53); [|apply bpow_lt; lia].
  change (bpow radix2 53) with (IZR (2 ^ 53)). apply IZR_lt. lia.
Qed.

(** small integers are exact *)
Lemma litB lg n : (0 <= n < 2 ^ 53)%Z ->
  is_finite (lit (numB lg) n : b64) = true /\ B2R (lit (numB lg) n : b64) = IZR n /\
  Bsign (lit (numB lg) n : b64) = false.
Proof.
  intros B. unfold lit. cbn [f_of_Z numB]. unfold b64_of_Z.
  pose proof (binary_normalize_correct 53 1024 prec53 emax1024 mode_NE n 0 false) as C. cbv zeta in C.
  set (z := binary_normalize 53 1024 prec53 emax1024 mode_NE n 0 false) in *.
  assert (E : @F2R radix2 {| Fnum := n; Fexp := 0 |} = IZR n) by (unfold F2R; cbn [Fnum Fexp bpow]; lra).
  rewrite E in C. rewrite round_generic in C; [|apply valid_rnd_N|apply format_int; auto].
  rewrite Rlt_bool_true in C by (apply small_lt_M; auto). destruct C as (C1 & C2 & C3).
  rewrite C2. split; auto. split; auto. rewrite C3.
  destruct (Rcompare_spec (IZR n) 0) as [L| |]; auto.
  destruct B as [B _]. apply IZR_le in B. lra.
Qed.

Lemma litB_pos lg n : (0 < n < 2 ^ 53)%Z ->
  exists m e B, (lit (numB lg) n : b64) = B754_finite false m e B.
Proof.
  intros L. destruct (litB lg n ltac:(lia)) as (FI & V & S).
  destruct (lit (numB lg) n : b64) as [s|s| |s m e B]; try discriminate.
  - cbn in V. apply eq_IZR in V. lia.
  - cbn in S. subst s. eauto.
Qed.

Lemma Bdiv_not_nan (x : b64) m e B : not_nan x -> not_nan (Bdiv mode_NE x (B754_finite false m e B)).
Proof.
  intros N. destruct x as [s|s| |s m' e' B']; try reflexivity; try discriminate.
  assert (NZ : B2R (B754_finite false m e B : b64) <> 0) by (apply Rgt_not_eq; apply F2R_gt_0; reflexivity).
  pose proof (Bdiv_correct 53 1024 prec53 emax1024 mode_NE (B754_finite s m' e' B') _ NZ) as C.
  destruct (Rlt_bool _ _).
  - destruct C as (_ & C & _). unfold not_nan. destruct (Bdiv _ _ _); auto; discriminate.
  - unfold not_nan. destruct (Bdiv _ _ _); auto. discriminate C.
Qed.

Lemma Bmult_not_nan (x : b64) m e B : not_nan x -> not_nan (Bmult mode_NE (B754_finite false m e B) x).
Proof.
  intros N. destruct x as [s|s| |s m' e' B']; try reflexivity; try discriminate.
  pose proof (Bmult_correct 53 1024 prec53 emax1024 mode_NE (B754_finite false m e B) (B754_finite s m' e' B')) as C.
  destruct (Rlt_bool _ _).
  - destruct C as (_ & C & _). unfold not_nan. destruct (Bmult _ _ _); auto; discriminate.
  - unfold not_nan. destruct (Bmult _ _ _); auto. discriminate C.
Qed.

Definition countB (lg : Z -> b64) (LO : log_ok lg) : NumCount (numB lg) (orderB lg LO).
Proof.
  refine (@Build_NumCount (numB lg) (orderB lg LO) (fun n => (n < 2 ^ 53)%Z) _ _ _ _ not_nan _).
  - intros n m A B. lia.
  - reflexivity.
  - intros n m N M L. cbn [F f_add numB].
    destruct (litB lg n ltac:(lia)) as (F1 & V1 & S1). destruct (litB lg m ltac:(lia)) as (F2 & V2 & S2).
    destruct (litB lg (n + m) ltac:(lia)) as (F3 & V3 & S3).
    pose proof (Bplus_correct 53 1024 prec53 emax1024 mode_NE _ _ F1 F2) as C.
    rewrite V1, V2, <- plus_IZR in C.
    rewrite round_generic in C; [|apply valid_rnd_N|apply format_int; lia].
    rewrite Rlt_bool_true in C by (apply small_lt_M; lia). destruct C as (C1 & C2 & C3).
    apply B2R_Bsign_inj; auto; try congruence.
    rewrite C3, S1, S2, S3. destruct (Rcompare_spec (IZR (n + m)) 0) as [A| |]; auto.
    apply lt_IZR in A. lia.
  - intros n P L. destruct (litB_pos lg n ltac:(lia)) as (m & e & B & E).
    cbn [F f_eq f_zero numB]. rewrite E. reflexivity.
  - intros x n t X N L. cbn [F o_dom orderB f_mul f_div numB].
    destruct (litB_pos lg n ltac:(lia)) as (m & e & B & E).
    destruct (litB_pos lg t ltac:(lia)) as (m' & e' & B' & E').
    rewrite E, E'. apply Bmult_not_nan, Bdiv_not_nan. auto.
Defined.

(** ** With minus infinity *)

Definition ext_count (num : Num) (o : NumOrder num) (all : forall x, o_fin o x) (C : NumCount num o) :
  (forall n, f_of_Z num n <> None) -> NumCount (ext_num num) (ext_order num o all).
Proof.
  intros TOT.
  assert (LIT : forall n, lit (ext_num num) n = Some (lit num n)).
  { intros n. unfold lit. cbn [f_of_Z ext_num]. specialize (TOT n). destruct (f_of_Z num n); [reflexivity|congruence]. }
  refine (@Build_NumCount (ext_num num) (ext_order num o all) (c_lim C) (c_lim_le _ _ C) _ _ _
            (fun x => match x with Some a => c_idf C a | None => False end) _).
  - rewrite LIT, (c_zero _ _ C). reflexivity.
  - intros n m N M L. rewrite !LIT. cbn [f_add ext_num]. rewrite (c_add _ _ C); auto.
  - intros n P L. rewrite LIT. cbn [f_eq f_zero ext_num]. apply (c_nz _ _ C); auto.
  - intros [x|] n t X N L; [|contradiction]. rewrite !LIT. cbn. discriminate.
Defined.
