(** * Exact real arithmetic *)
From Coq Require Import Reals Lra.
From Verif Require Import PyBase PyNum SpecNum.
Local Open Scope R_scope.

(** [int(x)] truncates towards zero *)
Definition Rtrunc (x : R) : Z :=
  if Rle_dec 0 x then (up x - 1)%Z else (1 - up (- x))%Z.

Definition Rltb (x y : R) : bool := if Rlt_dec x y then true else false.
Definition Reqb (x y : R) : bool := if Req_EM_T x y then true else false.

(** minus infinity has no counterpart; a negative number below -3.14e100 stands
    in for it (only posseg uses it) *)
Definition numR : Num := {|
  F := R;
  f_zero := 0;
  f_add := Rplus;
  f_sub := Rminus;
  f_mul := Rmult;
  f_div := Rdiv;
  f_lt := Rltb;
  f_eq := Reqb;
  f_of_Z := fun n => Some (IZR n);
  f_trunc := fun x => Ok (Rtrunc x);
  f_log := fun n => ln (IZR n);
  f_min_float := IZR (- (314 * 10 ^ 98));
  f_neg_inf := IZR (- (10 ^ 1000));
|}.

Lemma Rltb_true x y : Rltb x y = true <-> x < y.
Proof. unfold Rltb. destruct (Rlt_dec x y); split; auto; discriminate. Qed.
Lemma Rltb_false x y : Rltb x y = false <-> y <= x.
Proof. unfold Rltb. destruct (Rlt_dec x y); split; auto; try discriminate; lra. Qed.
Lemma Reqb_true x y : Reqb x y = true <-> x = y.
Proof. unfold Reqb. destruct (Req_EM_T x y); split; auto; discriminate. Qed.
Lemma Reqb_false x y : Reqb x y = false <-> x <> y.
Proof. unfold Reqb. destruct (Req_EM_T x y); split; auto; try discriminate; contradiction. Qed.

Definition orderR : NumOrder numR.
Proof.
  refine (@Build_NumOrder numR (fun _ => True) (fun _ => True) (fun x => x)
            _ _ _ _ _ _ _ _ _ _); simpl; auto; intros.
  - apply Rltb_true.
  - apply Reqb_true.
  - lra.
  - lra.
Defined.

(** truncation of a non-negative number *)
Lemma Rtrunc_spec x : 0 <= x -> IZR (Rtrunc x) <= x < IZR (Rtrunc x) + 1.
Proof.
  intros P. unfold Rtrunc. destruct (Rle_dec 0 x); [|lra].
  destruct (archimed x) as [A B]. rewrite minus_IZR. lra.
Qed.

Lemma Rtrunc_IZR n : (0 <= n)%Z -> Rtrunc (IZR n) = n.
Proof.
  intros P. pose proof (Rtrunc_spec (IZR n) (IZR_le _ _ P)) as [A B].
  rewrite <- plus_IZR in B. apply le_IZR in A. apply lt_IZR in B. lia.
Qed.
