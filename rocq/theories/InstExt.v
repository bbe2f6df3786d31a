(** * Exact numbers with minus infinity *)
From Coq Require Import Reals Lra QArith.
From Verif Require Import PyBase PyNum SpecNum SpecPosseg InstR InstQ.

(** [num] with one more number, minus infinity ([None]); operations other than
    addition and comparison are only used on numbers of [num] *)
Definition ext_num (num : Num) : Num :=
  let lift (f : F num -> F num -> F num) (x y : option (F num)) :=
    match x, y with Some a, Some b => Some (f a b) | _, _ => None end in
  {| F := option (F num);
     f_zero := Some (f_zero num);
     f_add := lift (f_add num);
     f_sub := lift (f_sub num);
     f_mul := lift (f_mul num);
     f_div := lift (f_div num);
     f_lt := fun x y => match x, y with
                        | Some a, Some b => f_lt num a b
                        | None, Some _ => true
                        | _, None => false
                        end;
     f_eq := fun x y => match x, y with
                        | Some a, Some b => f_eq num a b
                        | None, None => true
                        | _, _ => false
                        end;
     f_of_Z := fun n => option_map Some (f_of_Z num n);
     f_trunc := fun x => match x with Some a => f_trunc num a | None => Err OverflowError end;
     f_log := fun n => Some (f_log num n);
     f_min_float := Some (f_min_float num);
     f_neg_inf := None |}.

Section Ext.
  Variable num : Num.
  Variable o : NumOrder num.
  Hypothesis all : forall x, o_fin o x.

  Let dom x : o_dom o x := o_fin_dom num o x (all x).

  Lemma ext_lt_iff a b : f_lt num a b = true <-> (o_val o a < o_val o b)%R.
  Proof. apply o_lt; apply dom. Qed.
  Lemma ext_lt_false a b : f_lt num a b = false <-> (o_val o b <= o_val o a)%R.
  Proof.
    destruct (f_lt num a b) eqn:E.
    - apply ext_lt_iff in E. split; [discriminate|lra].
    - split; auto. intros _. apply Rnot_lt_le. intros L. apply ext_lt_iff in L. congruence.
  Qed.

  (** the numbers of [num] are ordered as before *)
  Definition ext_order : NumOrder (ext_num num).
  Proof.
    refine (@Build_NumOrder (ext_num num) (fun x => x <> None) (fun x => x <> None)
              (fun x => match x with Some a => o_val o a | None => 0%R end)
              _ _ _ _ _ _ _ _ _ _); cbn [F f_lt f_eq f_add f_zero f_log f_sub f_min_float ext_num]; auto;
      try discriminate.
    - intros [a|] [b|] A B; try congruence. apply o_lt; apply dom.
    - intros [a|] [b|] A B; try congruence. apply o_eq; apply dom.
    - intros [a|] [b|] A B; congruence.
    - intros [a|] [b|] A B; congruence.
    - intros [a|] [b|] [c|] A B C; try congruence. apply o_mono_l; auto.
    - intros [a|] [b|] [c|] A B C; try congruence. apply o_mono_r; auto.
  Defined.

  Definition ext_inf : NumInf (ext_num num).
  Proof.
    refine (@Build_NumInf (ext_num num) (fun _ x => x <> None) (fun _ => True) (fun x => x = None)
              _ _ _ _ _ _ _ _ _ _ _); cbn [F f_lt f_eq f_add f_min_float f_neg_inf ext_num]; auto.
    - discriminate.
    - intros k [a|] [b|] A B _; congruence.
    - intros k [a|]; auto.
    - intros x y ->. auto.
    - intros j [a|] A; [|congruence]. apply ext_lt_false. lra.
    - intros j k l [a|] [b|] [c|] A B C; try congruence.
      rewrite !ext_lt_iff. lra.
    - intros j k l [a|] [b|] [c|] A B C; try congruence.
      rewrite !ext_lt_iff. intros L. destruct (Rlt_dec (o_val o a) (o_val o b)); auto. right. lra.
    - intros j k [a|] [b|] A B; try congruence.
      destruct (f_eq num a b) eqn:E.
      + apply (o_eq num o) in E; try apply dom.
        symmetry. apply andb_true_intro. rewrite !negb_true_iff, !ext_lt_false. lra.
      + symmetry. apply not_true_iff_false. rewrite andb_true_iff, !negb_true_iff, !ext_lt_false.
        intros [L1 L2]. assert (o_val o a = o_val o b) as V by lra.
        apply (o_eq num o) in V; try apply dom. congruence.
    - intros k x [b|] -> B; [auto|congruence].
    - intros k [a|] [b|] [w|] A B W _; try congruence.
      rewrite !ext_lt_false. apply o_mono_r; auto; apply dom.
  Defined.
End Ext.

Definition infR : NumInf (ext_num numR) := ext_inf numR orderR (fun _ => I).
Definition infQ : NumInf (ext_num numQ) := ext_inf numQ orderQ (fun _ => I).
