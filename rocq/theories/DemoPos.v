(** * Concrete tables for the examples about tagging *)
From Coq Require Import QArith Permutation.
From Verif Require Import PyBase PyNum SpecNum SpecDict InstQ InstSign InstExt ModelPosseg SpecPosseg DataPossegOk Demo.

(** rationals with minus infinity *)
Definition numE : Num := ext_num numQ.
Definition orderE : NumOrder numE := ext_order numQ orderQ (fun _ => I).

Definition signE : NumSign numE.
Proof.
  refine (@Build_NumSign numE (fun x => match x with Some a => s_nn signQ a | None => False end) _ _ _ _);
    cbn [F f_of_Z f_mul f_div f_trunc numE ext_num].
  - intros n x L E. destruct (f_of_Z numQ n) as [a|] eqn:EA; [|discriminate]. inversion E; subst.
    eapply s_of_Z; eauto.
  - intros [a|] [b|] A B; try contradiction. apply s_mul; auto.
  - intros [a|] [b|] A B; try contradiction. apply s_div; auto.
  - intros [a|] n A E; [|contradiction]. eapply s_trunc; eauto.
Defined.

(** numbers for the shipped tables: single characters are unlikely *)
Definition demo_v : pvalues numE :=
  @mkPv numE
    (fun y => Some (if ((fst y =? l_B) || (fst y =? l_S))%N then inject_Z 0 else inject_Z (-1000)))
    (fun x y => Some (inject_Z (-1)))
    (fun y c => Some (Some (if (fst y =? l_S)%N then inject_Z (-5) else inject_Z (-2)))).
Definition demo_T : ptables numE := shipped numE demo_v.

(** sets are visited as listed; or backwards *)
Definition demo_ord : orders := fun _ _ l => l.
Definition back_ord : orders := fun _ _ l => rev l.

Lemma demo_fair : fair_order demo_ord.
Proof. intros obs t l _. apply Permutation_refl. Qed.
Lemma back_fair : fair_order back_ord.
Proof. intros obs t l _. apply Permutation_rev. Qed.

Lemma demo_v_ok :
  (forall y, i_fin infQ 1 (v_start demo_v y)) /\ (forall x y, i_fin infQ 1 (v_trans demo_v x y)) /\
  (forall y c x, v_emit demo_v y c = Some x -> i_fin infQ 1 x).
Proof.
  split; [|split]; cbn; try discriminate.
  intros y c x E. injection E as <-. discriminate.
Qed.
