(** * Checking that a concrete dictionary is healthy *)
From Verif Require Import PyBase PyNum ModelFinalseg ModelSeg ModelDict SpecBase SpecSeg SpecDict SpecHealth ProofsBase Demo ProofsDemo.

Fixpoint nodupb (l : list str) : bool :=
  match l with [] => true | x :: l' => negb (str_in x l') && nodupb l' end.
Definition healthyb (fr : freqs) (total : Z) : bool :=
  prefix_closedb fr && saneb fr total && nodupb (map fst fr) && (sum_of fr <=? total)%Z.

Lemma nodupb_ok l : nodupb l = true -> NoDup l.
Proof.
  induction l as [|x l IH]; simpl; [constructor|]. rewrite andb_true_iff, negb_true_iff. intros [A B].
  constructor; auto. rewrite <- str_in_In. congruence.
Qed.

Lemma healthyb_ok fr total : healthyb fr total = true -> healthy fr total.
Proof.
  unfold healthyb. rewrite !andb_true_iff. intros [[[A B] C] D].
  split; [apply prefix_closedb_ok; auto|]. unfold saneb in B. rewrite andb_true_iff, forallb_forall, Z.ltb_lt in B.
  destruct B as [B1 B2]. split; auto. split; [apply nodupb_ok; auto|]. split.
  - intros w n HI. apply B2 in HI. apply Z.leb_le in HI. auto.
  - apply Z.leb_le; auto.
Qed.

Lemma demo_healthy : healthy demo_fr demo_total.
Proof. apply healthyb_ok. vm_compute. reflexivity. Qed.
