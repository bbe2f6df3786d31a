(** * Soundness of the boolean checks of [Demo] *)
From Verif Require Import PyBase PyNum ModelFinalseg ModelSeg ModelDict SpecBase SpecSeg ProofsBase Demo.

Lemma sget_In {V} (d : sdict V) k v : sget d k = Some v -> In (k, v) d.
Proof. apply dget_In. apply str_eqb_eq. Qed.

Lemma prefix_closedb_ok fr : prefix_closedb fr = true -> prefix_closed (sget fr).
Proof.
  unfold prefix_closedb, prefix_closed. rewrite forallb_forall. intros A u v NE HN.
  destruct (sget fr (u ++ v)) as [n|] eqn:E; [|congruence].
  apply sget_In in E. apply A in E. rewrite forallb_forall in E. simpl in E.
  specialize (E (length u)). rewrite firstn_app, firstn_all, Nat.sub_diag in E. simpl in E.
  rewrite app_nil_r in E. rewrite smem_sget in E.
  destruct (sget fr u); [discriminate|].
  intros _. assert (false = true); [|discriminate]. apply E. apply in_seq. rewrite app_length.
  destruct u; [congruence|]. simpl. lia.
Qed.

Lemma saneb_ok fr total : saneb fr total = true -> sane (sget fr) total.
Proof.
  unfold saneb, sane. rewrite andb_true_iff, forallb_forall, Z.ltb_lt. intros [T A]. split; auto.
  intros w n E. apply sget_In in E. apply A in E. simpl in E. apply Z.leb_le; auto.
Qed.

Lemma demo_sane : sane (sget demo_fr) demo_total.
Proof. apply saneb_ok. vm_compute. reflexivity. Qed.
Lemma demo_prefix_closed : prefix_closed (sget demo_fr).
Proof. apply prefix_closedb_ok. vm_compute. reflexivity. Qed.
