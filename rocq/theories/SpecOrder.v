(** * When two tokenizers hold the same dictionary *)
From Verif Require Import PyBase PyNum ModelSeg ModelDict SpecBase SpecSeg.

(** the same frequencies, total, pending tags and forced splits; the order in which
    they are stored does not count *)
Definition same_dict (d d' : dstate) : Prop :=
  (forall k, sget (d_freq d) k = sget (d_freq d') k) /\
  d_total d = d_total d' /\
  (forall k, sget (d_tags d) k = sget (d_tags d') k) /\
  (forall x, In x (d_force d) <-> In x (d_force d')).
