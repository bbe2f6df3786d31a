(** * Where caches are by default (C46)

    What is assumed of the system when no tokenizer has [tmp_dir] or [cache_file]
    set. *)
From Verif Require Import PyBase PyNum ModelFinalseg ModelSeg ModelDict ModelApi ModelInit ModelWorld.

(** a plain file name *)
Definition no_slash (x : str) : Prop := ~ In 47%N x.

(** md5 has no collision on the paths in question and its digest is a plain name;
    joining the temporary directory with different plain names gives different
    paths; marshal reads back what it wrote *)
Record system_ok (e : env) : Prop := {
  so_marshal : forall x, e_load e (e_dump e x) = Some x;
  so_md5 : forall a b, e_md5 e a = e_md5 e b -> a = b;
  so_digest : forall a, no_slash (e_md5 e a);
  so_join : forall x y, no_slash x -> no_slash y -> e_join e (e_tmp e) x = e_join e (e_tmp e) y -> x = y;
}.

(** no [tmp_dir], no [cache_file] *)
Definition default_places (m : mem) : Prop := m_tmpdir m = None /\ m_cache m = None.

(** a file lies directly in the temporary directory *)
Definition in_tmp (e : env) (p : path) : Prop := exists x, no_slash x /\ p = e_join e (e_tmp e) x.

(** what is left behind when a cache is given up is a file "tmp..." *)
Definition leaves_tmp (e : env) (how : dumping) : Prop :=
  forall q b, how = NotDumped (Some (q, b)) ->
    exists x, no_slash x /\ q = e_join e (e_tmp e) ([116; 109; 112]%N ++ x).

(** calls only: nobody else changes files *)
Definition calls_only (e : env) (ev : event) : Prop :=
  match ev with
  | EInit _ _ how | ECall _ _ how => leaves_tmp e how
  | EFiles _ _ => False
  | _ => True
  end.
