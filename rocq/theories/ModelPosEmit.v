(** * The emission table that the tagger ships *)
From Flocq Require Import BinarySingleNaN.
From Verif Require Import PyBase PyNum ModelPosseg InstB64 B64Lit DataPosseg DataPossegOk ModelPosTables
  DataPossegEmitB DataPossegEmitE DataPossegEmitM DataPossegEmitS.

(** the rows of posseg/prob_emit.py, in the order of [pos_states] *)
Definition pos_emit_rows : list (list (Z * Z * list N)) := pos_emit_B ++ pos_emit_E ++ pos_emit_M ++ pos_emit_S.

(** [emit_P[y].get(c)] for a table with the rows [rows] *)
Definition emit_in (rows : list (list (Z * Z * list N))) (y : pstate) (c : char) : option (Z * Z) :=
  match dget pstate_eqb (combine pos_states rows) y with
  | Some row => option_map fst (find (fun p => existsb (N.eqb c) (snd p)) row)
  | None => None
  end.
(** posseg/prob_emit.py *)
Definition pos_emit_num : pstate -> char -> option (Z * Z) := emit_in pos_emit_rows.

(** the same as binary64 numbers *)
Definition emissions (y : pstate) (c : char) : option b64 := option_map b64_of (pos_emit_num y c).

(** the four tables that posseg/__init__.py:35-41 imports (CPython: the .py files), with
    their numbers *)
Definition tagger (lg : Z -> b64) : ptables (numB lg) := tagger_tables lg emissions.
