(** * The start and transition tables that the tagger ships *)
From Flocq Require Import BinarySingleNaN.
From Verif Require Import PyBase PyNum ModelPosseg InstB64 B64Lit DataPosseg DataPossegOk DataPossegNum.

(** [start_P[y]], posseg/prob_start.py *)
Definition pos_start_num (y : pstate) : option (Z * Z) :=
  match dget pstate_eqb (combine pos_states pos_start_nums) y with Some o => o | None => None end.

(** [trans_P[x][y]], posseg/prob_trans.py; only asked for pairs in the table *)
Definition pos_trans_num (x y : pstate) : Z * Z :=
  match dget pstate_eqb (combine pos_states (combine pos_trans_rows pos_trans_nums)) x with
  | Some (js, ns) =>
      match find (fun p => pstate_eqb (pos_state (fst p)) y) (combine js ns) with Some p => snd p | None => (0, 0)%Z end
  | None => (0, 0)%Z
  end.

(** the tables with the emission numbers [e] of posseg/prob_emit.py *)
Definition tagger_tables (lg : Z -> b64) (e : pstate -> char -> option b64) : ptables (numB lg) :=
  shipped (numB lg) (mkPv (numB lg)
    (fun y => match pos_start_num y with Some me => b64_of me | None => b64_min_float end)
    (fun x y => b64_of (pos_trans_num x y))
    e).
