(** * The tables that finalseg ships *)
From Flocq Require Import BinarySingleNaN.
From Verif Require Import PyBase PyNum ModelFinalseg InstB64 B64Lit DataFinalseg.

(** finalseg/prob_start.py:1-4; [None] stands for -3.14e+100 *)
Definition start_table (y : label) : option (Z * Z) :=
  match y with
  | LB => Some (-4732141241282413, -54) | LS => Some (-6598959431365077, -52) | _ => None
  end%Z.

(** finalseg/prob_trans.py:1-4 *)
Definition trans_table (a y : label) : option (Z * Z) :=
  match a, y with
  | LB, LE => Some (-4601108177687627, -53) | LB, LM => Some (-8253213197262967, -53)
  | LE, LB => Some (-5311680271489201, -53) | LE, LS => Some (-7282546204984131, -53)
  | LM, LE => Some (-6006875388520555, -54) | LM, LM => Some (-5676167554047789, -52)
  | LS, LB => Some (-3247980583497991, -52) | LS, LS => Some (-5997562022321019, -53)
  | _, _ => None
  end%Z.

(** finalseg/prob_emit.py: [emit_P[y].get(c)] *)
Definition pick (y : label) (n : num4) : option (Z * Z) :=
  let '(b, m, e, s) := n in match y with LB => b | LM => m | LE => e | LS => s end.
Definition row {A} (k : N) (t : list (N * A)) : option A :=
  match find (fun p => (fst p =? k)%N) t with Some p => Some (snd p) | None => None end.
Definition emit_row (c : char) : option num4 :=
  match row (N.shiftr c 8) emit_table with Some t => row (N.land c 255) t | None => None end.
Definition emit_entry (y : label) (c : char) : option (Z * Z) :=
  match emit_row c with Some n => pick y n | None => None end.

(** [start_P, trans_P, emit_P], finalseg/__init__.py:24-34 *)
Definition shipped (lg : Z -> b64) : hmm (numB lg) :=
  mkHmm (numB lg)
    (fun y => match start_table y with Some me => b64_of me | None => b64_min_float end)
    (fun a y => match trans_table a y with Some me => Some (b64_of me : F (numB lg)) | None => None end)
    (fun y c => match emit_entry y c with Some me => Some (b64_of me : F (numB lg)) | None => None end).
