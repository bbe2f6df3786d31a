(** * A small concrete dictionary, for the examples beside the theorems *)
From Coq Require Import QArith.
From Verif Require Import PyBase PyNum ModelFinalseg ModelSeg ModelDict SpecBase SpecSeg InstQ.
Local Open Scope N_scope.

(** 北 京 大 学 生 来 到 *)
Definition c_bei : char := 0x5317.  Definition c_jing : char := 0x4EAC.
Definition c_da : char := 0x5927.   Definition c_xue : char := 0x5B66.
Definition c_sheng : char := 0x751F. Definition c_lai : char := 0x6765.
Definition c_dao : char := 0x5230.
Definition c_comma : char := 0xFF0C.   (* ， *)

(** lines of a dictionary file, as a table *)
Definition build (ws : list (str * Z)) : dstate :=
  fold_left (fun d wf => add_word_freq d (fst wf) (snd wf) None) ws (mkD [] 0 [] []).

Definition demo : dstate :=
  build [([c_bei; c_jing], 30%Z); ([c_da; c_xue], 20%Z); ([c_bei; c_jing; c_da; c_xue], 10%Z);
         ([c_da; c_xue; c_sheng], 5%Z); ([c_lai], 8%Z); ([c_dao], 9%Z); ([c_lai; c_dao], 15%Z);
         ([c_sheng], 3%Z)].
Definition demo_fr : freqs := d_freq demo.
Definition demo_total : Z := d_total demo.

(** an HMM table: everything is as likely as everything else *)
Definition demo_hmm : hmm numQ :=
  @mkHmm numQ
    (fun y => match y with LB | LS => (0%Q : F numQ) | _ => inject_Z (-1000) end)
    (fun _ _ => Some (inject_Z (-1) : F numQ))
    (fun y c => match y with LS => Some (inject_Z (-5) : F numQ) | _ => Some (inject_Z (-2)) end).

(** 来到北京大学生，abc 12。 *)
Definition demo_text : str :=
  [c_lai; c_dao; c_bei; c_jing; c_da; c_xue; c_sheng; c_comma; 97; 98; 99; 32; 49; 50; 13; 10].

(** deciding the hypotheses of the theorems on concrete tables *)
Definition prefix_closedb (fr : freqs) : bool :=
  forallb (fun kv => forallb (fun n => smem fr (firstn n (fst kv))) (seq 1 (length (fst kv)))) fr.
Definition saneb (fr : freqs) (total : Z) : bool :=
  (0 <? total)%Z && forallb (fun kv => (0 <=? snd kv)%Z) fr.
