(** * Model of jieba/finalseg/__init__.py (the HMM stage) *)
From Verif Require Import PyBase PyRegex PyNum.

(** ** Character classes of the regular expressions *)

(** [一-鿕], finalseg/__init__.py:77 *)
Definition is_han (c : char) : bool := in_range 0x4E00 0x9FD5 c.

(** finalseg/__init__.py:77  [re_han = re.compile("([一-鿕]+)")] *)
Definition fs_re_han : re := RGrp 1 (RPlus is_han).

(** finalseg/__init__.py:78  [re_skip = re.compile("([a-zA-Z0-9]+(?:\.\d+)?%?)")] *)
Definition fs_re_skip : re :=
  RGrp 1 (RSeq (RPlus is_alnum)
         (RSeq (ROpt (RSeq (RStr [46%N]) (RPlus is_decimal)))
               (ROpt (RStr [37%N])))).

(** ** Labels *)

(** the states 'B', 'M', 'E', 'S' *)
Inductive label := LB | LM | LE | LS.

(** their code points, which order them in tuple comparisons *)
Definition label_code (y : label) : N :=
  match y with LB => 66 | LE => 69 | LM => 77 | LS => 83 end.
(** [>] of one-letter strings in [max], finalseg/__init__.py:48,54 *)
Definition label_gt (a b : label) : bool := (label_code b <? label_code a)%N.

(** finalseg/__init__.py:15-20 [PrevStatus] *)
Definition prev_status (y : label) : label * label :=
  match y with
  | LB => (LE, LS)
  | LM => (LM, LB)
  | LS => (LS, LE)
  | LE => (LB, LM)
  end.

Section Finalseg.
  Variable num : Num.

  (** The probability tables [start_P], [trans_P], [emit_P] (finalseg/__init__.py:29-34).
      [start_p[y]], [trans_p[y]] and [emit_p[y]] exist for the four labels in the
      shipped tables; inner look-ups are [.get]. *)
  Record hmm := mkHmm {
    h_start : label -> F num;
    h_trans : label -> label -> option (F num);
    h_emit : label -> char -> option (F num);
  }.
  Variable H : hmm.

  (** [.get(k, MIN_FLOAT)], finalseg/__init__.py:41,47,49 *)
  Definition get_or (o : option (F num)) : F num :=
    match o with Some x => x | None => f_min_float num end.

  (** One column of the table: for each of the four labels its [V[t][y]] and
      [path[y]].  Both dictionaries always hold exactly the four labels. *)
  Record column := mkCol {
    colB : F num * list label;
    colM : F num * list label;
    colE : F num * list label;
    colS : F num * list label;
  }.
  (** [V[t][y]] with [path[y]], finalseg/__init__.py:49,51 *)
  Definition col_get (v : column) (y : label) : F num * list label :=
    match y with LB => colB v | LM => colM v | LE => colE v | LS => colS v end.
  (** [V[t]] with [newpath], finalseg/__init__.py:40-42,46-52 *)
  Definition col_make (f : label -> F num * list label) : column :=
    mkCol (f LB) (f LM) (f LE) (f LS).

  (** finalseg/__init__.py:40-42 *)
  Definition vit_init (c : char) : column :=
    col_make (fun y => (f_add num (h_start H y) (get_or (h_emit H y c)), [y])).

  (** finalseg/__init__.py:47-51 for one label [y]: the maximum of
      [(V[t-1][y0] + trans_p[y0].get(y, MIN_FLOAT) + em_p, y0)] over the two
      labels of [PrevStatus[y]], in that order *)
  Definition vit_cell (v : column) (c : char) (y : label) : F num * list label :=
    let em := get_or (h_emit H y c) in
    let cand y0 := (f_add num (f_add num (fst (col_get v y0)) (get_or (h_trans H y0 y))) em, y0) in
    let '(a, b) := prev_status y in
    let '(prob, state) := max_from (tup_gt num label_gt) (cand a) [cand b] in
    (prob, snd (col_get v state) ++ [y]).

  (** finalseg/__init__.py:44-52 *)
  Definition vit_step (v : column) (c : char) : column := col_make (vit_cell v c).

  (** finalseg/__init__.py:37-56 [viterbi], on a non-empty observation
      [c :: obs]; the result [(prob, path)] *)
  Definition viterbi (c : char) (obs : str) : F num * list label :=
    let v := fold_left vit_step obs (vit_init c) in
    let '(prob, state) :=
      max_from (tup_gt num label_gt) (fst (col_get v LE), LE) [(fst (col_get v LS), LS)] in
    (prob, snd (col_get v state)).

  (** finalseg/__init__.py:62-75: the loop over [enumerate(sentence)] with the
      variables [begin] and [nexti]; [rest]/[poss] are what is left of the
      sentence and of [pos_list] from index [i] on *)
  Fixpoint fs_cut_loop (sentence : str) (i : nat) (rest : str) (poss : list label)
           (begin nexti : nat) : gen str :=
    match rest with
    | [] => if (nexti <? length sentence)%nat then gone (skipn nexti sentence) else gnil
    | ch :: rest' =>
        match poss with
        | [] => gerr IndexError
        | LB :: poss' => fs_cut_loop sentence (S i) rest' poss' i nexti
        | LE :: poss' =>
            gcons (slice sentence begin (i + 1))
                  (fs_cut_loop sentence (S i) rest' poss' begin (i + 1))
        | LS :: poss' =>
            gcons [ch] (fs_cut_loop sentence (S i) rest' poss' begin (i + 1))
        | LM :: poss' => fs_cut_loop sentence (S i) rest' poss' begin nexti
        end
    end.

  (** finalseg/__init__.py:59-75 [__cut]; [obs[0]] of an empty sentence is an
      [IndexError] *)
  Definition fs_cut_han (sentence : str) : gen str :=
    match sentence with
    | [] => gerr IndexError
    | c :: obs => fs_cut_loop sentence 0 sentence (snd (viterbi c obs)) 0 0
    end.

  (** finalseg/__init__.py:85-100 [cut]; [force] is [Force_Split_Words] *)
  Definition fs_cut_block (force : list str) (blk : str) : gen str :=
    if re_matches fs_re_han blk then
      gbind (fs_cut_han blk)
            (fun word => if negb (str_in word force) then gone word
                         else gof (map (fun c => [c]) word))
    else
      gfor (re_split fs_re_skip blk)
           (fun x => match x with [] => gnil | _ => gone x end).

  (** [cut], finalseg/__init__.py:85-100 *)
  Definition fs_cut (force : list str) (sentence : str) : gen str :=
    gfor (re_split fs_re_han sentence) (fs_cut_block force).
End Finalseg.

Arguments h_start {num} _ _.
Arguments h_trans {num} _ _ _.
Arguments h_emit {num} _ _ _.
Arguments col_get {num} _ _.
Arguments col_make {num} _.
Arguments vit_init {num} _ _.
Arguments vit_cell {num} _ _ _ _.
Arguments vit_step {num} _ _ _.
Arguments viterbi {num} _ _ _.
Arguments fs_cut_han {num} _ _.
Arguments fs_cut_block {num} _ _ _.
