(** * Model of jieba/posseg/__init__.py and jieba/posseg/viterbi.py *)
From Verif Require Import PyBase PyRegex PyNum ModelFinalseg ModelSeg ModelDict ModelApi.

(** ** Regular expressions, posseg/__init__.py:15-23 *)

(** [re_han_detail = re.compile("([一-鿕]+)")], line 15 *)
Definition ps_re_han_detail : re := RGrp 1 (RPlus is_han).

(** [[\.0-9]] *)
Definition is_numdot (c : char) : bool := (c =? 46)%N || is_digit09 c.

(** [re_skip_detail = re.compile("([\.0-9]+|[a-zA-Z0-9]+)")], line 16 *)
Definition ps_re_skip_detail : re := RGrp 1 (RAlt (RPlus is_numdot) (RPlus is_alnum)).

(** the class of [re_han_internal], line 17: [[一-鿕a-zA-Z0-9+#&\._]] *)
Definition is_pos_char (c : char) : bool :=
  is_han c || is_alnum c
  || (c =? 43)%N || (c =? 35)%N || (c =? 38)%N || (c =? 46)%N || (c =? 95)%N.
(** [re_han_internal], posseg/__init__.py:17 *)
Definition ps_re_han_internal : re := RGrp 1 (RPlus is_pos_char).

(** [re_skip_internal = re.compile("(\r\n|\s)")], line 18 *)
Definition ps_re_skip_internal : re := RGrp 1 (RAlt (RStr [13; 10]%N) (RCls is_space)).

(** [re_eng = re.compile("[a-zA-Z0-9]+")], line 20 *)
Definition ps_re_eng : re := RPlus is_alnum.

(** [re_num = re.compile("[\.0-9]+")], line 21 *)
Definition ps_re_num : re := RPlus is_numdot.

(** [re_eng1 = re.compile('^[a-zA-Z0-9]$', re.U)], line 23 *)
Definition ps_re_eng1 : re := RSeq RBol (RSeq (RCls is_alnum) REol).

(** ** Words with their tags *)

(** a [pair] (lines 44-75): word and flag *)
Definition tagged := (str * str)%type.

(** the tags 'x', 'm' and 'eng' *)
Definition tag_x : str := [120]%N.
(** posseg/__init__.py:146,236 *)
Definition tag_m : str := [109]%N.
(** posseg/__init__.py:148,167,172,238 *)
Definition tag_eng : str := [101; 110; 103]%N.

(** ** States of the tagger's HMM: pairs such as [('B', 'n')] *)

Definition pstate := (char * str)%type.
(** equality of states, as keys of a [dict] or in a [set], posseg/viterbi.py:19-40 *)
Definition pstate_eqb (a b : pstate) : bool :=
  (fst a =? fst b)%N && str_eqb (snd a) (snd b).
(** [a > b] for tuples of strings, the first of one character *)
Definition pstate_gt (a b : pstate) : bool :=
  (fst b <? fst a)%N || ((fst b =? fst a)%N && str_ltb (snd b) (snd a)).

(** membership and removal of duplicates, for the sets of the algorithm *)
Definition p_in (y : pstate) (l : list pstate) : bool := existsb (pstate_eqb y) l.
(** [set(...)], posseg/viterbi.py:28-31 *)
Fixpoint p_nodup (l : list pstate) : list pstate :=
  match l with
  | [] => []
  | y :: l' => if p_in y l' then p_nodup l' else y :: p_nodup l'
  end.

(** the letters *)
Definition l_B : char := 66%N.
(** posseg/__init__.py:126 *)
Definition l_E : char := 69%N.
(** the letter of the middle states in the tables, posseg/prob_trans.py *)
Definition l_M : char := 77%N.
(** posseg/__init__.py:129 *)
Definition l_S : char := 83%N.

Section Posseg.
  Variable num : Num.
  Notation F := (F num).

  (** The four tables (lines 35-41).  [t_states c] is [states.get(c)]; the outer
      look-ups in [start_p], [trans_p], [emit_p] may fail with [KeyError]
      ([None]). *)
  Record ptables := mkPt {
    t_states : char -> option (list pstate);
    t_start : pstate -> option F;
    t_trans : list (pstate * list (pstate * F));
    t_emit : pstate -> option (char -> option F);
  }.
  Variable T : ptables.

  (** Python iterates over a [set] in an order that depends on the hash seed:
      [ord obs t l] is the order chosen for the set with the elements [l] made at
      index [t] for the text [obs] *)
  Definition orders := str -> nat -> list pstate -> list pstate.
  Variable ord : orders.

  (** [trans_p.keys()], viterbi.py:17 *)
  Definition all_states : list pstate := map fst (t_trans T).

  (** [states.get(c, all_states)] *)
  Definition states_of (c : char) : list pstate :=
    match t_states T c with Some l => l | None => all_states end.

  (** [trans_p[x]] *)
  Definition trans_of (x : pstate) : option (list (pstate * F)) := dget pstate_eqb (t_trans T) x.

  (** [V[t]] and [mem_path[t]], which have the same keys in the same order; the
      empty string in [mem_path[0]] is [None] *)
  Definition pcol := list (pstate * (F * option pstate)).

  (** [.get(k, MIN_FLOAT)], posseg/viterbi.py:19,38 *)
  Definition or_min (o : option F) : F := match o with Some x => x | None => f_min_float num end.
  (** [.get(y, MIN_INF)], posseg/viterbi.py:37 *)
  Definition or_inf (o : option F) : F := match o with Some x => x | None => f_neg_inf num end.

  (** viterbi.py:18-20 *)
  Fixpoint pv_init (c : char) (ys : list pstate) (col : pcol) : res pcol :=
    match ys with
    | [] => Ok col
    | y :: ys' =>
        match t_start T y, t_emit T y with
        | Some s, Some e =>
            pv_init c ys' (dset pstate_eqb col y (f_add num s (or_min (e c)), None))
        | _, _ => Err KeyError
        end
    end.

  (** viterbi.py:25-26: the states of the previous column that have transitions *)
  Fixpoint pv_prev (xs : list pstate) : res (list pstate) :=
    match xs with
    | [] => Ok []
    | x :: xs' =>
        match trans_of x with
        | None => Err KeyError
        | Some l => rbind (pv_prev xs') (fun r => Ok (match l with [] => r | _ => x :: r end))
        end
    end.

  (** viterbi.py:28-29 *)
  Definition pv_expect (prev : list pstate) : list pstate :=
    p_nodup (flat_map (fun x => match trans_of x with Some l => map fst l | None => [] end) prev).

  (** viterbi.py:30-34, in the order of iteration of line 36 *)
  Definition pv_obs (obs : str) (t : nat) (c : char) (prev : list pstate) : list pstate :=
    let expect := pv_expect prev in
    match filter (fun y => p_in y expect) (p_nodup (states_of c)) with
    | [] => match expect with [] => all_states | _ => ord obs t expect end
    | l => ord obs t l
    end.

  (** [(a, y) > (b, z)] for a float and a state *)
  Definition pv_gt : F * pstate -> F * pstate -> bool := tup_gt num pstate_gt.

  (** viterbi.py:37-38: the candidates of one state *)
  Fixpoint pv_cands (col : pcol) (c : char) (y : pstate) (prev : list pstate)
    : res (list (F * pstate)) :=
    match prev with
    | [] => Ok []
    | y0 :: prev' =>
        match dget pstate_eqb col y0, trans_of y0, t_emit T y with
        | Some v, Some l, Some e =>
            rbind (pv_cands col c y prev') (fun cs =>
            Ok ((f_add num (f_add num (fst v) (or_inf (dget pstate_eqb l y))) (or_min (e c)), y0)
                :: cs))
        | _, _, _ => Err KeyError
        end
    end.

  (** viterbi.py:36-40 *)
  Fixpoint pv_fill (col : pcol) (c : char) (prev ys : list pstate) (new : pcol) : res pcol :=
    match ys with
    | [] => Ok new
    | y :: ys' =>
        rbind (pv_cands col c y prev) (fun cs =>
        rbind (py_max pv_gt cs) (fun m =>
        pv_fill col c prev ys' (dset pstate_eqb new y (fst m, Some (snd m)))))
    end.

  (** viterbi.py:21-40, one round *)
  Definition pv_step (obs : str) (t : nat) (col : pcol) (c : char) : res pcol :=
    rbind (pv_prev (map fst col)) (fun prev =>
    pv_fill col c prev (pv_obs obs t c prev) []).

  (** viterbi.py:21-40: the columns, latest first *)
  Fixpoint pv_loop (obs : str) (t : nat) (rest : str) (col : pcol) (older : list pcol)
    : res (pcol * list pcol) :=
    match rest with
    | [] => Ok (col, older)
    | c :: rest' =>
        rbind (pv_step obs t col c) (fun col' => pv_loop obs (S t) rest' col' (col :: older))
    end.

  (** viterbi.py:47-52: [route[0..i]] for the columns [i], [i-1], ... , [0] *)
  Fixpoint pv_back (col : pcol) (older : list pcol) (y : pstate) : res (list pstate) :=
    match dget pstate_eqb col y with
    | None => Err KeyError
    | Some (_, p) =>
        match older with
        | [] => Ok [y]
        | col' :: older' =>
            match p with
            | None => Err KeyError
            | Some y0 => rbind (pv_back col' older' y0) (fun r => Ok (r ++ [y]))
            end
        end
    end.

  (** viterbi.py:14-53 [viterbi] *)
  Definition pviterbi (obs : str) : res (F * list pstate) :=
    match obs with
    | [] => Err IndexError
    | c :: rest =>
        rbind (pv_init c (states_of c) []) (fun col0 =>
        rbind (pv_loop obs 1 rest col0 []) (fun cs =>
        let '(col, older) := cs in
        rbind (py_max pv_gt (map (fun e => (fst (snd e), fst e)) col)) (fun m =>
        rbind (pv_back col older (snd m)) (fun route => Ok (fst m, route)))))
    end.

  (** ** [__cut], lines 117-133 *)

  (** the loop over [enumerate(sentence)], lines 122-133; [poss] is the part of
      [pos_list] from index [i] on *)
  Fixpoint ps_cut_loop (sentence : str) (pos_list : list pstate) (i : nat) (rest : str)
           (poss : list pstate) (begin nexti : nat) : gen tagged :=
    match rest with
    | [] =>
        if (nexti <? length sentence)%nat then
          match nth_error pos_list nexti with
          | None => gerr IndexError
          | Some y => gone (skipn nexti sentence, snd y)
          end
        else gnil
    | ch :: rest' =>
        match poss with
        | [] => gerr IndexError
        | y :: poss' =>
            if (fst y =? l_B)%N then ps_cut_loop sentence pos_list (S i) rest' poss' i nexti
            else if (fst y =? l_E)%N then
              gcons (slice sentence begin (i + 1), snd y)
                    (ps_cut_loop sentence pos_list (S i) rest' poss' begin (i + 1))
            else if (fst y =? l_S)%N then
              gcons ([ch], snd y)
                    (ps_cut_loop sentence pos_list (S i) rest' poss' begin (i + 1))
            else ps_cut_loop sentence pos_list (S i) rest' poss' begin nexti
        end
    end.

  (** [__cut], posseg/__init__.py:117-133 *)
  Definition ps_cut_han (sentence : str) : gen tagged :=
    match pviterbi sentence with
    | Err e => gerr e
    | Ok (_, route) => ps_cut_loop sentence route 0 sentence route 0 0
    end.

  (** ** [__cut_detail], lines 135-150 *)

  (** lines 142-150 *)
  Definition ps_detail_other (blk : str) : gen tagged :=
    gfor (re_split ps_re_skip_detail blk)
         (fun x => match x with
                   | [] => gnil
                   | _ => if re_matches ps_re_num x then gone (x, tag_m)
                          else if re_matches ps_re_eng x then gone (x, tag_eng)
                          else gone (x, tag_x)
                   end).

  (** [__cut_detail], posseg/__init__.py:135-150 *)
  Definition ps_cut_detail (sentence : str) : gen tagged :=
    gfor (re_split ps_re_han_detail sentence)
         (fun blk => if re_matches ps_re_han_detail blk then ps_cut_han blk
                     else ps_detail_other blk).

  (** ** [__cut_DAG_NO_HMM], lines 152-173 *)

  (** [self.word_tag_tab.get(w, 'x')] *)
  Definition tag_get (tab : sdict str) (w : str) : str :=
    match sget tab w with Some t => t | None => tag_x end.

  (** the loop, lines 159-173 *)
  Fixpoint ps_nohmm_loop (fuel : nat) (tab : sdict str) (sentence : str)
           (route : list (F * nat)) (x : nat) (buf : str) : gen tagged :=
    match fuel with
    | O => gerr OutOfFuel
    | S fuel' =>
        if (x <? length sentence)%nat then
          match nth_error route x with
          | None => gerr KeyError
          | Some r =>
              let y := (snd r + 1)%nat in
              let l_word := slice sentence x y in
              if re_matches ps_re_eng1 l_word then
                ps_nohmm_loop fuel' tab sentence route y (buf ++ l_word)
              else
                gapp (match buf with [] => gnil | _ => gone (buf, tag_eng) end)
                     (gcons (l_word, tag_get tab l_word)
                            (ps_nohmm_loop fuel' tab sentence route y []))
          end
        else match buf with [] => gnil | _ => gone (buf, tag_eng) end
    end.

  (** [__cut_DAG_NO_HMM], posseg/__init__.py:152-173 *)
  Definition ps_nohmm_block (tab : sdict str) (fr : freqs) (total : Z) (sentence : str)
    : gen tagged :=
    match calc num fr total sentence (get_DAG fr sentence) with
    | Err e => gerr e
    | Ok route => ps_nohmm_loop (S (length sentence)) tab sentence route 0 []
    end.

  (** ** [__cut_DAG], lines 175-213 *)

  (** lines 190-199 and, identically, 203-213 *)
  Definition ps_buf (tab : sdict str) (fr : freqs) (buf : str) : gen tagged :=
    if (length buf =? 1)%nat then gone (buf, tag_get tab buf)
    else if negb (freq_true fr buf) then ps_cut_detail buf
    else gof (map (fun c => ([c], tag_get tab [c])) buf).

  (** the loop, lines 184-213 *)
  Fixpoint ps_hmm_loop (fuel : nat) (tab : sdict str) (fr : freqs) (sentence : str)
           (route : list (F * nat)) (x : nat) (buf : str) : gen tagged :=
    match fuel with
    | O => gerr OutOfFuel
    | S fuel' =>
        if (x <? length sentence)%nat then
          match nth_error route x with
          | None => gerr KeyError
          | Some r =>
              let y := (snd r + 1)%nat in
              let l_word := slice sentence x y in
              if (y - x =? 1)%nat then
                ps_hmm_loop fuel' tab fr sentence route y (buf ++ l_word)
              else
                gapp (match buf with [] => gnil | _ => ps_buf tab fr buf end)
                     (gcons (l_word, tag_get tab l_word)
                            (ps_hmm_loop fuel' tab fr sentence route y []))
          end
        else match buf with [] => gnil | _ => ps_buf tab fr buf end
    end.

  (** [__cut_DAG], posseg/__init__.py:175-213 *)
  Definition ps_hmm_block (tab : sdict str) (fr : freqs) (total : Z) (sentence : str)
    : gen tagged :=
    match calc num fr total sentence (get_DAG fr sentence) with
    | Err e => gerr e
    | Ok route => ps_hmm_loop (S (length sentence)) tab fr sentence route 0 []
    end.

  (** ** [__cut_internal], lines 217-240, on a decoded sentence and with the user
      tags loaded *)

  (** lines 229-240; line 237 tests [x], not [xx] *)
  Definition ps_other (blk : str) : gen tagged :=
    gfor (re_split ps_re_skip_internal blk)
         (fun x => if re_matches ps_re_skip_internal x then gone (x, tag_x)
                   else gof (map (fun c => ([c], if re_matches ps_re_num [c] then tag_m
                                                 else if re_matches ps_re_eng x then tag_eng
                                                 else tag_x)) x)).

  (** [__cut_internal], posseg/__init__.py:215-240 *)
  Definition ps_cut (HMM : bool) (tab : sdict str) (fr : freqs) (total : Z) (sentence : str)
    : gen tagged :=
    gfor (re_split ps_re_han_internal sentence)
         (fun blk =>
            if re_matches ps_re_han_internal blk then
              if HMM then ps_hmm_block tab fr total blk else ps_nohmm_block tab fr total blk
            else ps_other blk).
End Posseg.

Arguments mkPt {num}. Arguments t_states {num}. Arguments t_start {num}.
Arguments t_trans {num}. Arguments t_emit {num}.
Arguments all_states {num}. Arguments states_of {num}. Arguments trans_of {num}.
Arguments pv_prev {num}. Arguments pv_expect {num}. Arguments pv_obs {num}.
Arguments pv_cands {num}. Arguments pv_fill {num}. Arguments pv_step {num}.
Arguments pv_loop {num}. Arguments pv_back {num}. Arguments pviterbi {num}.
Arguments ps_cut_han {num}. Arguments ps_cut_detail {num}. Arguments ps_buf {num}.
Arguments ps_hmm_block {num}. Arguments ps_hmm_loop {num}. Arguments ps_cut {num}. Arguments pv_init {num}.

(** ** The tag table *)

(** [load_word_tag], lines 102-107: one line; [None] is any exception, re-raised as
    [ValueError] (lines 108-110); [Some None] is an empty line *)
Definition tag_line (line : bytes) : option (option (str * str)) :=
  match utf8_decode (bytes_strip line) with
  | None => None
  | Some [] => Some None
  | Some l =>
      match split_on 32 l with
      | [word; _; tag] => Some (Some (word, tag))
      | _ => None
      end
  end.

(** [load_word_tag], lines 97-110: the table reached, and the exception *)
Fixpoint load_word_tag (lines : list bytes) (tab : sdict str) : sdict str * option exn :=
  match lines with
  | [] => (tab, None)
  | line :: lines' =>
      match tag_line line with
      | None => (tab, Some ValueError)
      | Some None => load_word_tag lines' tab
      | Some (Some (w, t)) => load_word_tag lines' (sset tab w t)
      end
  end.

(** ** POS tokenizers over one Tokenizer *)

(** the Tokenizer and the [word_tag_tab]s of the POSTokenizers made for it *)
Record pworld := mkPW { pw_d : dstate; pw_tabs : list (sdict str) }.

(** writing the table of one POSTokenizer, posseg/__init__.py:98,106,114 *)
Fixpoint set_nth {A} (l : list A) (i : nat) (x : A) : list A :=
  match l, i with
  | [], _ => []
  | _ :: l', O => x :: l'
  | y :: l', S i' => y :: set_nth l' i' x
  end.

(** [makesure_userdict_loaded], lines 112-115 *)
Definition makesure_userdict_loaded (w : pworld) (i : nat) : pworld :=
  match nth_error (pw_tabs w) i with
  | None => w
  | Some tab =>
      match d_tags (pw_d w) with
      | [] => w
      | tags =>
          let d := pw_d w in
          mkPW (mkD (d_freq d) (d_total d) [] (d_force d))
               (set_nth (pw_tabs w) i (dupdate str_eqb tab tags))
      end
  end.

(** a call: on the Tokenizer; [POSTokenizer.cut]/[lcut] (lines 248-253) of the [i]-th
    POS tokenizer; its [initialize] (lines 93-95) with the dictionary file it reads,
    which is the one already loaded ([same], so that [Tokenizer.initialize] changes
    nothing, jieba/__init__.py:103-120) or another one *)
Inductive pop :=
| PTok (o : op)
| PCut (i : nat) (HMM : bool) (s : str)
| PInit (i : nat) (same : bool) (lines : list bytes).

(** what a call returns, posseg/__init__.py:80-115, 248-253 *)
Inductive pout :=
| POut (o : out)
| PWords (g : gen tagged)
| PExn (e : exn)
| PUnit.

Section World.
  Variable num : Num.
  Variable H : hmm num.
  Variable T : ptables num.
  Variable ord : orders.

  (** one call, posseg/__init__.py:80-115, 248-253 *)
  Definition do_pop (w : pworld) (o : pop) : pworld * pout :=
    match o with
    | PTok o =>
        let '(d, r) := do_op num H (pw_d w) o in (mkPW d (pw_tabs w), POut r)
    | PCut i HMM s =>
        match nth_error (pw_tabs w) i with
        | None => (w, PExn AttributeError)
        | Some _ =>
            let w' := makesure_userdict_loaded w i in
            let tab := nth i (pw_tabs w') [] in
            (w', PWords (ps_cut T ord HMM tab (d_freq (pw_d w')) (d_total (pw_d w')) s))
        end
    | PInit i same lines =>
        let d := pw_d w in
        match (if same then Ok (d_freq d, d_total d) else gen_pfdict lines) with
        | Err e => (w, PExn e)
        | Ok (fr, total) =>
            let '(tab, e) := load_word_tag lines [] in
            (mkPW (mkD fr total (d_tags d) (d_force d)) (set_nth (pw_tabs w) i tab),
             match e with Some e => PExn e | None => PUnit end)
        end
    end.

  (** a history of such calls *)
  Definition do_pops (w : pworld) (os : list pop) : pworld :=
    fold_left (fun w o => fst (do_pop w o)) os w.

  (** ** Module functions, lines 273-310 *)

  (** [posseg.cut], lines 273-304, with [dt] the only POS tokenizer, [pool is None]
      and paddle not installed ([is_paddle_installed] is [False], so [use_paddle]
      has no effect) *)
  Definition mod_cut (w : pworld) (s : str) (HMM use_paddle : bool) : pworld * pout :=
    do_pop w (PCut 0 HMM s).

  (** [posseg.lcut], lines 307-310; line 309 passes no [HMM] *)
  Definition mod_lcut (w : pworld) (s : str) (HMM use_paddle : bool) : pworld * pout :=
    if use_paddle then mod_cut w s true true else mod_cut w s HMM false.
End World.
