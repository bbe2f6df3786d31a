(** * The paddle mode, jieba/lac_small

    The neural network is a function from the word ids to the label ids (or an
    exception), kept abstract; numpy arrays are lists.  Python 3; the mode is switched on
    ([check_paddle_install['is_paddle_installed']] is true and [use_paddle] is given). *)
From Verif Require Import PyBase PyNum ModelFinalseg ModelSeg ModelPosseg ModelArgs.

(** [str(n)] *)
Fixpoint digits (u : Decimal.uint) : str :=
  match u with
  | Decimal.Nil => []
  | Decimal.D0 u => 48%N :: digits u
  | Decimal.D1 u => 49%N :: digits u
  | Decimal.D2 u => 50%N :: digits u
  | Decimal.D3 u => 51%N :: digits u
  | Decimal.D4 u => 52%N :: digits u
  | Decimal.D5 u => 53%N :: digits u
  | Decimal.D6 u => 54%N :: digits u
  | Decimal.D7 u => 55%N :: digits u
  | Decimal.D8 u => 56%N :: digits u
  | Decimal.D9 u => 57%N :: digits u
  end.
(** [str(id[0])], lac_small/utils.py:44,47,49 *)
Definition str_int (z : Z) : str :=
  match z with
  | Z0 => [48%N]
  | Zpos p => digits (N.to_uint (Npos p))
  | Zneg p => 45%N :: digits (N.to_uint (Npos p))
  end.

(** ** jieba/lac_small/reader_small.py *)

Definition is_nl (c : char) : bool := (c =? 10)%N.

(** [load_kv_dict], lines 24-48, on the lines of the file; [value_func] is [int] or absent *)
Fixpoint load_kv_loop {V} (reverse : bool) (value_func : str -> res V) (lines : list str) (d : sdict V)
  : res (sdict V) :=
  match lines with
  | [] => Ok d
  | line :: lines' =>
      match split_on 9 (strip_by is_nl line) with
      | [a; b] =>
          let key := if reverse then b else a in
          let value := if reverse then a else b in
          if smem d key then Err KeyError
          else rbind (value_func value) (fun v => load_kv_loop reverse value_func lines' (sset d key v))
      | _ => load_kv_loop reverse value_func lines' d
      end
  end.
(** [load_kv_dict], lac_small/reader_small.py:24-48 *)
Definition load_kv_dict {V} reverse (value_func : str -> res V) lines : res (sdict V) :=
  load_kv_loop reverse value_func lines [].

(** [value_func=int], lac_small/reader_small.py:59,62 *)
Definition int_value (s : str) : res Z :=
  match parse_int s with Some n => Ok n | None => Err ValueError end.

(** [Dataset.__init__], lines 52-63 (the table for labels to ids is not used to predict) *)
Record dataset := mkSet { word2id : sdict Z; id2word : sdict str; id2label : sdict str }.
(** [Dataset.__init__], lac_small/reader_small.py:52-63 *)
Definition load_dataset (word_dic tag_dic : list str) : res dataset :=
  rbind (load_kv_dict true int_value word_dic) (fun w2i =>
  rbind (load_kv_dict false Ok word_dic) (fun i2w =>
  rbind (load_kv_dict true int_value tag_dic) (fun _ =>
  rbind (load_kv_dict false Ok tag_dic) (fun i2l => Ok (mkSet w2i i2w i2l))))).

(** lac_small/reader_small.py:80, utils.py:44 *)
Definition s_OOV : str := [79; 79; 86]%N.

(** a list built by a loop that may raise, lac_small/reader_small.py:77-83, utils.py:42-50 *)
Fixpoint rmap {A B} (f : A -> res B) (l : list A) : res (list B) :=
  match l with
  | [] => Ok []
  | a :: l' => rbind (f a) (fun b => rbind (rmap f l') (fun bs => Ok (b :: bs)))
  end.

(** [d[k]], lac_small/reader_small.py:81, utils.py:44,47,49 *)
Definition lookup {V} (d : sdict V) (k : str) : res V :=
  match sget d k with Some v => Ok v | None => Err KeyError end.

Section Lac.
  Variable ds : dataset.

  (** [word_to_ids], lines 75-83, and [get_vars], lines 95-98 *)
  Definition word_to_id (c : char) : res Z :=
    let word := if smem (word2id ds) [c] then [c] else s_OOV in lookup (word2id ds) word.
  (** [get_vars], lac_small/reader_small.py:95-98 *)
  Definition get_vars (s : str) : res (list Z) := rmap word_to_id (str_strip s).

  (** ** jieba/lac_small/utils.py *)

  (** [tag.split('-')[0]] *)
  Definition tag_part (label : str) : str := hd [] (split_on 45 label).
  (** [tag.endswith("-B")] *)
  Definition ends_B (label : str) : bool :=
    match rev label with
    | b :: d :: _ => ((b =? 66) && (d =? 45))%N
    | _ => false
    end.
  (** lac_small/utils.py:63 *)
  Definition s_O : str := [79]%N.

  (** [parse_result], lines 42-47: the character of an id *)
  Definition shown_word (id : Z) : res str :=
    rbind (lookup (id2word ds) (str_int id)) (fun w => Ok (if str_eqb w s_OOV then [32%N] else w)).

  (** lines 52-73: [prev] is [tags[ind - 1]] *)
  Fixpoint parse_loop (sent tags : list str) (prev partial : str) (sent_out tags_out : list str)
    : res (list str * list str) :=
    match tags with
    | [] => Ok (if length sent_out <? length tags_out then sent_out ++ [partial] else sent_out, tags_out)
    | tag :: tags' =>
        match sent with
        | [] => Err IndexError
        | w :: sent' =>
            match partial with
            | [] => parse_loop sent' tags' tag w sent_out (tags_out ++ [tag_part tag])
            | _ =>
                if ends_B tag || (str_eqb tag s_O && negb (str_eqb prev s_O)) then
                  parse_loop sent' tags' tag w (sent_out ++ [partial]) (tags_out ++ [tag_part tag])
                else parse_loop sent' tags' tag (partial ++ w) sent_out tags_out
            end
        end
    end.

  (** [parse_result], lines 33-74, for the one sentence of the batch *)
  Definition parse_result (words crf_decode : list Z) : res (list str * list str) :=
    rbind (rmap shown_word words) (fun sent =>
    rbind (rmap (fun id => lookup (id2label ds) (str_int id)) crf_decode) (fun tags =>
    parse_loop sent tags [] [] [] [])).

  (** ** jieba/lac_small/predict.py *)

  Variable net : list Z -> res (list Z).      (* [exe.run], lines 57-62, 74-79 *)

  (** [get_result], lines 68-82, and [get_sent], lines 51-66 *)
  Definition get_result (s : str) : res (list str * list str) :=
    rbind (get_vars s) (fun ids => rbind (net ids) (fun labels => parse_result ids labels)).
  (** [get_sent], lac_small/predict.py:51-66 *)
  Definition get_sent (s : str) : res (list str) := rbind (get_result s) (fun r => Ok (fst r)).

  (** ** The callers *)

  Variable gbk_ignore : bytes -> str.

  (** [Tokenizer.cut], jieba/__init__.py:299-311 *)
  Definition paddle_cut (a : arg) : gen str :=
    match strdecode gbk_ignore a with
    | [] => gnil
    | s => match get_sent s with Ok ws => gof ws | Err e => gerr e end
    end.

  (** [posseg.cut], jieba/posseg/__init__.py:280-291: the argument is compared before it
      is decoded *)
  Definition paddle_pos_cut (a : arg) : gen tagged :=
    match a with
    | AText [] => gnil
    | _ =>
        match get_result (strdecode gbk_ignore a) with
        | Err e => gerr e
        | Ok (sents, tags) => gfor (combine (seq 0 (length sents)) sents) (fun it =>
            match nth_error tags (fst it) with
            | Some t => gone (snd it, t)
            | None => gerr IndexError
            end)
        end
    end.
End Lac.
