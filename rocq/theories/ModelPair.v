(** * The objects that tagging yields, and the attributes of a POSTokenizer *)
From Coq Require Import String Ascii.
From Verif Require Import PyBase PyUtf8.

(** [class pair], posseg/__init__.py:44-48 *)
Record ppair := mkPair { p_word : str; p_flag : str }.

(** what a pair can be compared with *)
Inductive value :=
| VPair (p : ppair)
| VStr (s : str)
| VTuple (l : list str)
| VOther (n : nat).

(** [__unicode__], lines 50-51, and [__str__] under Python 3, lines 56-60 *)
Definition p_text (p : ppair) : str := p_word p ++ [47%N] ++ p_flag p.

(** [__iter__], lines 62-63: what [word, flag = p] binds *)
Definition p_iter (p : ppair) : list str := [p_word p; p_flag p].

(** [__lt__], lines 65-66: [other.word] fails on anything else *)
Definition p_lt (p : ppair) (v : value) : res bool :=
  match v with
  | VPair q => Ok (str_ltb (p_word p) (p_word q))
  | _ => Err AttributeError
  end.

(** [__eq__], lines 68-69 *)
Definition p_eq (p : ppair) (v : value) : bool :=
  match v with
  | VPair q => str_eqb (p_word p) (p_word q) && str_eqb (p_flag p) (p_flag q)
  | _ => false
  end.

(** [__hash__], lines 71-72; [hash] is Python's for strings *)
Definition p_hash (hash : str -> Z) (p : ppair) : Z := hash (p_word p).

(** [encode("utf-8")], lines 74-75; [None]: a lone surrogate, UnicodeEncodeError *)
Definition p_encode (p : ppair) : option bytes := utf8_encode (p_text p).

(** [sorted(pairs)]: Python sorts with [__lt__] alone *)
Definition p_ltb (p q : ppair) : bool := str_ltb (p_word p) (p_word q).
Definition sort_pairs (l : list ppair) : list ppair := sorted_asc p_ltb l.

(** ** [POSTokenizer.__getattr__], posseg/__init__.py:87-91 *)

Inductive attr :=
| OwnAttr (name : str)         (* found on the POSTokenizer itself *)
| TokAttr (name : str).        (* an attribute of its Tokenizer *)

(** ASCII text *)
Fixpoint of_string (s : string) : str :=
  match s with
  | EmptyString => []
  | String a s' => N_of_ascii a :: of_string s'
  end.

(** line 88 *)
Definition refused : list str :=
  map of_string ["cut_for_search"; "lcut_for_search"; "tokenize"]%string.
(** line 91 *)
Definition s_tokenizer : str := of_string "tokenizer".

(** the names found on a POSTokenizer once line 82 has run: posseg/__init__.py:80-253,
    private names as Python spells them *)
Definition pos_names : list str :=
  map of_string
    ["tokenizer"; "word_tag_tab"; "__init__"; "__repr__"; "__getattr__"; "initialize"; "load_word_tag";
     "makesure_userdict_loaded"; "_POSTokenizer__cut"; "_POSTokenizer__cut_detail";
     "_POSTokenizer__cut_DAG_NO_HMM"; "_POSTokenizer__cut_DAG"; "_POSTokenizer__cut_internal";
     "_lcut_internal"; "_lcut_internal_no_hmm"; "cut"; "lcut"]%string.

(** the names of a Tokenizer: jieba/__init__.py:53-515 *)
Definition tokenizer_names : list str :=
  map of_string
    ["lock"; "dictionary"; "FREQ"; "total"; "user_word_tag_tab"; "initialized"; "tmp_dir";
     "cache_file"; "__init__"; "__repr__"; "gen_pfdict"; "initialize"; "check_initialized";
     "calc"; "get_DAG"; "_Tokenizer__cut_all"; "_Tokenizer__cut_DAG_NO_HMM";
     "_Tokenizer__cut_DAG"; "cut"; "cut_for_search"; "lcut"; "lcut_for_search"; "_lcut";
     "_lcut_for_search"; "_lcut_no_hmm"; "_lcut_all"; "_lcut_for_search_no_hmm";
     "get_dict_file"; "load_userdict"; "add_word"; "del_word"; "suggest_freq"; "tokenize";
     "set_dictionary"]%string.

(** [getattr(p, name)]: Python looks in [own] first, the names found on the object and
    its class, and calls [__getattr__] only for the others.  [toks]: the names of the
    Tokenizer's attributes.  Line 91 looks up [self.tokenizer] in the same way.  [fuel]
    bounds the depth of the recursion. *)
Fixpoint p_getattr (fuel : nat) (own toks : list str) (name : str) : res attr :=
  match fuel with
  | O => Err OutOfFuel
  | S fuel' =>
      if str_in name own then Ok (OwnAttr name)
      else if str_in name refused then Err NotImplementedError
      else
        rbind (p_getattr fuel' own toks s_tokenizer) (fun _ =>
        if str_in name toks then Ok (TokAttr name) else Err AttributeError)
  end.
