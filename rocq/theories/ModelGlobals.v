(** * Names of the module jieba that look into the default Tokenizer

    jieba/__init__.py:518-538.  [dt] is Tokenizer 0 of ModelWorld.v.  The other names
    are bound methods of [dt] (ModelNames.v has those that parallel mode rebinds). *)
From Verif Require Import PyBase PyNum ModelFinalseg ModelSeg ModelDict ModelApi ModelInit ModelWorld ModelTagRace.

(** [get_FREQ], jieba/__init__.py:524: no check_initialized; [d] is the second argument *)
Definition get_FREQ (w : world) (k : str) (d : option Z) : option Z :=
  match sget (m_freq (w_tok w 0)) k with Some n => Some n | None => d end.

(** [calc], jieba/__init__.py:526 and 172-178: no check_initialized either *)
Definition mod_calc (num : Num) (w : world) (sentence : str) (DAG : list (list nat)) : res (list (F num * nat)) :=
  calc num (m_freq (w_tok w 0)) (m_total (w_tok w 0)) sentence DAG.

(** [user_word_tag_tab], jieba/__init__.py:538: the dictionary that was
    [dt.user_word_tag_tab] when the module was loaded (the one with number 0) *)
Definition mod_user_word_tag_tab (d : tagdata) : sdict str := obj d 0.
