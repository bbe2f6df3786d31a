(** * Specification vocabulary for tagged words *)
From Verif Require Import PyBase PyNum ModelSeg ModelDict ModelApi ModelPosseg SpecBase SpecSeg SpecApi
  SpecMode SpecPosseg.

(** ASCII letters and digits *)
Definition alnum_char (c : char) : bool :=
  (((97 <=? c) && (c <=? 122)) || ((65 <=? c) && (c <=? 90)) || ((48 <=? c) && (c <=? 57)))%N%bool.

(** what can be part of a word for the tagger: as [word_char], but without [%] and
    [-] *)
Definition pos_word_char (c : char) : bool :=
  (han_char c || alnum_char c || existsb (N.eqb c) [43; 35; 38; 46; 95]%N)%bool.

(** the words of a result *)
Definition words_of (g : gen tagged) : gen str := (map fst (fst g), snd g).

(** the tag in a table, else "x" *)
Definition tag_or_x (o : option str) : str := match o with Some t => t | None => [120%N] end.

(** ** Tags given by the user *)

(** the (word, tag) pair a call records; an empty tag is none *)
Definition give (w : str) (t : option str) : list (str * str) :=
  match t with Some (c :: t') => [(w, c :: t')] | _ => [] end.

(** the tag on a line of a user dictionary *)
Definition line_tags (l : uline) : list (str * str) :=
  match uline_text l with
  | Some (c :: s) => match parse_userdict_line (c :: s) with Some (w, _, t) => give w t | None => [] end
  | _ => []
  end.

(** the lines of a user dictionary read before the first that raises *)
Fixpoint lines_read (num : Num) (H : ModelFinalseg.hmm num) (d : dstate) (ls : list uline) : list uline :=
  match ls with
  | [] => []
  | l :: ls' => match load_userdict_line num H d l with
                | Ok d' => l :: lines_read num H d' ls'
                | Err _ => []
                end
  end.

(** the pairs a call records, in order; [add_word] records nothing if it raises *)
Definition op_tags (num : Num) (H : ModelFinalseg.hmm num) (d : dstate) (o : op) : list (str * str) :=
  match o with
  | OpAddWord w _ t => match snd (do_op num H d o) with OutExn _ => [] | _ => give w t end
  | OpUserdict ls => flat_map line_tags (lines_read num H d ls)
  | _ => []
  end.

(** the pairs recorded in a history of calls on the tokenizer and its taggers *)
Fixpoint history_tags (num : Num) (H : ModelFinalseg.hmm num) (T : ptables num) (ord : orders)
         (w : pworld) (os : list pop) : list (str * str) :=
  match os with
  | [] => []
  | o :: os' =>
      match o with PTok o => op_tags num H (pw_d w) o | _ => [] end
      ++ history_tags num H T ord (fst (do_pop num H T ord w o)) os'
  end.

(** The pairs tagger [i] takes over in a history, and those still waiting at its end:
    the tagger that cuts next takes all that wait. *)
Fixpoint taken (num : Num) (H : ModelFinalseg.hmm num) (T : ptables num) (ord : orders) (i : nat)
         (w : pworld) (os : list pop) (waiting mine : list (str * str))
  : list (str * str) * list (str * str) :=
  match os with
  | [] => (mine, waiting)
  | o :: os' =>
      let w' := fst (do_pop num H T ord w o) in
      match o with
      | PTok o => taken num H T ord i w' os' (waiting ++ op_tags num H (pw_d w) o) mine
      | PCut j _ _ =>
          if j <? length (pw_tabs w) then
            taken num H T ord i w' os' [] (if j =? i then mine ++ waiting else mine)
          else taken num H T ord i w' os' waiting mine
      | PInit _ _ _ => taken num H T ord i w' os' waiting mine
      end
  end.

(** the last pair for [w] *)
Fixpoint last_for (w : str) (l : list (str * str)) : option str :=
  match l with
  | [] => None
  | (k, t) :: l' =>
      match last_for w l' with
      | Some t' => Some t'
      | None => if str_eqb w k then Some t else None
      end
  end.

(** ** Which words a sequence of HMM states stands for *)

(** [spelled first ws ys]: the states [ys] of the characters spell the tagged words
    [ws]: a word of one character is [S]; a longer one [B M ... M E]; all states of
    a word carry its tag.  At the beginning of the text ([first]) the [B] may be
    missing, at the end the [E]. *)
Inductive spelled : bool -> list tagged -> list pstate -> Prop :=
| sp_nil first : spelled first [] []
| sp_single first c t ws ys :
    spelled false ws ys -> spelled first (([c], t) :: ws) ((l_S, t) :: ys)
| sp_word first w t n ws ys :
    length w = n + 2 -> spelled false ws ys ->
    spelled first ((w, t) :: ws) (((l_B, t) :: repeat (l_M, t) n) ++ (l_E, t) :: ys)
| sp_first w t n ws ys :
    length w = n + 1 -> spelled false ws ys ->
    spelled true ((w, t) :: ws) (repeat (l_M, t) n ++ (l_E, t) :: ys)
| sp_last first w t n :
    length w = n + 1 -> spelled first [(w, t)] ((l_B, t) :: repeat (l_M, t) n)
| sp_whole w t n :
    0 < n -> length w = n -> spelled true [(w, t)] (repeat (l_M, t) n).

(** [ws] are the words the HMM finds in the Han run [r]: they are spelled by a
    tagging of [r] that no other considered tagging exceeds *)
Definition hmm_finds {num} (T : ptables num) (r : str) (ws : list tagged) : Prop :=
  exists ys, considered T r ys /\
    (forall ys', considered T r ys' -> f_lt num (tag_score T r ys) (tag_score T r ys') = false) /\
    spelled true ws ys /\ concat (map fst ws) = r.

(** ** Text without Han characters *)

Definition numdot_char (c : char) : bool := ((c =? 46) || ((48 <=? c) && (c <=? 57)))%N%bool.

(** at the beginning of a piece: digits and points as far as they go are a number
    ("m"); otherwise letters and digits as far as they go are "eng"; the stretches
    between such pieces are "x" *)
Inductive tag_pieces : str -> list tagged -> Prop :=
| tg_nil : tag_pieces [] []
| tg_num c s u r ws :
    numdot_char c = true -> span numdot_char (c :: s) = (u, r) -> tag_pieces r ws ->
    tag_pieces (c :: s) ((u, [109%N]) :: ws)
| tg_eng c s u r ws :
    numdot_char c = false -> alnum_char c = true -> span alnum_char (c :: s) = (u, r) -> tag_pieces r ws ->
    tag_pieces (c :: s) ((u, [101; 110; 103]%N) :: ws)
| tg_gap u s ws :
    u <> [] -> Forall (fun c => numdot_char c = false /\ alnum_char c = false) u ->
    match s with c :: _ => numdot_char c || alnum_char c = true | [] => True end ->
    tag_pieces s ws -> tag_pieces (u ++ s) ((u, [120%N]) :: ws).

(** the HMM stage on Han runs and the text between them *)
Inductive stage_tags (found : str -> list tagged -> Prop) : list (bool * str) -> list tagged -> Prop :=
| sg_nil : stage_tags found [] []
| sg_han r ws rs out :
    found r ws -> stage_tags found rs out -> stage_tags found ((true, r) :: rs) (ws ++ out)
| sg_other r ws rs out :
    tag_pieces r ws -> stage_tags found rs out -> stage_tags found ((false, r) :: rs) (ws ++ out).

(** ** Tags with HMM: words of several characters, single characters and groups that
    are dictionary words have the tag of the table; the other groups of
    one-character words go to the HMM stage *)
Inductive tag_grouped (stage : str -> list tagged -> Prop) (D : dictionary) (tag : str -> str)
  : list str -> list tagged -> Prop :=
| gt_nil : tag_grouped stage D tag [] []
| gt_word w ws out :
    length w <> 1 -> tag_grouped stage D tag ws out ->
    tag_grouped stage D tag (w :: ws) ((w, tag w) :: out)
| gt_group g ws ps out :
    g <> [] -> Forall (fun w => length w = 1) g ->
    match ws with w :: _ => length w <> 1 | [] => True end ->
    (length g = 1 \/ is_word D (concat g) -> ps = map (fun w => (w, tag w)) g) ->
    (length g <> 1 -> ~ is_word D (concat g) -> stage (concat g) ps) ->
    tag_grouped stage D tag ws out -> tag_grouped stage D tag (g ++ ws) (ps ++ out).

(** ** Tags without HMM: adjacent one-character words that are letters or digits are
    joined and tagged "eng"; every other word has the tag of the table *)
Definition alnum_word (w : str) : Prop := exists c, w = [c] /\ alnum_char c = true.
Inductive tag_merged (tag : str -> str) : list str -> list tagged -> Prop :=
| tm_nil : tag_merged tag [] []
| tm_word w ws out :
    ~ alnum_word w -> tag_merged tag ws out -> tag_merged tag (w :: ws) ((w, tag w) :: out)
| tm_group g ws out :
    g <> [] -> Forall alnum_word g -> match ws with w :: _ => ~ alnum_word w | [] => True end ->
    tag_merged tag ws out -> tag_merged tag (g ++ ws) ((concat g, [101; 110; 103]%N) :: out).

(** ** Lines of a dictionary file, for the tagger *)

(** a line [word freq tag] in UTF-8, with its line end; the tagger does not look at
    the middle field *)
Definition tag_entry (line : bytes) (w t : str) : Prop :=
  exists f b eol,
    w <> [] /\ ~ In 32%N w /\ match w with c :: _ => is_bspace c = false | [] => True end /\
    ~ In 32%N f /\ ~ In 32%N t /\ (exists t0 c, t = t0 ++ [c] /\ is_bspace c = false) /\
    PyUtf8.utf8_encode (w ++ 32%N :: f ++ 32%N :: t) = Some b /\
    Forall (fun c => is_bspace c = true) eol /\ line = b ++ eol.

(** a line [word freq] in UTF-8 *)
Definition untagged_entry (line : bytes) (w : str) (f : Z) : Prop :=
  exists ds b eol,
    w <> [] /\ ~ In 32%N w /\ match w with c :: _ => is_bspace c = false | [] => True end /\
    ds <> [] /\ Forall (fun c => is_digit09 c = true) ds /\ f = SpecDict.digits_val ds /\
    PyUtf8.utf8_encode (w ++ 32%N :: ds) = Some b /\
    Forall (fun c => is_bspace c = true) eol /\ line = b ++ eol.

(** calls with non-negative frequencies; a new dictionary has non-negative
    frequencies and a positive total *)
Definition pop_nonneg (o : pop) : Prop :=
  match o with
  | PTok o => op_nonneg o
  | PInit _ false lines =>
      (forall x w f, In x lines -> parse_dict_line x = Some (w, f) -> (0 <= f)%Z) /\
      (forall fr total, gen_pfdict lines = Ok (fr, total) -> (0 < total)%Z)
  | _ => True
  end.
