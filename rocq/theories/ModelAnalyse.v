(** * Keyword extraction: jieba/analyse/tfidf.py and jieba/analyse/textrank.py

    Parameters: the number type; [str.lower] and [float(str)], which are library
    functions kept abstract.  Sorting assumes that no NaN is among the weights.
    File names are resolved by the caller: a call gets the absolute path and what
    is there. *)
From Verif Require Import PyBase PyRegex PyNum ModelFinalseg ModelSeg ModelDict ModelApi ModelPosseg.

Set Implicit Arguments.

(** what the cutters yield and the dictionaries are keyed by: a [str], or a
    [pair] with its word and flag, jieba/posseg/__init__.py:44-48 *)
Inductive term :=
| TWord (w : str)
| TPair (w flag : str).

(** [k.word] of a pair, the string itself otherwise, tfidf.py:100,106 *)
Definition term_word (t : term) : str :=
  match t with TWord w => w | TPair w _ => w end.

(** [==], jieba/posseg/__init__.py:68-69 *)
Definition term_eqb (a b : term) : bool :=
  match a, b with
  | TWord v, TWord w => str_eqb v w
  | TPair v f, TPair w g => str_eqb v w && str_eqb f g
  | _, _ => false
  end.

(** [<], jieba/posseg/__init__.py:65-66 (flags are not compared) *)
Definition term_ltb (a b : term) : bool := str_ltb (term_word a) (term_word b).

(** [tags[:topK] if topK else tags], tfidf.py:113-116, textrank.py:105-108 *)
Definition take_top {A} (topK : option Z) (l : list A) : list A :=
  match topK with
  | None => l
  | Some k => if (k =? 0)%Z then l else slice_to l k
  end.

(** ** [KeywordExtractor], tfidf.py:15-32 *)

(** [STOP_WORDS], lines 17-21 (a set, so "that" is in it once) *)
Definition stop_words_default : list str :=
  [[116; 104; 101]; [111; 102]; [105; 115]; [97; 110; 100]; [116; 111]; [105; 110];
   [116; 104; 97; 116]; [119; 101]; [102; 111; 114]; [97; 110]; [97; 114; 101];
   [98; 121]; [98; 101]; [97; 115]; [111; 110]; [119; 105; 116; 104]; [99; 97; 110];
   [105; 102]; [102; 114; 111; 109]; [119; 104; 105; 99; 104]; [121; 111; 117];
   [105; 116]; [116; 104; 105; 115]; [116; 104; 101; 110]; [97; 116];
   [104; 97; 118; 101]; [97; 108; 108]; [110; 111; 116]; [111; 110; 101];
   [104; 97; 115]; [111; 114]]%N.

(** [set_stop_words], lines 23-29: [content] is [None] if there is no such file.
    The lines are added as they are, up to the line end. *)
Definition set_stop_words (stop : list str) (content : option bytes) : list str * option exn :=
  match content with
  | None => (stop, Some PlainException)
  | Some b =>
      match utf8_decode b with
      | None => (stop, Some ValueError)
      | Some text => (fold_left set_add (splitlines text) stop, None)
      end
  end.

(** the test of tfidf.py:101 and textrank.py:66-67 *)
Definition kept (lower : str -> str) (stop : list str) (w : str) : bool :=
  (2 <=? length (str_strip w)) && negb (str_in (lower w) stop).

Section Analyse.
  Variable num : Num.
  Notation F := (F num).
  Variable lower : str -> str.              (* str.lower *)
  Variable float_of : str -> option F.      (* float(s); None is ValueError *)

  (** an [int] operand of a float operation, or a float literal with that value *)
  Definition lit (z : Z) : F := match f_of_Z num z with Some x => x | None => f_zero num end.

  (** a dictionary keyed by terms *)
  Definition kdict (V : Type) := list (term * V).
  (** [d.get(k)], tfidf.py:103,107, textrank.py:38-39 *)
  Definition kget {V} (d : kdict V) (k : term) : option V := dget term_eqb d k.
  (** [d[k] = v], tfidf.py:103,107, textrank.py:30,40,52 *)
  Definition kset {V} (d : kdict V) (k : term) (v : V) : kdict V := dset term_eqb d k v.
  (** [d[k]] of a [defaultdict(float)], textrank.py:39; of a [dict] with the key, tfidf.py:112 *)
  Definition kfloat (d : kdict F) (k : term) : F :=
    match kget d k with Some x => x | None => f_zero num end.

  (** ** [IDFLoader], tfidf.py:35-56 *)

  Record idf_loader := mkIdf { il_path : str; il_freq : sdict F; il_median : F }.

  (** the loop of lines 49-51: the table so far if a line is malformed *)
  Fixpoint idf_lines (lines : list str) (tab : sdict F) : sdict F * option exn :=
    match lines with
    | [] => (tab, None)
    | line :: lines' =>
        match split_on 32%N (str_strip line) with
        | [word; freq] =>
            match float_of freq with
            | Some x => idf_lines lines' (sset tab word x)
            | None => (tab, Some ValueError)
            end
        | _ => (tab, Some ValueError)
        end
    end.

  (** [sorted(self.idf_freq.values())[len(self.idf_freq) // 2]], lines 52-53 *)
  Definition idf_median (tab : sdict F) : res F :=
    match nth_error (sorted_asc (f_lt num) (map snd tab)) (length tab / 2) with
    | Some x => Ok x
    | None => Err IndexError
    end.

  (** [set_new_path], lines 44-53; the path is remembered before the file is read *)
  Definition set_new_path (L : idf_loader) (path : str) (content : option bytes)
    : idf_loader * option exn :=
    if str_eqb (il_path L) path then (L, None)
    else
      match content with
      | None => (mkIdf path (il_freq L) (il_median L), Some FileNotFound)
      | Some b =>
          match utf8_decode b with
          | None => (mkIdf path (il_freq L) (il_median L), Some ValueError)
          | Some text =>
              let '(tab, e) := idf_lines (splitlines text) [] in
              match e with
              | Some e => (mkIdf path tab (il_median L), Some e)
              | None =>
                  match idf_median tab with
                  | Err e => (mkIdf path tab (il_median L), Some e)
                  | Ok m => (mkIdf path tab m, None)
                  end
              end
          end
      end.

  (** ** [TFIDF], tfidf.py:59-116 *)

  (** the tokenizers are those of [pworld]: [jieba.dt], and [jieba.posseg.dt] as
      number 0 *)
  Record tfidf := mkTfidf {
    tf_loader : idf_loader;
    tf_freq : sdict F;
    tf_median : F;
    tf_stop : list str;
  }.

  (** [__init__], lines 61-66, with what is at the path; [None] if it raises *)
  Definition tfidf_init (path : str) (content : option bytes) : res tfidf :=
    match set_new_path (mkIdf [] [] (f_zero num)) path content with
    | (L, None) => Ok (mkTfidf L (il_freq L) (il_median L) stop_words_default)
    | (_, Some e) => Err e
    end.

  (** [set_idf_path], lines 68-73; [content] is [None] if there is no such file *)
  Definition set_idf_path (x : tfidf) (path : str) (content : option bytes)
    : tfidf * option exn :=
    match content with
    | None => (x, Some PlainException)
    | Some _ =>
        match set_new_path (tf_loader x) path content with
        | (L, None) => (mkTfidf L (il_freq L) (il_median L) (tf_stop x), None)
        | (L, Some e) => (mkTfidf L (tf_freq x) (tf_median x) (tf_stop x), Some e)
        end
    end.

  (** lines 95-102: the key a cut word is counted under, if it is counted *)
  Definition tfidf_key (stop : list str) (allow : list str) (withFlag : bool) (t : term)
    : option term :=
    let keep k := if kept lower stop (term_word t) then Some k else None in
    match allow with
    | [] => keep t
    | _ =>
        match t with
        | TPair w f =>
            if str_in f allow then keep (if withFlag then t else TWord w) else None
        | TWord _ => None          (* unreachable: the tagger yields pairs *)
        end
    end.

  (** lines 93-103 *)
  Definition tfidf_count (stop allow : list str) (withFlag : bool) (ts : list term) : kdict F :=
    fold_left
      (fun freq t =>
         match tfidf_key stop allow withFlag t with
         | None => freq
         | Some k => kset freq k (f_add num (kfloat freq k) (lit 1))
         end) ts [].

  (** lines 105-107: every key is visited once, so the update in place is a map *)
  Fixpoint tfidf_scale (x : tfidf) (total : F) (freq : kdict F) : res (kdict F) :=
    match freq with
    | [] => Ok []
    | (k, n) :: freq' =>
        let idf := match sget (tf_freq x) (term_word k) with Some v => v | None => tf_median x end in
        rbind (py_div num idf total) (fun q =>
        rbind (tfidf_scale x total freq') (fun r => Ok ((k, f_mul num n q) :: r)))
    end.

  (** lines 93-107; [sum] starts from [0] *)
  Definition tfidf_weights (x : tfidf) (allow : list str) (withFlag : bool) (ts : list term)
    : res (kdict F) :=
    let freq := tfidf_count (tf_stop x) allow withFlag ts in
    let total := fold_left (f_add num) (map snd freq) (f_zero num) in
    tfidf_scale x total freq.

  (** what is returned: the keys, or the items *)
  Inductive tags :=
  | Keys (l : list term)
  | Items (l : list (term * F)).

  (** lines 109-116, and textrank.py:100-108 *)
  Definition best_tags (withWeight : bool) (topK : option Z) (d : kdict F) : tags :=
    if withWeight
    then Items (take_top topK (sorted_desc (fun a b => f_lt num (snd a) (snd b)) d))
    else Keys (take_top topK
                 (sorted_desc (fun a b => f_lt num (kfloat d a) (kfloat d b)) (map fst d))).

  Variable H : hmm num.
  Variable T : ptables num.
  Variable ord : orders.

  (** lines 88-92 *)
  Definition tfidf_words (w : pworld) (allow : list str) (s : str) : pworld * gen term :=
    match allow with
    | [] =>
        match do_pop num H T ord w (PTok (OpCut false true s)) with
        | (w', POut (OutWords g)) => (w', (map TWord (fst g), snd g))
        | (w', _) => (w', gnil)           (* unreachable *)
        end
    | _ =>
        match do_pop num H T ord w (PCut 0 true s) with
        | (w', PWords g) => (w', (map (fun p => TPair (fst p) (snd p)) (fst g), snd g))
        | (w', PExn e) => (w', gerr e)
        | (w', _) => (w', gnil)           (* unreachable *)
        end
    end.

  (** [extract_tags], lines 75-116 *)
  Definition extract_tags (w : pworld) (x : tfidf) (s : str) (topK : option Z)
             (withWeight : bool) (allow : list str) (withFlag : bool) : pworld * res tags :=
    let '(w', g) := tfidf_words w allow s in
    (w', rbind (g_list g) (fun ts =>
         rbind (tfidf_weights x allow withFlag ts) (fun d =>
         Ok (best_tags withWeight topK d)))).

  (** ** [UndirectWeightedGraph], textrank.py:13-54 *)

  Definition edge := (term * term * Z)%type.
  (** [self.graph], textrank.py:17 *)
  Definition graph := kdict (list edge).

  (** [self.graph[k].append(e)] on a [defaultdict(list)] *)
  Definition push (g : graph) (k : term) (e : edge) : graph :=
    kset g k ((match kget g k with Some l => l | None => [] end) ++ [e]).

  (** [addEdge], lines 19-22 *)
  Definition add_edge (g : graph) (a b : term) (w : Z) : graph :=
    push (push g a (a, b, w)) b (b, a, w).

  (** [d], line 14 *)
  Definition damping : F := f_div num (lit 85) (lit 100).

  (** lines 37-39 *)
  Fixpoint rank_sum (outs ws : kdict F) (es : list edge) (s : F) : res F :=
    match es with
    | [] => Ok s
    | (_, m, w) :: es' =>
        rbind (py_div num (lit w) (kfloat outs m)) (fun q =>
        rank_sum outs ws es' (f_add num s (f_mul num q (kfloat ws m))))
    end.

  (** lines 36-40 *)
  Fixpoint rank_sweep (g : graph) (outs : kdict F) (ns : list term) (ws : kdict F)
    : res (kdict F) :=
    match ns with
    | [] => Ok ws
    | n :: ns' =>
        rbind (rank_sum outs ws (match kget g n with Some es => es | None => [] end) (f_zero num)) (fun s =>
        rank_sweep g outs ns'
          (kset ws n (f_add num (f_sub num (lit 1) damping) (f_mul num damping s))))
    end.

  (** line 35 *)
  Fixpoint rank_iter (k : nat) (g : graph) (outs : kdict F) (ns : list term) (ws : kdict F)
    : res (kdict F) :=
    match k with
    | O => Ok ws
    | S k' => rbind (rank_sweep g outs ns ws) (rank_iter k' g outs ns)
    end.

  (** [sys.float_info[0]] and [sys.float_info[3]], line 42 *)
  Definition float_max : F := lit ((2 ^ 53 - 1) * 2 ^ 971).
  (** [sys.float_info[3]], textrank.py:42 *)
  Definition float_min : F := f_div num (lit 1) (lit (2 ^ 1022)).

  (** lines 42-48 *)
  Definition rank_min (ws : kdict F) : F :=
    fold_left (fun m x => if f_lt num x m then x else m) (map snd ws) float_max.
  (** textrank.py:42-48, [max_rank] *)
  Definition rank_max (ws : kdict F) : F :=
    fold_left (fun m x => if f_lt num m x then x else m) (map snd ws) float_min.

  (** lines 50-52 *)
  Fixpoint rank_norm (lo hi : F) (ws : kdict F) : res (kdict F) :=
    match ws with
    | [] => Ok []
    | (n, x) :: ws' =>
        let low := f_div num lo (lit 10) in
        rbind (py_div num (f_sub num x low) (f_sub num hi low)) (fun y =>
        rbind (rank_norm lo hi ws') (fun r => Ok ((n, y) :: r)))
    end.

  (** lines 25-31: the weights a node starts with and the total weight of its edges *)
  Definition rank_start (g : graph) : kdict F :=
    let wsdef := f_div num (lit 1) (match g with [] => lit 1 | _ => lit (Z.of_nat (length g)) end) in
    map (fun no => (fst no, wsdef)) g.
  (** [outSum], textrank.py:26-31 *)
  Definition rank_outs (g : graph) : kdict F :=
    map (fun no => (fst no, fold_left (fun a (e : edge) => f_add num a (lit (snd e))) (snd no) (f_zero num))) g.

  (** [rank], lines 24-54 *)
  Definition rank_raw (g : graph) : res (kdict F) :=
    rank_iter 10 g (rank_outs g) (sorted_asc term_ltb (map fst g)) (rank_start g).
  (** [rank], textrank.py:24-54 *)
  Definition rank (g : graph) : res (kdict F) :=
    rbind (rank_raw g) (fun ws => rank_norm (rank_min ws) (rank_max ws) ws).

  (** ** [TextRank], textrank.py:57-110 *)

  (** the stop words and the window size ([span], 5 unless changed; line 63) *)
  Record textrank := mkTr { tr_stop : list str; tr_span : nat }.
  (** textrank.py:59-63 *)
  Definition textrank_init : textrank := mkTr stop_words_default 5.

  (** [pairfilter], lines 65-67 *)
  Definition pairfilter (x : textrank) (filt : list str) (p : tagged) : bool :=
    str_in (snd p) filt && kept lower (tr_stop x) (fst p).

  (** equality of the keys of [cm], textrank.py:93,95 *)
  Definition pair_eqb (a b : term * term) : bool :=
    term_eqb (fst a) (fst b) && term_eqb (snd a) (snd b).

  (** the key of a word, lines 92-95 *)
  Definition tr_key (allow : list str) (withFlag : bool) (p : tagged) : term :=
    match allow with
    | [] => TWord (fst p)
    | _ => if withFlag then TPair (fst p) (snd p) else TWord (fst p)
    end.

  (** [cm[k] += 1] on a [defaultdict(int)], textrank.py:83,93,95 *)
  Definition bump (cm : list (term * term * Z)) (k : term * term) : list (term * term * Z) :=
    dset pair_eqb cm k ((match dget pair_eqb cm k with Some n => n | None => 0%Z end) + 1)%Z.

  (** lines 85-95.  [range(i + 1, i + span)] cut off at [len(words)] is: the next
      [span - 1] words. *)
  Fixpoint cooccur (x : textrank) (allow : list str) (withFlag : bool) (words : list tagged)
           (cm : list (term * term * Z)) : list (term * term * Z) :=
    match words with
    | [] => cm
    | p :: rest =>
        cooccur x allow withFlag rest
          (if pairfilter x allow p then
             fold_left
               (fun cm q =>
                  if pairfilter x allow q
                  then bump cm (tr_key allow withFlag p, tr_key allow withFlag q) else cm)
               (firstn (tr_span x - 1) rest) cm
           else cm)
    end.

  (** lines 97-98 *)
  Definition graph_of (cm : list (term * term * Z)) : graph :=
    fold_left (fun g kw => add_edge g (fst (fst kw)) (snd (fst kw)) (snd kw)) cm [].

  (** [textrank], lines 69-110 *)
  Definition textrank_words (x : textrank) (words : list tagged) (allow : list str)
             (withFlag : bool) : res (kdict F) :=
    rank (graph_of (cooccur x allow withFlag words [])).

  (** [textrank], textrank.py:69-110 *)
  Definition textrank_tags (w : pworld) (x : textrank) (s : str) (topK : option Z)
             (withWeight : bool) (allow : list str) (withFlag : bool) : pworld * res tags :=
    match do_pop num H T ord w (PCut 0 true s) with
    | (w', PWords g) =>
        (w', rbind (g_list g) (fun words =>
             rbind (textrank_words x words allow withFlag) (fun d =>
             Ok (best_tags withWeight topK d))))
    | (w', PExn e) => (w', Err e)
    | (w', _) => (w', Err OutOfFuel)      (* unreachable *)
    end.

  (** ** The module, jieba/analyse/__init__.py:9-18 *)

  (** [set_stop_words]: first the TF-IDF extractor, then the TextRank one *)
  Definition mod_set_stop_words (x : tfidf) (y : textrank) (content : option bytes)
    : tfidf * textrank * option exn :=
    match set_stop_words (tf_stop x) content with
    | (s, Some e) => (mkTfidf (tf_loader x) (tf_freq x) (tf_median x) s, y, Some e)
    | (s, None) =>
        let '(s', e) := set_stop_words (tr_stop y) content in
        (mkTfidf (tf_loader x) (tf_freq x) (tf_median x) s, mkTr s' (tr_span y), e)
    end.

  (** what can be called on the two extractors: [set_idf_path] of the TF-IDF one,
      tfidf.py:68-73 (the module's name for it, line 14), [set_stop_words] of the module,
      and [set_stop_words] of one extractor, tfidf.py:23-29 *)
  Inductive aop :=
  | ASetIdf (path : str) (content : option bytes)
  | AModStop (content : option bytes)
  | ATfStop (content : option bytes)
  | ATrStop (content : option bytes).

  (** the extractors after a call; an exception goes to the caller *)
  Definition do_aop (xy : tfidf * textrank) (op : aop) : tfidf * textrank :=
    let '(x, y) := xy in
    match op with
    | ASetIdf path content => (fst (set_idf_path x path content), y)
    | AModStop content => fst (mod_set_stop_words x y content)
    | ATfStop content =>
        (mkTfidf (tf_loader x) (tf_freq x) (tf_median x) (fst (set_stop_words (tf_stop x) content)), y)
    | ATrStop content => (x, mkTr (fst (set_stop_words (tr_stop y) content)) (tr_span y))
    end.
  (** a history of such calls, jieba/analyse/__init__.py:9-18 *)
  Definition run_aops (xy : tfidf * textrank) (ops : list aop) : tfidf * textrank :=
    fold_left do_aop ops xy.
End Analyse.
