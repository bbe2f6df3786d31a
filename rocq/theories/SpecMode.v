(** * Specification of the accurate mode with HMM, and of the HMM stage on mixed text *)
From Verif Require Import PyBase SpecBase SpecSeg.

(** The result [out] of the accurate mode for a run of word characters, from the
    words [ws] of its best segmentation.  Words of several characters are kept.
    Every maximal group of adjacent one-character words is kept as it is if it is
    one character, or if the characters together are a dictionary word; otherwise
    it is what the HMM stage makes of the joined characters. *)
Inductive hmm_grouped (stage : str -> list str -> Prop) (D : dictionary)
  : list str -> list str -> Prop :=
| hg_nil : hmm_grouped stage D [] []
| hg_word w ws out :
    length w <> 1 -> hmm_grouped stage D ws out -> hmm_grouped stage D (w :: ws) (w :: out)
| hg_group g ws ps out :
    g <> [] -> Forall (fun w => length w = 1) g ->
    match ws with w :: _ => length w <> 1 | [] => True end ->
    (length g = 1 \/ is_word D (concat g) -> ps = g) ->
    (length g <> 1 -> ~ is_word D (concat g) -> stage (concat g) ps) ->
    hmm_grouped stage D ws out -> hmm_grouped stage D (g ++ ws) (ps ++ out).

(** the longest beginning of [s] made of characters of a class, and the rest *)
Fixpoint span (p : char -> bool) (s : str) : str * str :=
  match s with
  | [] => ([], [])
  | c :: s' => if p c then let '(u, r) := span p s' in (c :: u, r) else ([], s)
  end.

(** a decimal point with at least one digit after it *)
Definition fraction (s : str) : str * str :=
  match s with
  | c :: r =>
      if (c =? 46)%N then
        match span is_decimal r with
        | ([], _) => ([], s)
        | (ds, r') => (c :: ds, r')
        end
      else ([], s)
  | [] => ([], s)
  end.
Definition percent (s : str) : str * str :=
  match s with
  | c :: r => if (c =? 37)%N then ([c], r) else ([], s)
  | [] => ([], s)
  end.

(** letters and digits, then possibly a fraction, then possibly a percent sign *)
Definition number_token (s : str) : str * str :=
  let '(a, r1) := span is_alnum s in
  let '(f, r2) := fraction r1 in
  let '(p, r3) := percent r2 in
  (a ++ f ++ p, r3).

(** text without Han characters: such tokens, and the stretches between them *)
Inductive token_pieces : str -> list str -> Prop :=
| tp_nil : token_pieces [] []
| tp_gap u s ws :
    u <> [] -> Forall (fun c => is_alnum c = false) u ->
    match s with c :: _ => is_alnum c = true | [] => True end ->
    token_pieces s ws -> token_pieces (u ++ s) (u :: ws)
| tp_token c s t r ws :
    is_alnum c = true -> number_token (c :: s) = (t, r) ->
    token_pieces r ws -> token_pieces (c :: s) (t :: ws).

(** a word found by the HMM, taken apart if it is to be split *)
Definition forced (force : list str) (w : str) : list str :=
  if in_dec (list_eq_dec N.eq_dec) w force then map (fun c => [c]) w else [w].

(** the HMM stage: [found r ws] says that the HMM finds the words [ws] in the Han
    run [r] *)
Inductive stage_text (found : str -> list str -> Prop) (force : list str)
  : list (bool * str) -> list str -> Prop :=
| st_nil : stage_text found force [] []
| st_han r ws rs out :
    found r ws -> stage_text found force rs out ->
    stage_text found force ((true, r) :: rs) (flat_map (forced force) ws ++ out)
| st_other r ws rs out :
    token_pieces r ws -> stage_text found force rs out ->
    stage_text found force ((false, r) :: rs) (ws ++ out).
