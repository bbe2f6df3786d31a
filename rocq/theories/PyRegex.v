(** * The subset of Python's [re] used by jieba.

    A regular expression is matched by enumerating, in the priority order of a
    backtracking matcher (greedy before shorter, left alternative before right),
    all ways to match; the match reported is the first one. *)
From Verif Require Import PyBase.

Inductive re :=
| RCls (p : char -> bool)            (* one character of a class *)
| RStr (w : str)                     (* a literal *)
| RSeq (a b : re)
| RAlt (a b : re)                    (* a|b *)
| ROpt (a : re)                      (* a?  (greedy) *)
| RPlus (p : char -> bool)           (* [..]+  (greedy) *)
| RPlusLazy (p : char -> bool)       (* [..]+? *)
| RGrp (n : nat) (a : re)            (* capturing group number n *)
| RBol                               (* ^ *)
| REol.                              (* $ *)

Definition groups := list (nat * str).

(** rests left after consuming one or more characters of class [p], longest
    match first / shortest match first *)
Fixpoint plus_rests (p : char -> bool) (s : str) : list str :=
  match s with
  | [] => []
  | c :: s' => if p c then plus_rests p s' ++ [s'] else []
  end.
Fixpoint plus_rests_lazy (p : char -> bool) (s : str) : list str :=
  match s with
  | [] => []
  | c :: s' => if p c then s' :: plus_rests_lazy p s' else []
  end.

Fixpoint strip_prefix (w s : str) : option str :=
  match w, s with
  | [], _ => Some s
  | x :: w', y :: s' => if (x =? y)%N then strip_prefix w' s' else None
  | _ :: _, [] => None
  end.

(** all matches of [r] at the beginning of [s], in priority order, as (rest,
    captured groups, latest first); [n0] is the length of the whole subject, so
    that [s] is at the beginning of the subject iff its length is [n0]. *)
Fixpoint rmatch (n0 : nat) (r : re) (s : str) (g : groups) : list (str * groups) :=
  match r with
  | RCls p => match s with c :: s' => if p c then [(s', g)] else [] | [] => [] end
  | RStr w => match strip_prefix w s with Some s' => [(s', g)] | None => [] end
  | RSeq a b => flat_map (fun m => rmatch n0 b (fst m) (snd m)) (rmatch n0 a s g)
  | RAlt a b => rmatch n0 a s g ++ rmatch n0 b s g
  | ROpt a => rmatch n0 a s g ++ [(s, g)]
  | RPlus p => map (fun t => (t, g)) (plus_rests p s)
  | RPlusLazy p => map (fun t => (t, g)) (plus_rests_lazy p s)
  | RGrp n a => map (fun m => (fst m, (n, firstn (length s - length (fst m)) s) :: snd m))
                    (rmatch n0 a s g)
  | RBol => if (length s =? n0)%nat then [(s, g)] else []
  | REol => match s with
            | [] => [(s, g)]
            | [c] => if (c =? 10)%N then [(s, g)] else []
            | _ => []
            end
  end.

(** [r.match(s)]: rest of the subject and groups, or no match *)
Definition re_match (r : re) (s : str) : option (str * groups) :=
  hd_error (rmatch (length s) r s []).

(** [r.match(s) is not None] *)
Definition re_matches (r : re) (s : str) : bool :=
  match re_match r s with Some _ => true | None => false end.

Fixpoint group_get (g : groups) (n : nat) : option str :=
  match g with
  | [] => None
  | (m, t) :: g' => if (m =? n)%nat then Some t else group_get g' n
  end.

(** [r.split(s)] for a pattern that is one capturing group and cannot match the
    empty string: the text between matches and the matches alternate.  [acc] is
    the text since the last match, reversed.  A (here impossible) empty match is
    treated as no match. *)
Fixpoint re_split_go (fuel : nat) (n0 : nat) (r : re) (acc s : str) : list str :=
  match fuel with
  | O => [rev acc ++ s]               (* unreachable with enough fuel *)
  | S fuel' =>
      match s with
      | [] => [rev acc]
      | c :: s' =>
          match hd_error (rmatch n0 r s []) with
          | Some (rest, g) =>
              if (length rest <? length s)%nat then
                rev acc :: firstn (length s - length rest) s
                        :: re_split_go fuel' n0 r [] rest
              else re_split_go fuel' n0 r (c :: acc) s'
          | None => re_split_go fuel' n0 r (c :: acc) s'
          end
      end
  end.
Definition re_split (r : re) (s : str) : list str :=
  re_split_go (S (length s)) (length s) r [] s.
