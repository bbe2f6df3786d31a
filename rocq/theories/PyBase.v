(** * Python primitives used by jieba.

    Nothing here models jieba code itself; it models the parts of the Python 3
    language and standard library that the jieba sources rely on.  *)
From Coq Require Export List NArith ZArith Bool Arith Lia.
Export ListNotations.

Set Implicit Arguments.

(** ** Text and bytes *)

(** A Python [str] is a sequence of code points, [bytes] a sequence of octets. *)
Definition char := N.
Definition str := list char.
Definition bytes := list N.

Fixpoint list_eqb {A} (eqb : A -> A -> bool) (a b : list A) : bool :=
  match a, b with
  | [], [] => true
  | x :: a', y :: b' => eqb x y && list_eqb eqb a' b'
  | _, _ => false
  end.

(** [a == b] on strings. *)
Definition str_eqb : str -> str -> bool := list_eqb N.eqb.

(** [s[a:b]] for non-negative [a], [b]; both ends are clamped to [len(s)]. *)
Definition slice {A} (s : list A) (a b : nat) : list A := firstn (b - a) (skipn a s).

(** [''.join(l)] *)
Definition join (l : list str) : str := concat l.

(** [sep.join(l)] *)
Fixpoint join_with (sep : str) (l : list str) : str :=
  match l with
  | [] => []
  | [x] => x
  | x :: l' => x ++ sep ++ join_with sep l'
  end.

(** ** Exceptions and generators *)

Inductive exn :=
| ValueError | KeyError | IndexError | ZeroDivisionError | OverflowError
| AttributeError | TypeError | NotImplementedError | FileNotFound
| PlainException
| OutOfFuel.   (** not a Python exception: a loop of the model ran out of fuel *)

Inductive res (A : Type) :=
| Ok (a : A)
| Err (e : exn).
Arguments Ok {A} _.
Arguments Err {A} _.

Definition rbind {A B} (r : res A) (f : A -> res B) : res B :=
  match r with Ok a => f a | Err e => Err e end.

(** A finished run of a generator: the values yielded, in order, and the
    exception (if any) that ended it.  [list(g)] is [g_list]. *)
Definition gen (A : Type) : Type := (list A * option exn)%type.

Definition gnil {A} : gen A := ([], None).
Definition gone {A} (x : A) : gen A := ([x], None).
Definition gof {A} (l : list A) : gen A := (l, None).
Definition gerr {A} (e : exn) : gen A := ([], Some e).

(** run [g], then (if it did not raise) [h] *)
Definition gapp {A} (g h : gen A) : gen A :=
  match snd g with
  | None => (fst g ++ fst h, snd h)
  | Some e => g
  end.

Definition gcons {A} (x : A) (g : gen A) : gen A := (x :: fst g, snd g).

(** [for x in l: (yield everything from f x)] *)
Fixpoint gfor {A B} (l : list A) (f : A -> gen B) : gen B :=
  match l with
  | [] => gnil
  | x :: l' => gapp (f x) (gfor l' f)
  end.

(** [for x in g: (yield everything from f x)]; an exception of [g] is raised
    after the values yielded before it were processed. *)
Definition gbind {A B} (g : gen A) (f : A -> gen B) : gen B :=
  gapp (gfor (fst g) f) ([], snd g).

(** [list(g)] *)
Definition g_list {A} (g : gen A) : res (list A) :=
  match snd g with None => Ok (fst g) | Some e => Err e end.

(** ** Dictionaries (insertion ordered) *)

Section Dict.
  Context {K V : Type} (eqb : K -> K -> bool).

  Fixpoint dget (d : list (K * V)) (k : K) : option V :=
    match d with
    | [] => None
    | (k', v) :: d' => if eqb k k' then Some v else dget d' k
    end.

  (** [k in d] *)
  Definition dmem (d : list (K * V)) (k : K) : bool :=
    match dget d k with Some _ => true | None => false end.

  (** [d[k] = v]: overwrite in place, or append *)
  Fixpoint dset (d : list (K * V)) (k : K) (v : V) : list (K * V) :=
    match d with
    | [] => [(k, v)]
    | (k', v') :: d' => if eqb k k' then (k', v) :: d' else (k', v') :: dset d' k v
    end.

  (** [d.update(e)] *)
  Definition dupdate (d e : list (K * V)) : list (K * V) :=
    fold_left (fun acc kv => dset acc (fst kv) (snd kv)) e d.
End Dict.

(** dictionaries keyed by strings *)
Definition sdict (V : Type) := list (str * V).
Definition sget {V} (d : sdict V) (k : str) : option V := dget str_eqb d k.
Definition smem {V} (d : sdict V) (k : str) : bool := dmem str_eqb d k.
Definition sset {V} (d : sdict V) (k : str) (v : V) : sdict V := dset str_eqb d k v.

(** sets of strings; [set.add] *)
Definition str_in (w : str) (l : list str) : bool := existsb (str_eqb w) l.
Definition set_add (l : list str) (w : str) : list str :=
  if str_in w l then l else l ++ [w].

(** ** [max] and [sorted] *)

(** [max] of a non-empty iterable: the first element, replaced by a later one
    only if that one compares greater. *)
Definition max_from {A} (gt : A -> A -> bool) (x : A) (l : list A) : A :=
  fold_left (fun m y => if gt y m then y else m) l x.

(** [max(l)]; [ValueError] on an empty iterable *)
Definition py_max {A} (gt : A -> A -> bool) (l : list A) : res A :=
  match l with
  | [] => Err ValueError
  | x :: l' => Ok (max_from gt x l')
  end.

(** [sorted(l, key=key, reverse=True)] for a key order without NaN: descending
    and stable.  (Insertion sort; Python's sort is a stable sort, and a stable
    descending order is unique.)  [lt a b] is [key(a) < key(b)]. *)
Fixpoint insert_desc {A} (lt : A -> A -> bool) (x : A) (l : list A) : list A :=
  match l with
  | [] => [x]
  | y :: l' => if lt x y then y :: insert_desc lt x l' else x :: y :: l'
  end.
Definition sorted_desc {A} (lt : A -> A -> bool) (l : list A) : list A :=
  fold_right (insert_desc lt) [] l.

(** [sorted(l)]: ascending and stable *)
Fixpoint insert_asc {A} (lt : A -> A -> bool) (x : A) (l : list A) : list A :=
  match l with
  | [] => [x]
  | y :: l' => if lt y x then y :: insert_asc lt x l' else x :: y :: l'
  end.
Definition sorted_asc {A} (lt : A -> A -> bool) (l : list A) : list A :=
  fold_right (insert_asc lt) [] l.

(** [l[:k]] for an integer [k] (negative counts from the end) *)
Definition slice_to {A} (l : list A) (k : Z) : list A :=
  if (k <? 0)%Z then firstn (length l - Z.to_nat (- k)) l
  else firstn (Z.to_nat k) l.

(** lexicographic order of strings by code point: [a < b] *)
Fixpoint str_ltb (a b : str) : bool :=
  match a, b with
  | [], [] => false
  | [], _ :: _ => true
  | _ :: _, [] => false
  | x :: a', y :: b' => (x <? y)%N || ((x =? y)%N && str_ltb a' b')
  end.

(** ** Character classes *)

Local Open Scope N_scope.

Definition in_range (lo hi c : N) : bool := (lo <=? c) && (c <=? hi).

(** [str.isspace] on one character, which is also [\s] of [re] on [str] and the
    set removed by [str.strip()]. *)
Definition is_space (c : char) : bool :=
  in_range 0x9 0xD c || in_range 0x1C 0x20 c || (c =? 0x85) || (c =? 0xA0)
  || (c =? 0x1680) || in_range 0x2000 0x200A c || (c =? 0x2028) || (c =? 0x2029)
  || (c =? 0x202F) || (c =? 0x205F) || (c =? 0x3000).

(** line boundaries of [str.splitlines] *)
Definition is_linebreak (c : char) : bool :=
  in_range 0xA 0xD c || in_range 0x1C 0x1E c || (c =? 0x85) || (c =? 0x2028)
  || (c =? 0x2029).

(** ASCII whitespace, the set removed by [bytes.strip()] *)
Definition is_bspace (b : N) : bool := in_range 0x9 0xD b || (b =? 0x20).

Definition is_digit09 (c : char) : bool := in_range 0x30 0x39 c.
Definition is_lower (c : char) : bool := in_range 0x61 0x7A c.
Definition is_upper (c : char) : bool := in_range 0x41 0x5A c.
(** [[a-zA-Z0-9]] *)
Definition is_alnum (c : char) : bool := is_lower c || is_upper c || is_digit09 c.

(** First code points of the runs of ten decimal digits (Unicode 14, category Nd). *)
Definition nd_starts : list N :=
  [0x30; 0x660; 0x6f0; 0x7c0; 0x966; 0x9e6; 0xa66; 0xae6; 0xb66; 0xbe6; 0xc66;
   0xce6; 0xd66; 0xde6; 0xe50; 0xed0; 0xf20; 0x1040; 0x1090; 0x17e0; 0x1810;
   0x1946; 0x19d0; 0x1a80; 0x1a90; 0x1b50; 0x1bb0; 0x1c40; 0x1c50; 0xa620;
   0xa8d0; 0xa900; 0xa9d0; 0xa9f0; 0xaa50; 0xabf0; 0xff10; 0x104a0; 0x10d30;
   0x11066; 0x110f0; 0x11136; 0x111d0; 0x112f0; 0x11450; 0x114d0; 0x11650;
   0x116c0; 0x11730; 0x118e0; 0x11950; 0x11c50; 0x11d50; 0x11da0; 0x16a60;
   0x16ac0; 0x16b50; 0x1d7ce; 0x1d7d8; 0x1d7e2; 0x1d7ec; 0x1d7f6; 0x1e140;
   0x1e2f0; 0x1e950; 0x1fbf0].

(** decimal value of a character, as used by [int()] *)
Definition digit_val (c : char) : option N :=
  match find (fun b => in_range b (b + 9) c) nd_starts with
  | Some b => Some (c - b)
  | None => None
  end.

(** [\d] of [re] on [str] *)
Definition is_decimal (c : char) : bool :=
  match digit_val c with Some _ => true | None => false end.

(** ** Stripping and splitting *)

Fixpoint lstrip_by (p : N -> bool) (s : list N) : list N :=
  match s with
  | [] => []
  | c :: s' => if p c then lstrip_by p s' else s
  end.
Definition rstrip_by (p : N -> bool) (s : list N) : list N := rev (lstrip_by p (rev s)).
Definition strip_by (p : N -> bool) (s : list N) : list N := rstrip_by p (lstrip_by p s).

(** [str.strip()] and [bytes.strip()] *)
Definition str_strip (s : str) : str := strip_by is_space s.
Definition bytes_strip (b : bytes) : bytes := strip_by is_bspace b.

(** [s.split(sep)] for a one-character separator; never empty *)
Fixpoint split_on (sep : N) (s : list N) : list (list N) :=
  match s with
  | [] => [[]]
  | c :: s' =>
      if c =? sep then [] :: split_on sep s'
      else match split_on sep s' with
           | [] => [[c]]              (* unreachable *)
           | p :: ps => (c :: p) :: ps
           end
  end.

(** [s.splitlines(True)]; [acc] is the current line, reversed *)
Fixpoint splitlines_keep_from (acc : str) (s : str) : list str :=
  match s with
  | [] => match acc with [] => [] | _ => [rev acc] end
  | c :: s' =>
      if c =? 13 then
        match s' with
        | d :: s'' =>
            if d =? 10 then rev (d :: c :: acc) :: splitlines_keep_from [] s''
            else rev (c :: acc) :: splitlines_keep_from [] s'
        | [] => [rev (c :: acc)]
        end
      else if is_linebreak c then rev (c :: acc) :: splitlines_keep_from [] s'
      else splitlines_keep_from (c :: acc) s'
  end.
Definition splitlines_keep (s : str) : list str := splitlines_keep_from [] s.

(** [s.splitlines()] *)
Fixpoint splitlines_from (acc : str) (s : str) : list str :=
  match s with
  | [] => match acc with [] => [] | _ => [rev acc] end
  | c :: s' =>
      if c =? 13 then
        match s' with
        | d :: s'' =>
            if d =? 10 then rev acc :: splitlines_from [] s''
            else rev acc :: splitlines_from [] s'
        | [] => [rev acc]
        end
      else if is_linebreak c then rev acc :: splitlines_from [] s'
      else splitlines_from (c :: acc) s'
  end.
Definition splitlines (s : str) : list str := splitlines_from [] s.

(** ** [int()] on a string, base 10

    Whitespace around, one optional sign, decimal digits of any script, single
    underscores between digits; everything else is [ValueError].  Python's limit
    on the number of digits (4300, since 3.11) is not modelled. *)

Definition is_int_space (c : char) : bool :=
  is_bspace c || ((127 <=? c) && is_space c).

(** digits with single underscores between them; [prev_digit] says whether the
    previous character was a digit *)
Fixpoint parse_digits (prev_digit : bool) (acc : Z) (s : str) : option Z :=
  match s with
  | [] => if prev_digit then Some acc else None
  | c :: s' =>
      match digit_val c with
      | Some d => parse_digits true (acc * 10 + Z.of_N d)%Z s'
      | None =>
          if (c =? 0x5F) && prev_digit then
            match s' with
            | [] => None
            | _ => parse_digits false acc s'
            end
          else None
      end
  end.

Definition parse_int (s : str) : option Z :=
  match strip_by is_int_space s with
  | [] => None
  | c :: s' =>
      if c =? 0x2D then option_map Z.opp (parse_digits false 0%Z s')
      else if c =? 0x2B then parse_digits false 0%Z s'
      else parse_digits false 0%Z (c :: s')
  end.

(** ** Strict UTF-8 *)

(** [bytes.decode('utf-8')]: [None] is [UnicodeDecodeError] (a [ValueError]).
    Overlong forms, surrogates and values above U+10FFFF are rejected. *)
Definition is_cont (b : N) : bool := in_range 0x80 0xBF b.

Fixpoint utf8_decode (b : bytes) : option str :=
  match b with
  | [] => Some []
  | b0 :: r0 =>
      if b0 <? 0x80 then option_map (cons b0) (utf8_decode r0)
      else if in_range 0xC2 0xDF b0 then
        match r0 with
        | b1 :: r1 =>
            if is_cont b1 then
              option_map (cons ((b0 - 0xC0) * 0x40 + (b1 - 0x80))) (utf8_decode r1)
            else None
        | _ => None
        end
      else if in_range 0xE0 0xEF b0 then
        match r0 with
        | b1 :: b2 :: r2 =>
            if is_cont b1 && is_cont b2
               && implb (b0 =? 0xE0) (0xA0 <=? b1) && implb (b0 =? 0xED) (b1 <=? 0x9F)
            then option_map (cons ((b0 - 0xE0) * 0x1000 + (b1 - 0x80) * 0x40 + (b2 - 0x80)))
                            (utf8_decode r2)
            else None
        | _ => None
        end
      else if in_range 0xF0 0xF4 b0 then
        match r0 with
        | b1 :: b2 :: b3 :: r3 =>
            if is_cont b1 && is_cont b2 && is_cont b3
               && implb (b0 =? 0xF0) (0x90 <=? b1) && implb (b0 =? 0xF4) (b1 <=? 0x8F)
            then option_map (cons ((b0 - 0xF0) * 0x40000 + (b1 - 0x80) * 0x1000
                                   + (b2 - 0x80) * 0x40 + (b3 - 0x80)))
                            (utf8_decode r3)
            else None
        | _ => None
        end
      else None
  end.
