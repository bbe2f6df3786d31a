(** * Specification vocabulary for the dictionary calls *)
From Verif Require Import PyBase PyNum PyUtf8 SpecBase SpecSeg.

(** [k] is a non-empty prefix of [w] *)
Definition is_prefix (k w : str) : bool :=
  match k with [] => false | _ => str_eqb k (firstn (length k) w) end.

(** the dictionary after giving [w] the frequency [f]: absent prefixes of [w] come
    in with frequency 0, nothing else changes *)
Definition after_add (D : dictionary) (w : str) (f : Z) : dictionary :=
  fun k =>
    if str_eqb k w then Some f
    else match D k with
         | Some n => Some n
         | None => if is_prefix k w then Some 0%Z else None
         end.

(** sum of all frequencies *)
Definition sum_of (fr : list (str * Z)) : Z := fold_right (fun kv acc => (snd kv + acc)%Z) 0%Z fr.

(** the frequency of [k] in a list of entries: that of its last occurrence *)
Fixpoint last_freq (es : list (str * Z)) (k : str) : option Z :=
  match es with
  | [] => None
  | (w, f) :: es' =>
      match last_freq es' k with
      | Some n => Some n
      | None => if str_eqb k w then Some f else None
      end
  end.

(** what a file with the entries [es] means *)
Definition file_dict (es : list (str * Z)) : dictionary :=
  fun k =>
    match last_freq es k with
    | Some n => Some n
    | None => if existsb (fun e => is_prefix k (fst e)) es then Some 0%Z else None
    end.

(** ** Lines of a user dictionary: a word, then a frequency and/or a tag *)

(** [line] is [w], then a blank and the digits [f] if any, then a blank and the
    lower-case letters [t] if any *)
Definition line_parts (line w : str) (f t : option str) : Prop :=
  w <> [] /\
  line = w ++ match f with Some ds => 32%N :: ds | None => [] end
           ++ match t with Some ls => 32%N :: ls | None => [] end /\
  match f with Some ds => ds <> [] /\ Forall (fun c => is_digit09 c = true) ds | None => True end /\
  match t with Some ls => ls <> [] /\ Forall (fun c => is_lower c = true) ls | None => True end.

(** value of a string of ASCII digits *)
Definition digits_val (ds : str) : Z := fold_left (fun acc c => (acc * 10 + (Z.of_N c - 48))%Z) ds 0%Z.

(** ** Signs *)

(** non-negative numbers are closed under the operations of [suggest_freq] *)
Record NumSign (num : Num) := {
  s_nn : F num -> Prop;
  s_of_Z : forall n x, (0 <= n)%Z -> f_of_Z num n = Some x -> s_nn x;
  s_mul : forall x y, s_nn x -> s_nn y -> s_nn (f_mul num x y);
  s_div : forall x y, s_nn x -> s_nn y -> s_nn (f_div num x y);
  s_trunc : forall x n, s_nn x -> f_trunc num x = Ok n -> (0 <= n)%Z;
}.
Arguments s_nn {num}.

(** ** Consistent dictionaries *)

(** frequencies are non-negative and their sum is at most the total *)
Definition total_ok (fr : list (str * Z)) (total : Z) : Prop :=
  NoDup (map fst fr) /\ (forall w n, In (w, n) fr -> (0 <= n)%Z) /\ (sum_of fr <= total)%Z.

(** ** Lines of a main dictionary *)

(** a line [word freq] or [word freq tag] in UTF-8, with its line end *)
Definition dict_line (line : bytes) (w : str) (f : Z) : Prop :=
  exists ds tag b eol,
    w <> [] /\ ~ In 32%N w /\ match w with c :: _ => is_bspace c = false | [] => True end /\
    ds <> [] /\ Forall (fun c => is_digit09 c = true) ds /\ f = digits_val ds /\
    match tag with
    | Some t => exists t0 c, t = t0 ++ [c] /\ is_bspace c = false
    | None => True
    end /\
    PyUtf8.utf8_encode (w ++ 32%N :: ds ++ match tag with Some t => 32%N :: t | None => [] end) = Some b /\
    Forall (fun c => is_bspace c = true) eol /\ line = b ++ eol.
