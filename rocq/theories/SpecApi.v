(** * Which words a call writes *)
From Verif Require Import PyBase PyNum ModelSeg ModelDict ModelApi SpecBase SpecSeg SpecDict.

(** the word on a line of a user dictionary *)
Definition line_word (l : uline) : list str :=
  match uline_text l with
  | Some (c :: t) => match parse_userdict_line (c :: t) with Some (w, _, _) => [w] | None => [] end
  | _ => []
  end.
(** the words a call may write *)
Definition op_words (o : op) : list str :=
  match o with
  | OpAddWord w _ _ => [w]
  | OpDelWord w => [w]
  | OpSuggest s tune => if tune then [segment_word s] else []
  | OpUserdict lines => flat_map line_word lines
  | _ => []
  end.


(** the call gives no negative frequency *)
Definition op_nonneg (o : op) : Prop :=
  match o with OpAddWord _ (Some f) _ => (0 <= f)%Z | _ => True end.

(** ** Reading a user dictionary *)

(** what one line says: nothing, or a word with an optional frequency and tag *)
Definition line_reads (l : uline) (e : option (str * option Z * option str)) : Prop :=
  exists text, uline_text l = Some text /\
  match e with
  | None => text = []
  | Some (w, f, t) =>
      ~ In 10%N text /\
      exists ds, line_parts text w ds t /\ f = option_map digits_val ds /\
        forall w' f' t', line_parts text w' f' t' -> length w <= length w'
  end.

(** the line is refused: bytes that are not UTF-8, or a line break inside *)
Definition line_refused (l : uline) (e : exn) : Prop :=
  (uline_text l = None /\ e = ValueError) \/
  (exists text, uline_text l = Some text /\ In 10%N text /\ e = AttributeError).

(** [add_word] for each entry in order, until one raises *)
Fixpoint add_each (num : Num) (H : ModelFinalseg.hmm num) (d : dstate)
  (es : list (option (str * option Z * option str))) : dstate * option exn :=
  match es with
  | [] => (d, None)
  | None :: es' => add_each num H d es'
  | Some (w, f, t) :: es' =>
      match add_word num H d w f t with
      | Ok d' => add_each num H d' es'
      | Err e => (d, Some e)
      end
  end.
