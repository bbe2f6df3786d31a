(** * The pieces of full mode, in order *)
From Verif Require Import PyBase SpecBase SpecSeg.

Section Order.
  Variable D : dictionary.
  Variable s : str.

  (** where the words that start at [k] end (the position of the last character), in
      increasing order; a character that starts no word stands for itself *)
  Definition ends (k : nat) : list nat :=
    match filter (fun i => wordb D (sub s k (i + 1 - k))) (seq k (length s - k)) with
    | [] => [k]
    | es => es
    end.
  (** the same without one-character words *)
  Definition long_ends (k : nat) : list nat := filter (fun i => k <? i) (ends k).

  (** the nearest word of two or more characters that starts before [k], the longest at
      its place, ends before [k] *)
  Definition clear_at (k : nat) : Prop :=
    forall k', k' < k -> long_ends k' <> [] -> (forall i, k' < i < k -> long_ends i = []) ->
      last (long_ends k') 0 < k.

  Definition word_at (k i : nat) : str := sub s k (i + 1 - k).

  (** [clear] says which positions are clear *)
  Variable clear : nat -> bool.

  (** the piece of a clear position with one end only *)
  Definition sole (k : nat) : list str :=
    match ends k with [i] => if clear k then [word_at k i] else [] | _ => [] end.
  (** the pieces of the other positions: the words of two or more characters *)
  Definition others (k : nat) : list str :=
    match sole k with [] => map (word_at k) (long_ends k) | _ => [] end.

  (** the stretches of [s] from position [k] on: the pieces come in the order of their
      positions; but what is [sole] in a stretch of letters and digits is put together and
      comes at its end *)
  Fixpoint pieces (k : nat) (l : list (bool * str)) : list str :=
    match l with
    | [] => []
    | (b, g) :: l' =>
        (if b then
           flat_map others (seq k (length g)) ++
           match flat_map sole (seq k (length g)) with [] => [] | ws => [concat ws] end
         else flat_map (fun i => sole i ++ others i) (seq k (length g)))
        ++ pieces (k + length g) l'
    end.
End Order.

(** other text is taken apart at the blanks (a CR LF is one), the blanks are kept, and the
    text between two blanks is there even if it is empty; [text] is what was read since the
    last blank *)
Fixpoint at_blanks (text s : str) : list str :=
  match s with
  | [] => [text]
  | c :: s' =>
      if is_space c then
        text ::
        match s' with
        | d :: s'' => if ((c =? 13) && (d =? 10))%N then [c; d] :: at_blanks [] s'' else [c] :: at_blanks [] s'
        | [] => [[c]; []]
        end
      else at_blanks (text ++ [c]) s'
  end.
