(** * cut_for_search and tokenize consumed while the dictionary changes

    Both are generators around the generator of [cut], jieba/__init__.py:338-354 and
    476-507: the caller may change the dictionary whenever one of them has given
    something out, so the moments are numbered by what has been given out so far; the
    inner generator goes on at the moment at which the outer one asks for the next
    word, and [self.FREQ] is read once for every pair and triple of characters. *)
From Verif Require Import PyBase PyRegex PyNum ModelFinalseg ModelSeg ModelTimed.

Section SearchTimed.
  Variable num : Num.
  Variable H : hmm num.
  Variable D : nat -> moment.

  (** lines 344-353 and 496-505: [mk] makes what is given out of the part and its place in [w] *)
  Definition t_grams {B} (mk : str -> nat -> B) (n : nat) (w : str) : tgen B :=
    if (n <? length w)%nat then
      tfor (seq 0 (length w - (n - 1)))
           (fun i k => let g := slice w i (i + n) in
                       if freq_true (mo_freq (D k)) g then gone (mk g i) else gnil)
    else tpure gnil.

  (** [for w in self.cut(...)], lines 342-343, 489 and 494: [past] has the moments at which
      the inner generator was asked for the words so far, [now] is that of this word.
      Simplified: the inner generator is not kept but run again from its beginning, with
      the moments at which it was asked; it reads nothing else that changes. *)
  Fixpoint each_word {B} (body : nat -> str -> tgen B) (m : mode) (s : str) (fuel : nat)
           (past : list nat) (now start : nat) : gen B :=
    match fuel with
    | O => gerr OutOfFuel
    | S fuel' =>
        let g := t_cut num H (fun i => D (nth i past now)) m s 0 in
        match nth_error (fst g) (length past) with
        | None => ([], snd g)
        | Some w =>
            let b := body start w now in
            gapp b (each_word body m s fuel' (past ++ [now]) (now + length (fst b)) (start + length w))
        end
    end.

  (** lines 344-354 and 495-506 *)
  Definition t_parts {B} (two three : str -> nat -> B) (whole : B) (w : str) : tgen B :=
    tapp (t_grams two 2 w) (tapp (t_grams three 3 w) (tpure (gone whole))).

  (** [cut_for_search], lines 338-354 *)
  Definition t_cut_for_search (HMM : bool) (s : str) : gen str :=
    each_word (fun _ w => t_parts (fun g _ => g) (fun g _ => g) w w) (mode_of false HMM) s (S (length s)) [] 0 0.

  (** [tokenize], lines 488-507 *)
  Definition t_tokenize (tm : tmode) (HMM : bool) (s : str) : gen token :=
    each_word
      (match tm with
       | TDefault => fun a w => tpure (gone (w, a, (a + length w)%nat))
       | TSearch => fun a w =>
           t_parts (fun g i => (g, (a + i)%nat, (a + i + 2)%nat)) (fun g i => (g, (a + i)%nat, (a + i + 3)%nat))
                   (w, a, (a + length w)%nat) w
       end) (mode_of false HMM) s (S (length s)) [] 0 0.
End SearchTimed.
