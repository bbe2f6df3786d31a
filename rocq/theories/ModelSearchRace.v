(** * cut_for_search in one thread while other threads change the tokenizer

    jieba/__init__.py:338-354 around the generator of [cut] as in ModelRace.  The loop
    body of cut_for_search reads [self.FREQ] too, between the reads of the generator it
    goes through, so that the definitions of ModelRace are repeated here with [emit] in
    place of [yield]: [emit w] is what the consumer does with the word [w], before the
    generator goes on. *)
From Verif Require Import PyBase PyRegex PyNum ModelFinalseg ModelSeg ModelTimed ModelRace.

Section Emit.
  Variable num : Num.
  Variable H : hmm num.
  Variable D : nat -> moment.
  Variable B : Type.
  Variable emit : str -> cgen B.

  (** words given out one after another without a read between them *)
  Definition e_list (g : gen str) : cgen B := capp (cfor (fst g) emit) (cpure ([], snd g)).

  (** finalseg/__init__.py:90-95 *)
  Definition e_word (word : str) : cgen B := fun n =>
    if negb (str_in word (mo_force (D n))) then emit word (S n)
    else e_list (gof (map (fun c => [c]) word)) (S n).

  (** finalseg/__init__.py:85-100 *)
  Definition e_fs_block (blk : str) : cgen B :=
    if re_matches fs_re_han blk then
      capp (cfor (fst (fs_cut_han H blk)) e_word) (cpure ([], snd (fs_cut_han H blk)))
    else
      e_list (gfor (re_split fs_re_skip blk) (fun x => match x with [] => gnil | _ => gone x end)).
  Definition e_fs_cut (sentence : str) : cgen B := cfor (re_split fs_re_han sentence) e_fs_block.

  (** __init__.py:263-274 and 279-287 *)
  Definition e_cut_buf (buf : str) : cgen B := fun n =>
    if (length buf =? 1)%nat then emit buf n
    else if negb (freq_true (mo_freq (D n)) buf) then e_fs_cut buf (S n)
    else e_list (gof (map (fun c => [c]) buf)) (S n).

  (** lines 256-287 *)
  Fixpoint e_hmm_loop (fuel : nat) (sentence : str) (route : list (F num * nat)) (x : nat) (buf : str)
    : cgen B :=
    match fuel with
    | O => cpure (gerr OutOfFuel)
    | S fuel' =>
        if (x <? length sentence)%nat then
          match nth_error route x with
          | None => cpure (gerr KeyError)
          | Some r =>
              let y := (snd r + 1)%nat in
              let l_word := slice sentence x y in
              if (y - x =? 1)%nat then e_hmm_loop fuel' sentence route y (buf ++ l_word)
              else
                capp (match buf with [] => cpure gnil | _ => e_cut_buf buf end)
                     (capp (emit l_word) (e_hmm_loop fuel' sentence route y []))
          end
        else match buf with [] => cpure gnil | _ => e_cut_buf buf end
    end.

  (** lines 198-287 *)
  Definition e_block (m : mode) (blk : str) : cgen B :=
    rd_gen (r_get_DAG D blk) (fun dag =>
    match m with
    | Full => e_list (gof (cut_all_loop blk 0 dag (-1) false []))
    | NoHMM => rd_gen (r_calc num D blk dag) (fun route => e_list (cut_nohmm_loop num (S (length blk)) blk route 0 []))
    | WithHMM => rd_gen (r_calc num D blk dag) (fun route => e_hmm_loop (S (length blk)) blk route 0 [])
    end).

  (** lines 320-336 *)
  Definition e_cut (m : mode) (sentence : str) : cgen B :=
    cfor (re_split re_han_default sentence)
         (fun blk =>
            match blk with
            | [] => cpure gnil
            | _ => if re_matches re_han_default blk then e_block m blk
                   else e_list (cut_other (is_full m) blk)
            end).
End Emit.

Section SearchRace.
  Variable num : Num.
  Variable H : hmm num.
  Variable D : nat -> moment.

  (** lines 344-353: [self.FREQ.get] is one read for every part *)
  Definition r_grams (n : nat) (w : str) : cgen str :=
    if (n <? length w)%nat then
      cfor (seq 0 (length w - (n - 1)))
           (fun i k => let g := slice w i (i + n) in
                       ((if freq_true (mo_freq (D k)) g then gone g else gnil), S k))
    else cpure gnil.

  (** the body of the loop, lines 344-354 *)
  Definition r_search_body (w : str) : cgen str :=
    capp (r_grams 2 w) (capp (r_grams 3 w) (cpure (gone w))).

  (** [cut_for_search], lines 338-354 *)
  Definition r_cut_for_search (HMM : bool) (s : str) : cgen str :=
    e_cut num H D str r_search_body (mode_of false HMM) s.
End SearchRace.
