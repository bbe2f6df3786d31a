(** * Generators that are consumed while the dictionary changes

    [Tokenizer.cut] is a generator: the caller may change the dictionary between two
    calls of next().  Every yield of the inner generators is passed on at once, so
    the moments at which the caller can act are numbered by the words yielded so
    far.  jieba/__init__.py:180-336, finalseg/__init__.py:59-100, as in ModelSeg and
    ModelFinalseg, but every read of the dictionary is at its own moment. *)
From Verif Require Import PyBase PyRegex PyNum ModelFinalseg ModelSeg.

(** what a read of the shared data gives: the outcome of check_initialized() and
    then [self.FREQ], [self.total] and [Force_Split_Words] *)
Record moment := mkMoment {
  mo_check : option exn;
  mo_freq : freqs;
  mo_total : Z;
  mo_force : list str;
}.

(** a generator started after [n] words *)
Definition tgen (A : Type) : Type := nat -> gen A.
(** yields that read nothing *)
Definition tpure {A} (g : gen A) : tgen A := fun _ => g.
(** one generator after the other: jieba/__init__.py:321-336 run in sequence *)
Definition tapp {A} (g h : tgen A) : tgen A := fun n =>
  match snd (g n) with
  | None => let b := h (n + length (fst (g n)))%nat in (fst (g n) ++ fst b, snd b)
  | Some _ => g n
  end.
(** [yield x], jieba/__init__.py:326,331 *)
Definition tcons {A} (x : A) (g : tgen A) : tgen A := fun n => gcons x (g (S n)).
(** [for x in l: ...], jieba/__init__.py:321-336 *)
Fixpoint tfor {A B} (l : list A) (f : A -> tgen B) : tgen B :=
  match l with
  | [] => tpure gnil
  | x :: l' => tapp (f x) (tfor l' f)
  end.

Section Timed.
  Variable num : Num.
  Variable H : hmm num.
  Variable D : nat -> moment.

  (** finalseg/__init__.py:89-95: [Force_Split_Words] is read for every word *)
  Definition t_word (word : str) : tgen str := fun n =>
    if negb (str_in word (mo_force (D n))) then gone word else gof (map (fun c => [c]) word).

  (** finalseg/__init__.py:85-100; [__cut] itself reads nothing that changes *)
  Definition t_fs_block (blk : str) : tgen str :=
    if re_matches fs_re_han blk then
      tapp (tfor (fst (fs_cut_han H blk)) t_word) (tpure ([], snd (fs_cut_han H blk)))
    else
      tpure (gfor (re_split fs_re_skip blk) (fun x => match x with [] => gnil | _ => gone x end)).

  (** finalseg/__init__.py:85-100 *)
  Definition t_fs_cut (sentence : str) : tgen str := tfor (re_split fs_re_han sentence) t_fs_block.

  (** lines 263-274 and 279-287: [self.FREQ.get(buf)] is read when the buffer is
      given out *)
  Definition t_cut_buf (buf : str) : tgen str := fun n =>
    if (length buf =? 1)%nat then gone buf
    else if negb (freq_true (mo_freq (D n)) buf) then t_fs_cut buf n
    else gof (map (fun c => [c]) buf).

  (** lines 256-287 *)
  Fixpoint t_hmm_loop (fuel : nat) (sentence : str) (route : list (F num * nat)) (x : nat) (buf : str)
    : tgen str :=
    match fuel with
    | O => tpure (gerr OutOfFuel)
    | S fuel' =>
        if (x <? length sentence)%nat then
          match nth_error route x with
          | None => tpure (gerr KeyError)
          | Some r =>
              let y := (snd r + 1)%nat in
              let l_word := slice sentence x y in
              if (y - x =? 1)%nat then t_hmm_loop fuel' sentence route y (buf ++ l_word)
              else
                tapp (match buf with [] => tpure gnil | _ => t_cut_buf buf end)
                     (tcons l_word (t_hmm_loop fuel' sentence route y []))
          end
        else match buf with [] => tpure gnil | _ => t_cut_buf buf end
    end.

  (** lines 198-287: the word graph and the route are computed when the block is
      begun (get_DAG checks that the tokenizer is initialised) *)
  Definition t_block (m : mode) (blk : str) : tgen str := fun n =>
    let d := D n in
    match mo_check d with
    | Some x => gerr x
    | None =>
        match m with
        | Full => cut_all_block (mo_freq d) blk
        | NoHMM => cut_nohmm_block num (mo_freq d) (mo_total d) blk
        | WithHMM =>
            match calc num (mo_freq d) (mo_total d) blk (get_DAG (mo_freq d) blk) with
            | Err e => gerr e
            | Ok route => t_hmm_loop (S (length blk)) blk route 0 [] n
            end
        end
    end.

  (** lines 320-336 *)
  Definition t_cut (m : mode) (sentence : str) : tgen str :=
    tfor (re_split re_han_default sentence)
         (fun blk =>
            match blk with
            | [] => tpure gnil
            | _ => if re_matches re_han_default blk then t_block m blk
                   else tpure (cut_other (is_full m) blk)
            end).
End Timed.
