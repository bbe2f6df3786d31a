(** * A tagging generator that is consumed while things change

    [POSTokenizer.cut] is a generator: between two calls of next() the caller may call
    anything.  As in ModelTimed the moments are numbered by the pairs yielded so far, and
    every read of [FREQ], [total] and [word_tag_tab] is at its own moment.
    jieba/posseg/__init__.py:152-250, as in ModelPosseg. *)
From Verif Require Import PyBase PyRegex PyNum ModelFinalseg ModelSeg ModelTimed ModelDict ModelApi ModelPosseg.

(** what is read: the outcome of check_initialized() in [get_DAG], [tokenizer.FREQ],
    [tokenizer.total] and [self.word_tag_tab], posseg/__init__.py:153-175,197 *)
Record pmoment := mkPM {
  pm_check : option exn;
  pm_freq : freqs;
  pm_total : Z;
  pm_tab : sdict str }.

Section PosTimed.
  Variable num : Num.
  Variable T : ptables num.
  Variable ord : orders.
  Variable D : nat -> pmoment.

  (** [pair(w, self.word_tag_tab.get(w, 'x'))], lines 168,192,199,201 *)
  Definition tp_one (w : str) : tgen tagged := fun n => gone (w, tag_get (pm_tab (D n)) w).

  (** lines 190-199 and 204-213; [__cut_detail] reads nothing that changes *)
  Definition tp_buf (buf : str) : tgen tagged := fun n =>
    if (length buf =? 1)%nat then tp_one buf n
    else if negb (freq_true (pm_freq (D n)) buf) then ps_cut_detail T ord buf
    else tfor buf (fun c => tp_one [c]) n.

  (** lines 159-173 *)
  Fixpoint tp_nohmm_loop (fuel : nat) (sentence : str) (route : list (F num * nat)) (x : nat) (buf : str)
    : tgen tagged :=
    match fuel with
    | O => tpure (gerr OutOfFuel)
    | S fuel' =>
        if (x <? length sentence)%nat then
          match nth_error route x with
          | None => tpure (gerr KeyError)
          | Some r =>
              let y := (snd r + 1)%nat in
              let l_word := slice sentence x y in
              if re_matches ps_re_eng1 l_word then tp_nohmm_loop fuel' sentence route y (buf ++ l_word)
              else
                tapp (tpure (match buf with [] => gnil | _ => gone (buf, tag_eng) end))
                     (tapp (tp_one l_word) (tp_nohmm_loop fuel' sentence route y []))
          end
        else tpure (match buf with [] => gnil | _ => gone (buf, tag_eng) end)
    end.

  (** lines 184-213 *)
  Fixpoint tp_hmm_loop (fuel : nat) (sentence : str) (route : list (F num * nat)) (x : nat) (buf : str)
    : tgen tagged :=
    match fuel with
    | O => tpure (gerr OutOfFuel)
    | S fuel' =>
        if (x <? length sentence)%nat then
          match nth_error route x with
          | None => tpure (gerr KeyError)
          | Some r =>
              let y := (snd r + 1)%nat in
              let l_word := slice sentence x y in
              if (y - x =? 1)%nat then tp_hmm_loop fuel' sentence route y (buf ++ l_word)
              else
                tapp (match buf with [] => tpure gnil | _ => tp_buf buf end)
                     (tapp (tp_one l_word) (tp_hmm_loop fuel' sentence route y []))
          end
        else match buf with [] => tpure gnil | _ => tp_buf buf end
    end.

  (** lines 152-213: the route is computed when the block is begun *)
  Definition tp_block (HMM : bool) (blk : str) : tgen tagged := fun n =>
    let d := D n in
    match pm_check d with
    | Some x => gerr x
    | None =>
        match calc num (pm_freq d) (pm_total d) blk (get_DAG (pm_freq d) blk) with
        | Err e => gerr e
        | Ok route =>
            if HMM then tp_hmm_loop (S (length blk)) blk route 0 [] n
            else tp_nohmm_loop (S (length blk)) blk route 0 [] n
        end
    end.

  (** lines 217-240, after [makesure_userdict_loaded] *)
  Definition tp_cut (HMM : bool) (sentence : str) : tgen tagged :=
    tfor (re_split ps_re_han_internal sentence)
         (fun blk => if re_matches ps_re_han_internal blk then tp_block HMM blk else tpure (ps_other blk)).
End PosTimed.

Section During.
  Variable num : Num.
  Variable H : hmm num.
  Variable T : ptables num.
  Variable ord : orders.

  (** the caller's calls: [during n] after the [n+1]-st pair; the first next() runs
      [makesure_userdict_loaded], posseg/__init__.py:112-115,218 *)
  Fixpoint world_at (w : pworld) (i : nat) (during : nat -> list pop) (n : nat) : pworld :=
    match n with
    | O => makesure_userdict_loaded w i
    | S n' => do_pops num H T ord (world_at w i during n') (during n')
    end.

  (** what a read gives then, posseg/__init__.py:153-175,197 *)
  Definition pmoment_at (w : pworld) (i : nat) (during : nat -> list pop) (n : nat) : pmoment :=
    let w' := world_at w i during n in
    mkPM None (d_freq (pw_d w')) (d_total (pw_d w')) (nth i (pw_tabs w') []).

  (** [POSTokenizer.cut] of the [i]-th POS tokenizer, posseg/__init__.py:248-250 *)
  Definition ps_cut_during (w : pworld) (i : nat) (during : nat -> list pop) (HMM : bool) (s : str) : gen tagged :=
    tp_cut num T ord (pmoment_at w i during) HMM s 0.
End During.
