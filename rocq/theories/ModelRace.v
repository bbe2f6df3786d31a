(** * cut in one thread while other threads change the tokenizer

    jieba/__init__.py:172-336 and finalseg/__init__.py:81-100 as in ModelSeg and
    ModelFinalseg, but no lock is held, so that every single read of the shared data
    is at its own moment.  [D n] is what the [n]-th read finds; a computation takes
    the number of its first read and gives the number after its last one. *)
From Verif Require Import PyBase PyRegex PyNum ModelFinalseg ModelSeg ModelTimed.

(** a computation that reads *)
Definition rd (A : Type) : Type := nat -> res A * nat.
(** not in the code: how such computations are put together; an exception ends them *)
Definition rd_ret {A} (x : A) : rd A := fun n => (Ok x, n).
Definition rd_err {A} (e : exn) : rd A := fun n => (Err e, n).
Definition rd_bind {A B} (a : rd A) (f : A -> rd B) : rd B := fun n =>
  match a n with
  | (Ok x, n') => f x n'
  | (Err e, n') => (Err e, n')
  end.
Definition rd_lift {A} (r : res A) : rd A := fun n => (r, n).

(** a generator that reads *)
Definition cgen (A : Type) : Type := nat -> gen A * nat.
(** not in the code: a generator without reads, one after another, a [yield], a [for] loop *)
Definition cpure {A} (g : gen A) : cgen A := fun n => (g, n).
Definition capp {A} (g h : cgen A) : cgen A := fun n =>
  match g n with
  | ((ws, None), n') => let '(b, n'') := h n' in ((ws ++ fst b, snd b), n'')
  | r => r
  end.
Definition ccons {A} (x : A) (g : cgen A) : cgen A := fun n => let '(b, n') := g n in (gcons x b, n').
Fixpoint cfor {A B} (l : list A) (f : A -> cgen B) : cgen B :=
  match l with
  | [] => cpure gnil
  | x :: l' => capp (f x) (cfor l' f)
  end.

Section Race.
  Variable num : Num.
  Variable H : hmm num.
  Variable D : nat -> moment.

  (** one read *)
  Definition rd_read {A} (f : moment -> A) : rd A := fun n => (Ok (f (D n)), S n).

  (** lines 188-192: [frag in self.FREQ] and [self.FREQ[frag]] are two reads, and the
      second raises KeyError if the key is gone *)
  Fixpoint r_dag_scan (fuel : nat) (sentence : str) (k i : nat) (frag : str) (tmplist : list nat)
    : rd (list nat) :=
    match fuel with
    | O => rd_ret tmplist
    | S fuel' =>
        if (i <? length sentence)%nat then
          rd_bind (rd_read (fun d => smem (mo_freq d) frag)) (fun there =>
          if there then
            rd_bind (rd_read (fun d => sget (mo_freq d) frag)) (fun v =>
            match v with
            | None => rd_err KeyError
            | Some z =>
                r_dag_scan fuel' sentence k (i + 1) (slice sentence k (i + 1 + 1))
                           (if negb (z =? 0)%Z then tmplist ++ [i] else tmplist)
            end)
          else rd_ret tmplist)
        else rd_ret tmplist
    end.

  (** lines 185-195 *)
  Definition r_dag_at (sentence : str) (k : nat) : rd (list nat) :=
    rd_bind (r_dag_scan (S (length sentence)) sentence k k (slice sentence k (k + 1)) []) (fun tmplist =>
    rd_ret (match tmplist with [] => [k] | _ => tmplist end)).

  (** the loop over [k], lines 185-195 *)
  Fixpoint r_dag_loop (sentence : str) (ks : list nat) : rd (list (list nat)) :=
    match ks with
    | [] => rd_ret []
    | k :: ks' =>
        rd_bind (r_dag_at sentence k) (fun L =>
        rd_bind (r_dag_loop sentence ks') (fun Ls => rd_ret (L :: Ls)))
    end.

  (** [get_DAG], lines 180-196 *)
  Definition r_get_DAG (sentence : str) : rd (list (list nat)) :=
    rd_bind (rd_read mo_check) (fun c =>
    match c with
    | Some x => rd_err x
    | None => r_dag_loop sentence (seq 0 (length sentence))
    end).

  (** lines 177-178 *)
  Fixpoint r_calc_cands (logtotal : F num) (sentence : str) (idx : nat)
           (route : list (F num * nat)) (xs : list nat) : rd (list (F num * nat)) :=
    match xs with
    | [] => rd_ret []
    | x :: xs' =>
        rd_bind (rd_read (fun d => freq_or1 (mo_freq d) (slice sentence idx (x + 1)))) (fun z =>
        rd_bind (rd_lift (py_log num z)) (fun lw =>
        match nth_error route (x - idx) with
        | None => rd_err KeyError
        | Some r =>
            rd_bind (r_calc_cands logtotal sentence idx route xs') (fun cs =>
            rd_ret ((f_add num (f_sub num lw logtotal) (fst r), x) :: cs))
        end))
    end.

  (** lines 176-178 *)
  Fixpoint r_calc_loop (logtotal : F num) (sentence : str) (DAG : list (list nat))
           (n : nat) (route : list (F num * nat)) : rd (list (F num * nat)) :=
    match n with
    | O => rd_ret route
    | S idx =>
        match nth_error DAG idx with
        | None => rd_err KeyError
        | Some xs =>
            rd_bind (r_calc_cands logtotal sentence idx route xs) (fun cs =>
            rd_bind (rd_lift (py_max (route_gt num) cs)) (fun r =>
            r_calc_loop logtotal sentence DAG idx (r :: route)))
        end
    end.

  (** [calc], lines 172-178 *)
  Definition r_calc (sentence : str) (DAG : list (list nat)) : rd (list (F num * nat)) :=
    rd_bind (rd_read mo_total) (fun total =>
    rd_bind (rd_lift (py_log num total)) (fun logtotal =>
    r_calc_loop logtotal sentence DAG (length sentence) [(f_zero num, 0%nat)])).

  (** finalseg/__init__.py:90-95: [Force_Split_Words] is read for every word *)
  Definition r_word (word : str) : cgen str := fun n =>
    ((if negb (str_in word (mo_force (D n))) then gone word else gof (map (fun c => [c]) word)), S n).

  (** finalseg/__init__.py:85-100 *)
  Definition r_fs_block (blk : str) : cgen str :=
    if re_matches fs_re_han blk then
      capp (cfor (fst (fs_cut_han H blk)) r_word) (cpure ([], snd (fs_cut_han H blk)))
    else
      cpure (gfor (re_split fs_re_skip blk) (fun x => match x with [] => gnil | _ => gone x end)).
  Definition r_fs_cut (sentence : str) : cgen str := cfor (re_split fs_re_han sentence) r_fs_block.

  (** lines 263-274 and 279-287 *)
  Definition r_cut_buf (buf : str) : cgen str := fun n =>
    if (length buf =? 1)%nat then (gone buf, n)
    else if negb (freq_true (mo_freq (D n)) buf) then r_fs_cut buf (S n)
    else (gof (map (fun c => [c]) buf), S n).

  (** lines 256-287 *)
  Fixpoint r_hmm_loop (fuel : nat) (sentence : str) (route : list (F num * nat)) (x : nat) (buf : str)
    : cgen str :=
    match fuel with
    | O => cpure (gerr OutOfFuel)
    | S fuel' =>
        if (x <? length sentence)%nat then
          match nth_error route x with
          | None => cpure (gerr KeyError)
          | Some r =>
              let y := (snd r + 1)%nat in
              let l_word := slice sentence x y in
              if (y - x =? 1)%nat then r_hmm_loop fuel' sentence route y (buf ++ l_word)
              else
                capp (match buf with [] => cpure gnil | _ => r_cut_buf buf end)
                     (ccons l_word (r_hmm_loop fuel' sentence route y []))
          end
        else match buf with [] => cpure gnil | _ => r_cut_buf buf end
    end.

  (** a computation, then a generator *)
  Definition rd_gen {A B} (a : rd A) (f : A -> cgen B) : cgen B := fun n =>
    match a n with
    | (Ok x, n') => f x n'
    | (Err e, n') => (gerr e, n')
    end.

  (** lines 198-287 *)
  Definition r_block (m : mode) (blk : str) : cgen str :=
    rd_gen (r_get_DAG blk) (fun dag =>
    match m with
    | Full => cpure (gof (cut_all_loop blk 0 dag (-1) false []))
    | NoHMM => rd_gen (r_calc blk dag) (fun route => cpure (cut_nohmm_loop num (S (length blk)) blk route 0 []))
    | WithHMM => rd_gen (r_calc blk dag) (fun route => r_hmm_loop (S (length blk)) blk route 0 [])
    end).

  (** lines 320-336 *)
  Definition r_cut (m : mode) (sentence : str) : cgen str :=
    cfor (re_split re_han_default sentence)
         (fun blk =>
            match blk with
            | [] => cpure gnil
            | _ => if re_matches re_han_default blk then r_block m blk
                   else cpure (cut_other (is_full m) blk)
            end).
End Race.
