(** * Threads that rank with one TextRank object, and add stop words meanwhile

    [TextRank.textrank], textrank.py:69-110, keeps the tags it was asked for in an
    attribute of the object (line 81), and [pairfilter], lines 65-67, reads them from
    there, and reads [self.stop_words]; no lock is taken.  [set_stop_words],
    tfidf.py:23-29, adds to that set line by line.  Under the interpreter's own lock one
    read or write of an attribute and one operation of a set happen at once; between two
    of them another thread can run.  The counts [cm] and the graph belong to the call
    (lines 82-83), so the ranking of the graph is no matter of other threads.  Left out:
    the tagging of the sentence (line 84), which reads neither attribute: a call is given
    the words as they were tagged; [self.span], which nothing writes; the path of the
    stop word file and its decoding. *)
From Verif Require Import PyBase PyNum ModelPosseg ModelDict ModelAnalyse ModelTagLoad.

(** [self.pos_filt] (textrank.py:62, 81) and [self.stop_words] (line 61, tfidf.py:29) *)
Record rdata := mkRD { rd_filt : list str; rd_stop : list str }.

(** a call: [textrank] of a sentence that is tagged as these words (line 84), with
    [allowPOS] and [withFlag]; [set_stop_words] of a file with these lines *)
Inductive rcall :=
| RRank (words : list tagged) (allow : list str) (withFlag : bool)
| RStop (lines : list str).
(** what a call gives: the counts [cm] after line 95, or it returns (tfidf.py:29) *)
Inductive rret := RCounts (cm : list (term * term * Z)) | RDone.

(** where a running call stands *)
Inductive rpc :=
| RNext (rest : list tagged) (cm : list (term * term * Z))    (* line 85: the words from the i-th on *)
| RTest (p : tagged) (rest : list tagged) (cm : list (term * term * Z))
                                                (* line 66 held for the i-th word, line 67 not yet read *)
| RIn (p : tagged) (rest inner : list tagged) (cm : list (term * term * Z)) (* line 87: the j's to come *)
| RInTest (p : tagged) (rest : list tagged) (q : tagged) (inner : list tagged) (cm : list (term * term * Z))
                                                (* line 66 held for the j-th word, line 67 not yet read *)
| RAdd (lines : list str).                      (* tfidf.py:28: the lines not yet added *)

(** a thread: the calls that have ended, the running one, the calls to come *)
Record rthread := mkRT { rt_done : list (rcall * rret); rt_cur : option (rcall * rpc); rt_todo : list rcall }.

Section Step.
  Variable lower : str -> str.              (* str.lower *)
  Variable span : nat.                      (* self.span, textrank.py:63 *)

  (** one step of a thread, textrank.py:65-95 and tfidf.py:28-29; [None] when it has
      nothing left to do *)
  Definition rstep (d : rdata) (th : rthread) : option (rdata * rthread) :=
    match rt_cur th with
    | None =>
        match rt_todo th with
        | [] => None
        | RRank words allow wf :: todo =>       (* lines 81-84 *)
            Some (mkRD allow (rd_stop d), mkRT (rt_done th) (Some (RRank words allow wf, RNext words [])) todo)
        | RStop lines :: todo => Some (d, mkRT (rt_done th) (Some (RStop lines, RAdd lines)) todo)
        end
    | Some (c, p) =>
        let goto p' := Some (d, mkRT (rt_done th) (Some (c, p')) (rt_todo th)) in
        let ret x := Some (d, mkRT (rt_done th ++ [(c, x)]) None (rt_todo th)) in
        match c, p with
        | RRank _ _ _, RNext [] cm => ret (RCounts cm)
        | RRank _ _ _, RNext (w :: rest) cm =>
            goto (if str_in (snd w) (rd_filt d) then RTest w rest cm else RNext rest cm)
        | RRank _ _ _, RTest w rest cm =>
            goto (if kept lower (rd_stop d) (fst w) then RIn w rest (firstn (span - 1) rest) cm else RNext rest cm)
        | RRank _ _ _, RIn w rest [] cm => goto (RNext rest cm)
        | RRank _ _ _, RIn w rest (v :: inner) cm =>
            goto (if str_in (snd v) (rd_filt d) then RInTest w rest v inner cm else RIn w rest inner cm)
        | RRank _ allow wf, RInTest w rest v inner cm =>    (* lines 90-95 *)
            goto (RIn w rest inner
                    (if kept lower (rd_stop d) (fst v) then bump cm (tr_key allow wf w, tr_key allow wf v) else cm))
        | RStop _, RAdd [] => ret RDone
        | RStop lines, RAdd (w :: rest) =>      (* tfidf.py:29 *)
            Some (mkRD (rd_filt d) (set_add (rd_stop d) w), mkRT (rt_done th) (Some (c, RAdd rest)) (rt_todo th))
        | _, _ => None
        end
    end.

  (** the process: some thread takes a step *)
  Inductive rsteps (s : rdata * list rthread) : rdata * list rthread -> Prop :=
  | rk_zero : rsteps s s
  | rk_more d ts i th d' th' :
      rsteps s (d, ts) -> nth_error ts i = Some th -> rstep d th = Some (d', th') ->
      rsteps s (d', lput ts i th').
End Step.

(** before the threads start: the attributes of the object, and what each thread is going to call *)
Definition rstart (filt stop : list str) (progs : list (list rcall)) : rdata * list rthread :=
  (mkRD filt stop, map (fun p => mkRT [] None p) progs).
