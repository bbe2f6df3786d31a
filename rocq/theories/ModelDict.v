(** * Model of the dictionary part of jieba/__init__.py (class Tokenizer) *)
From Verif Require Import PyBase PyRegex PyNum ModelFinalseg ModelSeg.

(** ** Reading a main dictionary, lines 71-91 *)

(** lines 83-86 (and 432-435): give frequency 0 to the prefixes that are absent *)
Definition add_prefixes (fr : freqs) (word : str) : freqs :=
  fold_left (fun d ch => let wfrag := firstn (ch + 1) word in
                         if smem d wfrag then d else sset d wfrag 0%Z)
            (seq 0 (length word)) fr.

(** lines 78-80: one line to (word, freq).  Every failure here is a [ValueError]
    ([UnicodeDecodeError] is one; so are unpacking a short list and [int()] of a
    malformed number), re-raised with a message at lines 87-89. *)
Definition parse_dict_line (line : bytes) : option (str * Z) :=
  match utf8_decode (bytes_strip line) with
  | None => None
  | Some l =>
      match split_on 32 l with
      | word :: freq :: _ =>
          match parse_int freq with
          | Some n => Some (word, n)
          | None => None
          end
      | _ => None
      end
  end.

(** lines 76-91, the loop over the lines of the file *)
Fixpoint gen_pfdict_loop (lines : list bytes) (lfreq : freqs) (ltotal : Z)
  : res (freqs * Z) :=
  match lines with
  | [] => Ok (lfreq, ltotal)
  | line :: lines' =>
      match parse_dict_line line with
      | None => Err ValueError
      | Some (word, freq) =>
          gen_pfdict_loop lines' (add_prefixes (sset lfreq word freq) word) (ltotal + freq)%Z
      end
  end.

(** [gen_pfdict], lines 72-91 *)
Definition gen_pfdict (lines : list bytes) : res (freqs * Z) := gen_pfdict_loop lines [] 0%Z.

(** ** The mutable state touched by the dictionary methods *)

(** [self.FREQ], [self.total], [self.user_word_tag_tab] (lines 61-63) and the
    module-global [finalseg.Force_Split_Words] (finalseg/__init__.py:22) *)
Record dstate := mkD {
  d_freq : freqs;
  d_total : Z;
  d_tags : sdict str;
  d_force : list str;
}.

(** [re_userdict], line 36: '^(.+?)( [0-9]+)?( [a-z]+)?$' *)
Definition is_not_newline (c : char) : bool := negb (c =? 10)%N.
(** [re_userdict], jieba/__init__.py:36 *)
Definition re_userdict : re :=
  RSeq RBol
 (RSeq (RGrp 1 (RPlusLazy is_not_newline))
 (RSeq (ROpt (RGrp 2 (RSeq (RStr [32%N]) (RPlus is_digit09))))
 (RSeq (ROpt (RGrp 3 (RSeq (RStr [32%N]) (RPlus is_lower))))
       REol))).

Section Dict.
  Variable num : Num.
  Notation F := (F num).
  Variable H : hmm num.

  (** ** [suggest_freq], lines 445-474 *)

  (** [freq * x]; [None] is the initial [int] 1 ([1 * x] is [x]) *)
  Definition acc_mul (acc : option F) (x : F) : option F :=
    match acc with None => Some x | Some a => Some (f_mul num a x) end.

  (** lines 463-464 / 469-470: [freq *= self.FREQ.get(seg, 1) / ftotal] for each
      segment *)
  Fixpoint freq_product (fr : freqs) (ftotal : F) (segs : list str) (acc : option F)
    : res (option F) :=
    match segs with
    | [] => Ok acc
    | seg :: segs' =>
        rbind (py_float num (freq_get fr seg 1)) (fun x =>
        rbind (py_div num x ftotal) (fun q =>
        freq_product fr ftotal segs' (acc_mul acc q)))
    end.

  (** [int(freq * self.total)], lines 465 / 471 *)
  Definition int_freq_total (acc : option F) (ftotal : F) (total : Z) : res Z :=
    match acc with
    | None => Ok total
    | Some a => f_trunc num (f_mul num a ftotal)
    end.

  (** a string (to be kept whole) or a sequence of segments, line 461 *)
  Inductive segment := Whole (w : str) | Parts (ws : list str).

  (** lines 462 / 468 *)
  Definition segment_word (s : segment) : str :=
    match s with Whole w => w | Parts ws => join ws end.

  (** lines 459-471: the value of [freq] after the [if] *)
  Definition suggest_freq_value (fr : freqs) (total : Z) (force : list str) (s : segment)
    : res Z :=
    rbind (py_float num total) (fun ftotal =>
    match s with
    | Whole word =>
        rbind (g_list (cut num H NoHMM fr total force word)) (fun segs =>
        rbind (freq_product fr ftotal segs None) (fun acc =>
        rbind (int_freq_total acc ftotal total) (fun n =>
        Ok (Z.max (n + 1) (freq_get fr word 1)))))
    | Parts segs =>
        rbind (freq_product fr ftotal segs None) (fun acc =>
        rbind (int_freq_total acc ftotal total) (fun n =>
        Ok (Z.min n (freq_get fr (join segs) 0))))
    end).

  (** ** [add_word], lines 418-437; an exception can only come from
      [suggest_freq], before anything is changed *)

  (** lines 428-437, with the frequency known *)
  Definition add_word_freq (d : dstate) (word : str) (freq : Z) (tag : option str) : dstate :=
    {| d_freq := add_prefixes (sset (d_freq d) word freq) word;
       d_total := (d_total d + freq)%Z;
       d_tags := match tag with
                 | Some (c :: t) => sset (d_tags d) word (c :: t)
                 | _ => d_tags d
                 end;
       d_force := if (freq =? 0)%Z then set_add (d_force d) word else d_force d |}.

  (** [add_word], jieba/__init__.py:418-437 *)
  Definition add_word (d : dstate) (word : str) (freq : option Z) (tag : option str)
    : res dstate :=
    rbind (match freq with
           | Some n => Ok n
           | None => suggest_freq_value (d_freq d) (d_total d) (d_force d) (Whole word)
           end) (fun n =>
    Ok (add_word_freq d word n tag)).

  (** [del_word], lines 439-443 *)
  Definition del_word (d : dstate) (word : str) : res dstate := add_word d word (Some 0%Z) None.

  (** [suggest_freq], lines 445-474: the returned value and the new state *)
  Definition suggest_freq (d : dstate) (s : segment) (tune : bool) : res (Z * dstate) :=
    rbind (suggest_freq_value (d_freq d) (d_total d) (d_force d) s) (fun freq =>
    if tune then
      rbind (add_word d (segment_word s) (Some freq) None) (fun d' => Ok (freq, d'))
    else Ok (freq, d)).

  (** ** [load_userdict], lines 380-416 *)

  (** a line of the file object: text or bytes *)
  Inductive uline := UText (s : str) | UBytes (b : bytes).

  (** lines 402-407: stripped and decoded; [None] is [UnicodeDecodeError] *)
  Definition uline_text (l : uline) : option str :=
    match l with
    | UText s => Some (str_strip s)
    | UBytes b => option_map (lstrip_by (fun c => (c =? 0xFEFF)%N)) (utf8_decode (bytes_strip b))
    end.

  (** lines 411-415: (word, freq, tag) of a non-empty line; [None] is a failed
      match ([None.groups()] is an [AttributeError]) *)
  Definition parse_userdict_line (line : str) : option (str * option str * option str) :=
    match re_match re_userdict line with
    | None => None
    | Some (_, g) =>
        match group_get g 1 with
        | None => None                  (* group 1 always takes part *)
        | Some w => Some (w, option_map str_strip (group_get g 2),
                             option_map str_strip (group_get g 3))
        end
    end.

  (** one round of the loop, lines 402-416 *)
  Definition load_userdict_line (d : dstate) (l : uline) : res dstate :=
    match uline_text l with
    | None => Err ValueError
    | Some [] => Ok d
    | Some line =>
        match parse_userdict_line line with
        | None => Err AttributeError
        | Some (word, freq, tag) =>
            match freq with
            | None => add_word d word None tag
            | Some f =>
                match parse_int f with
                | None => Err ValueError
                | Some n => add_word d word (Some n) tag
                end
            end
        end
    end.

  (** lines 401-416: the state reached, and the exception that stopped it *)
  Fixpoint load_userdict (d : dstate) (lines : list uline) : dstate * option exn :=
    match lines with
    | [] => (d, None)
    | l :: lines' =>
        match load_userdict_line d l with
        | Err e => (d, Some e)
        | Ok d' => load_userdict d' lines'
        end
    end.
End Dict.
