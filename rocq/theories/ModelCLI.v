(** * The command line, jieba/__main__.py

    Python 3.  The arguments are taken as parsed (lines 7-28).  The input is taken as
    decoded text; the file's bytes, the encoding of the output and the log messages are
    left out.  [jieba.initialize] is taken as reading the dictionary file; the cache is
    the subject of ModelInit.v and ModelWorld.v. *)
From Verif Require Import PyBase PyRegex PyNum ModelFinalseg ModelSeg ModelDict ModelApi ModelPosseg ModelInit.

(** an option with [nargs='?']: absent, without a value, with a value *)
Inductive optarg := OptAbsent | OptBare | OptValue (s : str).

(** the parsed arguments, jieba/__main__.py:7-27 *)
Record cli_args := mkCli {
  c_delim : optarg;            (* -d, lines 8-10 *)
  c_pos : optarg;              (* -p, lines 11-12 *)
  c_dict : option path;        (* -D, line 13 *)
  c_user : option path;        (* -u, lines 14-15 *)
  c_cutall : bool;             (* -a, lines 16-18 *)
  c_hmm : bool;                (* [False] with -n, lines 19-20 *)
  c_file : option path;        (* line 25 *)
}.

(** [args.delimiter], lines 8-9 *)
Definition delimiter (a : cli_args) : str :=
  match c_delim a with
  | OptAbsent => [32; 47; 32]%N     (* " / " *)
  | OptBare => [32]%N               (* " " *)
  | OptValue s => s
  end.

(** [args.pos], line 11, when it is true (line 31) *)
Definition pos_delimiter (a : cli_args) : option str :=
  match c_pos a with
  | OptAbsent => None
  | OptBare => Some [95]%N          (* "_" *)
  | OptValue [] => None
  | OptValue s => Some s
  end.

(** an option that names a file, when it is true (lines 43, 45, 49) *)
Definition given (p : option path) : option path :=
  match p with Some (c :: p') => Some (c :: p') | _ => None end.

(** a text file opened in mode 'r' (line 43) or stdin: universal newlines *)
Fixpoint universal (s : str) : str :=
  match s with
  | [] => []
  | c :: s' =>
      if (c =? 13)%N then
        match s' with
        | d :: s'' => if (d =? 10)%N then 10%N :: universal s'' else 10%N :: universal s'
        | [] => [10%N]
        end
      else c :: universal s'
  end.

(** what [fp.readline()] gives until it gives the empty string (lines 52-53, 59) *)
Fixpoint readlines (s : str) : list str :=
  match s with
  | [] => []
  | c :: s' =>
      if (c =? 10)%N then [c] :: readlines s'
      else match readlines s' with
           | [] => [[c]]
           | l :: ls => (c :: l) :: ls
           end
  end.

(** [s.rstrip('\r\n')], lines 54-55 *)
Fixpoint rstrip_crlf (s : str) : str :=
  match s with
  | [] => []
  | c :: s' =>
      match rstrip_crlf s' with
      | [] => if ((c =? 13) || (c =? 10))%N then [] else [c]
      | t => c :: t
      end
  end.

(** the loop, lines 52-59: what is printed, and the exception that ends it *)
Fixpoint print_lines {S} (delim : str) (cutfunc : S -> str -> S * gen str) (st : S) (lns : list str)
  : str * option exn :=
  match lns with
  | [] => ([], None)
  | ln :: lns' =>
      let '(st', g) := cutfunc st (rstrip_crlf ln) in
      match g with
      | (_, Some e) => ([], Some e)
      | (ws, None) =>
          let '(out, e) := print_lines delim cutfunc st' lns' in
          (join_with delim ws ++ [10%N] ++ out, e)
      end
  end.

Section CLI.
  Variable num : Num.
  Variable H : hmm num.
  Variable T : ptables num.
  Variable ord : orders.

  (** the default dictionary, the other files and the input *)
  Record surroundings := mkSur {
    su_default : bytes;
    su_files : path -> option bytes;
    su_texts : path -> option str;
    su_stdin : str
  }.

  Variable su : surroundings.

  (** [fp], line 43 *)
  Definition input (a : cli_args) : res str :=
    match given (c_file a) with
    | Some p => match su_texts su p with Some s => Ok s | None => Err FileNotFound end
    | None => Ok (su_stdin su)
    end.

  (** [jieba.initialize], lines 45-48 *)
  Definition cli_initialize (a : cli_args) : res dstate :=
    match match given (c_dict a) with
          | Some p => match su_files su p with Some b => Ok b | None => Err FileNotFound end
          | None => Ok (su_default su)
          end with
    | Err e => Err e
    | Ok b =>
        match gen_pfdict (file_lines b) with
        | Err e => Err e
        | Ok (fr, total) => Ok (mkD fr total [] [])
        end
    end.

  (** [jieba.load_userdict], lines 49-50 *)
  Definition cli_userdict (a : cli_args) (d : dstate) : res dstate :=
    match given (c_user a) with
    | None => Ok d
    | Some p =>
        match su_files su p with
        | None => Err FileNotFound
        | Some b =>
            match load_userdict num H d (map UBytes (file_lines b)) with
            | (d', None) => Ok d'
            | (_, Some e) => Err e
            end
        end
    end.

  (** [import jieba.posseg], line 32: [POSTokenizer(jieba.dt)] (posseg/__init__.py:81-83, 257)
      reads the tags of the default dictionary, because [jieba.dt] has not been given
      another one yet *)
  Definition import_posseg (a : cli_args) : res (sdict str) :=
    match pos_delimiter a with
    | None => Ok []
    | Some _ =>
        match load_word_tag (file_lines (su_default su)) [] with
        | (tab, None) => Ok tab
        | (_, Some e) => Err e
        end
    end.

  (** [cutfunc], lines 31-38 *)
  Definition cutfunc (a : cli_args) (w : pworld) (l : str) : pworld * gen str :=
    match pos_delimiter a with
    | Some p =>
        match do_pop num H T ord w (PCut 0 (c_hmm a) l) with
        | (w', PWords g) => (w', (map (fun wt => fst wt ++ p ++ snd wt) (fst g), snd g))
        | (w', _) => (w', gerr AttributeError)        (* not reached: there is a tagger *)
        end
    | None =>
        match do_op num H (pw_d w) (OpCut (c_cutall a) (c_hmm a) l) with
        | (d', OutWords g) => (mkPW d' (pw_tabs w), g)
        | (d', _) => (mkPW d' (pw_tabs w), gerr AttributeError)   (* not reached *)
        end
    end.

  (** the whole program, lines 29-61: what is printed, and the exception that ends it *)
  Definition cli (a : cli_args) : str * option exn :=
    match (rbind (import_posseg a) (fun tab =>
           rbind (input a) (fun text =>
           rbind (cli_initialize a) (fun d =>
           rbind (cli_userdict a d) (fun d' => Ok (text, mkPW d' [tab])))))) with
    | Err e => ([], Some e)
    | Ok (text, w) => print_lines (delimiter a) (cutfunc a) w (readlines (universal text))
    end.
End CLI.
