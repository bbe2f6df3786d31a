(** * The command line *)
From Verif Require Import PyBase ProofsBase PyRegex PyNum PyUtf8 ModelFinalseg ModelSeg ModelDict ModelApi ModelPosseg
  ModelPosParallel ModelInit ModelCLI SpecBase SpecSeg SpecNum SpecScore SpecDict SpecApi SpecHealth SpecPosseg SpecTagging SpecCli ProofsSuggest ProofsDict
  ProofsPosHmm2 ProofsPosTags ProofsPosLocal ProofsCli ProofsDemo DataPosseg DataPossegOk InstExt ProofsPvit2 PropsCut PropsFull PropsPosseg PropsPosParallel
  InstQ Demo DemoPos.

(** what the options say *)
Definition separator (a : cli_args) (sep : str) : Prop :=
  (c_delim a = OptAbsent /\ sep = [32; 47; 32]%N) \/ (c_delim a = OptBare /\ sep = [32]%N) \/ c_delim a = OptValue sep.

Definition untagged (a : cli_args) : Prop := c_pos a = OptAbsent \/ c_pos a = OptValue [].
Definition tagged_with (a : cli_args) (p : str) : Prop :=
  (c_pos a = OptBare /\ p = [95]%N) \/ (c_pos a = OptValue p /\ p <> []).

Definition not_given (p : option path) : Prop := p = None \/ p = Some [].
Definition reads (su : surroundings) (a : cli_args) (text : str) : Prop :=
  (not_given (c_file a) /\ text = su_stdin su) \/
  (exists p, c_file a = Some p /\ p <> [] /\ su_texts su p = Some text).
Definition dict_file (su : surroundings) (a : cli_args) (b : bytes) : Prop :=
  (not_given (c_dict a) /\ b = su_default su) \/
  (exists p, c_dict a = Some p /\ p <> [] /\ su_files su p = Some b).
Definition user_file (su : surroundings) (a : cli_args) (b : bytes) : Prop :=
  (not_given (c_user a) /\ b = []) \/
  (exists p, c_user a = Some p /\ p <> [] /\ su_files su p = Some b).

(** the tokenizer once the dictionaries are loaded *)
Definition loaded num H (su : surroundings) (a : cli_args) (d : dstate) : Prop :=
  exists b ub fr total,
    dict_file su a b /\ gen_pfdict (file_lines b) = Ok (fr, total) /\
    user_file su a ub /\ load_userdict num H (mkD fr total [] []) (map UBytes (file_lines ub)) = (d, None).

Lemma given_no p : not_given p -> given p = None.
Proof. intros [->| ->]; auto. Qed.
Lemma given_yes q p : q = Some p -> p <> [] -> given q = Some p.
Proof. intros -> NE. destruct p; [congruence|]. auto. Qed.

Lemma separator_ok a sep : separator a sep -> delimiter a = sep.
Proof. unfold delimiter. intros [[-> ->]|[[-> ->]| ->]]; auto. Qed.
Lemma untagged_ok a : untagged a -> pos_delimiter a = None.
Proof. unfold pos_delimiter. intros [->| ->]; auto. Qed.
Lemma tagged_ok a p : tagged_with a p -> pos_delimiter a = Some p.
Proof. unfold pos_delimiter. intros [[-> ->]|[-> NE]]; auto. destruct p; [congruence|]. auto. Qed.
Lemma reads_ok su a text : reads su a text -> input su a = Ok text.
Proof.
  unfold input. intros [[N ->]|(p & E & NE & T)]; [rewrite given_no; auto|].
  rewrite (given_yes _ _ E NE), T. auto.
Qed.
Lemma loaded_ok num H su a d : loaded num H su a d -> rbind (cli_initialize su a) (cli_userdict num H su a) = Ok d.
Proof.
  intros (b & ub & fr & total & DF & G & UF & L).
  assert (E : cli_initialize su a = Ok (mkD fr total [] [])).
  { unfold cli_initialize. destruct DF as [[N ->]|(p & E & NE & F)].
    - rewrite given_no, G by auto. auto.
    - rewrite (given_yes _ _ E NE), F, G. auto. }
  rewrite E. cbn [rbind]. unfold cli_userdict. destruct UF as [[N ->]|(p & E' & NE & F)].
  - rewrite given_no by auto. cbn in L. congruence.
  - rewrite (given_yes _ _ E' NE), F, L. auto.
Qed.

Lemma cli_started num H T ord su a text d tab sep :
  reads su a text -> loaded num H su a d -> separator a sep -> import_posseg su a = Ok tab ->
  cli num H T ord su a = print_lines sep (cutfunc num H T ord a) (mkPW d [tab]) (readlines (universal text)).
Proof.
  intros R L S I. apply reads_ok in R. apply loaded_ok in L. apply separator_ok in S. unfold cli.
  rewrite I, R. cbn [rbind]. destruct (cli_initialize su a) as [d0|e]; [|discriminate]. cbn [rbind] in *.
  rewrite L. cbn [rbind]. rewrite S. auto.
Qed.

(** ** C49 *)

(** every text has exactly one list of lines *)
Theorem C49_lines : forall text, exists ls, lines_of text ls /\ forall ls', lines_of text ls' -> ls' = ls.
Proof.
  intros text. destruct (lines_exist text) as (ls & L). exists ls. split; auto.
  intros ls' L'. apply lines_read in L, L'. congruence.
Qed.

(** The command prints the words of every line with the delimiter between them; in accurate
    mode the words of a line make up the line. *)
Theorem C49_prints_words :
  forall (num : Num) (H : hmm num) (T : ptables num) (ord : orders) (su : surroundings) (a : cli_args)
         (text : str) (ls : list str) (sep : str) (d : dstate),
    untagged a -> reads su a text -> lines_of text ls -> separator a sep -> loaded num H su a d ->
    sane (sget (d_freq d)) (d_total d) ->
    exists wss,
      Forall2 (fun l ws => snd (do_op num H d (OpCut (c_cutall a) (c_hmm a) l)) = OutWords (gof ws) /\
                           (c_cutall a = false -> concat ws = l)) ls wss /\
      cli num H T ord su a = (printed (map (between sep) wss), None).
Proof.
  intros num H T ord su a text ls sep d U R LS S L SA.
  rewrite (cli_started num H T ord su a text d [] sep R L S)
    by (unfold import_posseg; rewrite untagged_ok; auto).
  rewrite <- (lines_read _ _ LS).
  destruct (print_ok sep (cutfunc num H T ord a) (fun w => pw_d w = d)
              (fun l g => snd (do_op num H d (OpCut (c_cutall a) (c_hmm a) l)) = OutWords g /\ snd g = None /\
                          (c_cutall a = false -> concat (fst g) = l)) (fun _ => True))
    with (lns := readlines (universal text)) (st := mkPW d [[]]) as (wss & F2 & E).
  - intros w l E _. unfold cutfunc. rewrite untagged_ok, E by auto. cbn [do_op fst snd]. split; [reflexivity|].
    split; [reflexivity|]. destruct (c_cutall a).
    + destruct (C03_full_mode_covers num H (c_hmm a) (d_freq d) (d_total d) (d_force d) l) as (ps & -> & _).
      split; [reflexivity|discriminate].
    + destruct (C01_accurate_lossless num H (c_hmm a) (d_freq d) (d_total d) (d_force d) l SA) as (ws & -> & C).
      split; [reflexivity|intros _; exact C].
  - intros l g (_ & N & _). exact N.
  - reflexivity.
  - apply Forall_forall. auto.
  - exists wss. split; [|exact E]. eapply Forall2_impl; [|exact F2]. intros l ws (A & _ & B). auto.
Qed.

(** with an empty delimiter in accurate mode the lines come out *)
Theorem C49_empty_delimiter :
  forall (num : Num) (H : hmm num) (T : ptables num) (ord : orders) (su : surroundings) (a : cli_args)
         (text : str) (ls : list str) (d : dstate),
    untagged a -> reads su a text -> lines_of text ls -> c_delim a = OptValue [] -> c_cutall a = false ->
    loaded num H su a d -> sane (sget (d_freq d)) (d_total d) ->
    cli num H T ord su a = (printed ls, None).
Proof.
  intros num H T ord su a text ls d U R LS S CA L SA.
  destruct (C49_prints_words num H T ord su a text ls [] d) as (wss & F2 & E); auto.
  { right. right. exact S. }
  rewrite E. do 3 f_equal. clear E LS. induction F2 as [|l ws ls wss (A & B) _ IH]; auto.
  cbn [map]. rewrite between_nil, B, IH; auto.
Qed.

(** a line that fails ends the run; the lines before it have been printed *)
Theorem C49_failing_line :
  forall (num : Num) (H : hmm num) (T : ptables num) (ord : orders) (su : surroundings) (a : cli_args)
         (text : str) (ls1 : list str) (l : str) (ls2 : list str) (sep : str) (d : dstate) (e : exn),
    untagged a -> reads su a text -> lines_of text (ls1 ++ l :: ls2) -> separator a sep -> loaded num H su a d ->
    let words l := snd (do_op num H d (OpCut (c_cutall a) (c_hmm a) l)) in
    (forall l', In l' ls1 -> exists ws, words l' = OutWords (gof ws)) ->
    (exists ws, words l = OutWords (ws, Some e)) ->
    exists wss, Forall2 (fun l ws => words l = OutWords (gof ws)) ls1 wss /\
      cli num H T ord su a = (printed (map (between sep) wss), Some e).
Proof.
  intros num H T ord su a text ls1 l ls2 sep d e U R LS S L words OK BAD.
  rewrite (cli_started num H T ord su a text d [] sep R L S)
    by (unfold import_posseg; rewrite untagged_ok; auto).
  pose proof (lines_read _ _ LS) as LR. apply map_eq_app in LR. destruct LR as (lns1 & lns2 & ER & E1 & E2).
  apply map_eq_cons in E2. destruct E2 as (ln & lns & -> & <- & _). subst ls1. rewrite ER.
  apply (print_fails sep (cutfunc num H T ord a) (fun w => pw_d w = d) (fun l g => words l = OutWords g) (fun _ => True)).
  - intros w l0 E _. unfold cutfunc. rewrite untagged_ok, E by auto. cbn [do_op fst snd]. split; reflexivity.
  - reflexivity.
  - apply Forall_forall. auto.
  - intros l g I W. destruct (OK l I) as (ws & E). rewrite E in W. injection W as <-. reflexivity.
  - intros g W. destruct BAD as (ws & E). rewrite E in W. injection W as <-. reflexivity.
Qed.

(** the delimiter of -p empty: no tags *)
Theorem C49_empty_pos :
  forall num H T ord su d u ca hmm f delim,
    cli num H T ord su (mkCli delim (OptValue []) d u ca hmm f) = cli num H T ord su (mkCli delim OptAbsent d u ca hmm f).
Proof. reflexivity. Qed.

(** ** C69: tags on the command line *)

Lemma Forall2_in_l {A B} {P : A -> B -> Prop} {l m} : Forall2 P l m -> Forall2 (fun a b => In a l /\ P a b) l m.
Proof.
  induction 1 as [|a b l m P1 _ IH]; constructor; [split; [left|]; auto|].
  eapply Forall2_impl; [|exact IH]. intros x y [I Q]. split; [right|]; auto.
Qed.

Section Tagging.
  Variable num : Num.
  Variable H : hmm num.
  Variable T : ptables num.
  Variable ord : orders.

  Lemma import_ok su a p entries : tagged_with a p ->
    Forall2 (fun line e => tag_entry line (fst e) (snd e)) (file_lines (su_default su)) entries ->
    import_posseg su a = Ok (fst (load_word_tag (file_lines (su_default su)) [])).
  Proof.
    intros P F. unfold import_posseg. rewrite (tagged_ok _ _ P).
    destruct (load_entries _ _ [] F) as (tab & -> & _). reflexivity.
  Qed.

  (** the tagger as the lines go by *)
  Lemma tag_lines a p d tab sep lns : tagged_with a p ->
    let w0 := mkPW d [tab] in
    (forall l, In l (map rstrip_crlf lns) ->
       exists ts, snd (do_pop num H T ord w0 (PCut 0 (c_hmm a) l)) = PWords (gof ts)) ->
    exists tss,
      Forall2 (fun l ts => snd (do_pop num H T ord w0 (PCut 0 (c_hmm a) l)) = PWords (gof ts)) (map rstrip_crlf lns) tss /\
      print_lines sep (cutfunc num H T ord a) w0 lns =
        (printed (map (fun ts => between sep (map (fun wt => fst wt ++ p ++ snd wt) ts)) tss), None).
  Proof.
    intros P w0 OK.
    assert (SAME : forall w l, w = w0 \/ w = makesure_userdict_loaded w0 0 ->
              snd (do_pop num H T ord w (PCut 0 (c_hmm a) l)) = snd (do_pop num H T ord w0 (PCut 0 (c_hmm a) l)) /\
              fst (do_pop num H T ord w (PCut 0 (c_hmm a) l)) = makesure_userdict_loaded w0 0).
    { intros w l [->| ->].
      - split; [reflexivity|]. apply pop_cut_world. cbn. lia.
      - assert (L1 : 0 < length (pw_tabs (makesure_userdict_loaded w0 0))) by (rewrite makesure_length; cbn; lia).
        assert (L2 : 0 < length (pw_tabs w0)) by (cbn; lia).
        rewrite (pop_cut_world num H T ord _ 0 (c_hmm a) l L1), makesure_twice. split; auto.
        rewrite (pop_cut num H T ord _ 0 (c_hmm a) l L1), (pop_cut num H T ord _ 0 (c_hmm a) l L2), makesure_twice.
        assert (FD : d_freq (pw_d (makesure_userdict_loaded w0 0)) = d_freq (pw_d w0) /\
                     d_total (pw_d (makesure_userdict_loaded w0 0)) = d_total (pw_d w0)).
        { unfold makesure_userdict_loaded. destruct (nth_error (pw_tabs w0) 0); auto. destruct (d_tags (pw_d w0)); auto. }
        destruct FD as [F1 F2]. rewrite F1, F2. reflexivity. }
    destruct (print_ok sep (cutfunc num H T ord a) (fun w => w = w0 \/ w = makesure_userdict_loaded w0 0)
                (fun l g => exists ts, snd (do_pop num H T ord w0 (PCut 0 (c_hmm a) l)) = PWords (gof ts) /\
                              g = gof (map (fun wt => fst wt ++ p ++ snd wt) ts))
                (fun l => In l (map rstrip_crlf lns)))
      with (lns := lns) (st := w0) as (wss & F2 & E).
    - intros w l W IN. destruct (SAME w l W) as [S1 S2]. destruct (OK l IN) as (ts & ET). unfold cutfunc.
      rewrite (tagged_ok _ _ P). destruct (do_pop num H T ord w (PCut 0 (c_hmm a) l)) as [w' r]. cbn [fst snd] in *.
      rewrite ET in S1. subst r w'. cbn [fst snd]. split; auto. exists ts. split; auto.
    - intros l g (ts & _ & ->). reflexivity.
    - auto.
    - apply Forall_forall. auto.
    - rewrite E. clear E. revert wss F2. generalize (map rstrip_crlf lns). intros ls wss F2.
      induction F2 as [|l ws ls wss (ts & A & B) _ IH].
      + exists []. split; [constructor|reflexivity].
      + destruct IH as (tss & F & G). exists (ts :: tss). split; [constructor; auto|].
        unfold gof in B. injection B as ->. injection G as G. cbn [map]. unfold printed in *. cbn [map concat]. rewrite G. reflexivity.
  Qed.
End Tagging.

(** With -p every line is printed as the words and tags that the tagger gives for it, with
    the tags of the default dictionary and, before those, of the user dictionary; the words
    make up the line. *)
Theorem C69_prints_tags :
  forall (num : Num) (NI : NumInf num) (H : hmm num) (v : pvalues num) (ord : orders) (su : surroundings)
         (a : cli_args) (text : str) (ls : list str) (sep p : str) (d : dstate) (entries : list (str * str)),
    values_ok NI v -> fair_order ord -> (forall l, In l ls -> i_lim NI (2 * length l)) ->
    tagged_with a p -> reads su a text -> lines_of text ls -> separator a sep -> loaded num H su a d ->
    Forall2 (fun line e => tag_entry line (fst e) (snd e)) (file_lines (su_default su)) entries ->
    sane (sget (d_freq d)) (d_total d) ->
    exists (tab : sdict str) (tss : list (list tagged)),
      (forall k, sget tab k = match sget (d_tags d) k with Some t => Some t | None => last_for k entries end) /\
      Forall2 (fun l ts => ps_cut (shipped num v) ord (c_hmm a) tab (d_freq d) (d_total d) l = gof ts /\
                           concat (map fst ts) = l /\ Forall (fun wt => fst wt <> []) ts) ls tss /\
      cli num H (shipped num v) ord su a =
        (printed (map (fun ts => between sep (map (fun wt => fst wt ++ p ++ snd wt) ts)) tss), None).
Proof.
  intros num NI H v ord su a text ls sep p d entries V FO LIM P R LS S L TE SA.
  rewrite (cli_started num H (shipped num v) ord su a text d _ sep R L S (import_ok su a p entries P TE)).
  rewrite <- (lines_read _ _ LS).
  destruct (C63_tags_of_a_file _ _ TE) as (tab & ET & TAB). rewrite ET. cbn [fst].
  pose proof (lines_read _ _ LS) as LR.
  set (tb := nth 0 (pw_tabs (makesure_userdict_loaded (mkPW d [tab]) 0)) []).
  assert (OK : forall l, In l ls -> exists ts,
     snd (do_pop num H (shipped num v) ord (mkPW d [tab]) (PCut 0 (c_hmm a) l)) = PWords (gof ts) /\
     ps_cut (shipped num v) ord (c_hmm a) tb (d_freq d) (d_total d) l = gof ts /\
     concat (map fst ts) = l /\ Forall (fun wt => fst wt <> []) ts).
  { intros l IN. rewrite pop_cut by (cbn; lia). cbn [pw_d]. fold tb.
    destruct (C33_shipped_tables num NI v ord (c_hmm a) tb (d_freq d) (d_total d) l V FO SA (LIM l IN)) as (ts & E & C).
    exists ts. rewrite E. auto. }
  destruct (tag_lines num H (shipped num v) ord a p d tab sep (readlines (universal text)) P) as (tss & F2 & E).
  { intros l. rewrite LR. intros IN. destruct (OK l IN) as (ts & E & _). eauto. }
  exists tb, tss. split; [|split; [|exact E]].
  - assert (ND : NoDup (map fst (d_tags d))).
    { destruct L as (b & ub & fr & total & _ & _ & _ & LU).
      pose proof (nodup_userdict num H (map UBytes (file_lines ub)) (mkD fr total [] []) (NoDup_nil _)) as N.
      rewrite LU in N. exact N. }
    intros k. unfold tb, makesure_userdict_loaded. cbn [pw_tabs nth_error pw_d]. destruct (d_tags d) as [|e tags] eqn:ED.
    + cbn. apply TAB.
    + cbn [pw_tabs set_nth nth]. rewrite sget_dupdate by auto. destruct (sget (e :: tags) k); auto.
  - rewrite LR in *. eapply Forall2_impl; [|exact (Forall2_in_l F2)].
    intros l ts [IN E']. destruct (OK l IN) as (ts' & E2 & C). cbv beta in E'. rewrite E2 in E'. injection E' as ->. exact C.
Qed.

(** -a changes nothing with -p *)
Theorem C69_cut_all_ignored :
  forall num H T ord su delim pos dict user hmm f p,
    tagged_with (mkCli delim pos dict user true hmm f) p ->
    cli num H T ord su (mkCli delim pos dict user true hmm f) = cli num H T ord su (mkCli delim pos dict user false hmm f).
Proof.
  intros num H T ord su delim pos dict user hmm f p [[E _]|[E NE]]; cbn in E; subst pos; [reflexivity|].
  destruct p; [congruence|reflexivity].
Qed.

(** ** C70: -D together with -p

    The words are those of the dictionary given with -D, the tags those of the default
    dictionary (and of the user dictionary). *)
Theorem C70_tags_of_default_dictionary :
  forall (num : Num) (O : NumOrder num) (S : NumSign num) (H : hmm num) (T : ptables num) (ord : orders)
         (su : surroundings) (a : cli_args) (text : str) (ls : list str) (sep p : str)
         (b ub : bytes) (fr : freqs) (total : Z) (d : dstate) (entries : list (str * str)),
    tagged_with a p -> c_hmm a = false -> reads su a text -> lines_of text ls -> separator a sep ->
    dict_file su a b -> gen_pfdict (file_lines b) = Ok (fr, total) -> healthy fr total ->
    user_file su a ub -> let ulines := map UBytes (file_lines ub) in
    load_userdict num H (mkD fr total [] []) ulines = (d, None) -> pop_nonneg (PTok (OpUserdict ulines)) ->
    Forall2 (fun line e => tag_entry line (fst e) (snd e)) (file_lines (su_default su)) entries ->
    let w0 := mkPW (mkD fr total [] []) [fst (load_word_tag (file_lines (su_default su)) [])] in
    let tag k := tag_or_x (last_for k (entries ++ history_tags num H T ord w0 [PTok (OpUserdict ulines)])) in
    exists tss,
      Forall2 (fun l ts => exists (choice : str -> list str) (out : str -> list tagged),
        ts = flat_map (fun br : bool * str => if fst br then out (snd br)
                                 else map (fun w => (w, [120%N])) (chars_crlf (snd br)))
                      (runs pos_word_char l) /\
        forall r, In (true, r) (runs pos_word_char l) ->
          best_for num O (sget (d_freq d)) (d_total d) r (choice r) /\ tag_merged tag (choice r) (out r)) ls tss /\
      cli num H T ord su a =
        (printed (map (fun ts => between sep (map (fun wt => fst wt ++ p ++ snd wt) ts)) tss), None).
Proof.
  intros num O S H T ord su a text ls sep p b ub fr total d entries P NH R LS SE DF G HE UF ulines LU NN TE w0 tag.
  assert (L : loaded num H su a d) by (exists b, ub, fr, total; auto).
  rewrite (cli_started num H T ord su a text d _ sep R L SE (import_ok su a p entries P TE)).
  pose proof (lines_read _ _ LS) as LR.
  assert (W : do_pops num H T ord w0 [PTok (OpUserdict ulines)] = mkPW d (pw_tabs w0)).
  { unfold do_pops. cbn [fold_left do_pop do_op pw_d w0]. rewrite LU. reflexivity. }
  assert (OK := fun l => C35_last_tag_wins num O S H T ord (file_lines (su_default su)) entries (mkD fr total [] [])
                  [PTok (OpUserdict ulines)] l TE HE eq_refl (Forall_cons _ NN (Forall_nil _))).
  cbv zeta in OK. fold w0 in OK. rewrite W in OK. cbn [pw_d] in OK.
  assert (NI : forall same lns, ~ In (ModelPosseg.PInit 0 same lns) [PTok (OpUserdict ulines)]).
  { intros same lns [E|[]]. discriminate. }
  destruct (tag_lines num H T ord a p d (fst (load_word_tag (file_lines (su_default su)) [])) sep
              (readlines (universal text)) P) as (tss & F2 & E).
  { intros l _. rewrite NH. destruct (OK l NI) as (choice & out & E & _). eauto. }
  exists tss. split; [|exact E]. rewrite LR in F2. eapply Forall2_impl; [|exact F2]. intros l ts E'. cbv beta in E'.
  rewrite NH in E'. destruct (OK l NI) as (choice & out & E2 & C). exists choice, out. split; [|exact C].
  change (mkPW d (pw_tabs w0)) with (mkPW d [fst (load_word_tag (file_lines (su_default su)) [])]) in E2.
  rewrite E2 in E'. unfold gof in E'. injection E' as E'. symmetry. exact E'.
Qed.

(** ** Examples *)

(** default dictionary: 北京 5 ns, 大学 4 n; DICT: 北京 7 nz, 来 2 v; user dictionary: 大学 9 zz *)
Definition cli_default : bytes :=
  [0xE5; 0x8C; 0x97; 0xE4; 0xBA; 0xAC; 32; 53; 32; 110; 115; 10;
   0xE5; 0xA4; 0xA7; 0xE5; 0xAD; 0xA6; 32; 52; 32; 110; 10]%N.
Definition cli_dict : bytes :=
  [0xE5; 0x8C; 0x97; 0xE4; 0xBA; 0xAC; 32; 55; 32; 110; 122; 10; 0xE6; 0x9D; 0xA5; 32; 50; 32; 118; 10]%N.
Definition cli_udict : bytes := [0xE5; 0xA4; 0xA7; 0xE5; 0xAD; 0xA6; 32; 57; 32; 122; 122; 10]%N.
Definition su_demo (text : str) : surroundings :=
  mkSur cli_default
    (fun p => if str_eqb p [68]%N then Some cli_dict else if str_eqb p [85]%N then Some cli_udict else None)
    (fun _ => None) text.
(** 来北京 CR LF, an empty line, 大学 without an end *)
Definition cli_text : str := [c_lai; c_bei; c_jing; 13; 10; 13; c_da; c_xue]%N.
Definition cli_lines : list str := [[c_lai; c_bei; c_jing]; []; [c_da; c_xue]].

Example cli_text_lines : lines_of cli_text cli_lines.
Proof.
  unfold cli_text, cli_lines.
  apply (lo_line [c_lai; c_bei; c_jing] [13; 10]%N [13; c_da; c_xue]%N).
  - split; intros I; cbn in I; intuition discriminate.
  - right. left. reflexivity.
  - apply (lo_line [] [13]%N [c_da; c_xue]).
    + split; intros [].
    + right. right. split; [reflexivity|]. intros r E. discriminate.
    + apply lo_last; [discriminate|]. split; intros I; cbn in I; intuition discriminate.
Qed.

Definition opts delim pos dict user cutall := mkCli delim pos dict user cutall false None.
Definition run_demo (a : cli_args) := cli numE no_hmm demo_T demo_ord (su_demo cli_text) a.

Example C49_nonvacuous :
  let a := opts OptAbsent OptAbsent None (Some [85]%N) false in
  (exists d, untagged a /\ reads (su_demo cli_text) a cli_text /\ separator a [32; 47; 32]%N /\
     loaded numE no_hmm (su_demo cli_text) a d /\ saneb (d_freq d) (d_total d) = true) /\
  run_demo a = ([c_lai; 32; 47; 32; c_bei; c_jing; 10; 10; c_da; c_xue; 10]%N, None) /\
  run_demo (opts OptBare OptAbsent None None true) =
    ([c_lai; 32; c_bei; c_jing; 10; 10; c_da; c_xue; 10]%N, None) /\
  run_demo (opts (OptValue []) OptAbsent None None false) =
    ([c_lai; c_bei; c_jing; 10; 10; c_da; c_xue; 10]%N, None).
Proof.
  cbv zeta. split.
  - exists (fst (load_userdict numE no_hmm (mkD (d_freq (build [([c_bei; c_jing], 5%Z); ([c_da; c_xue], 4%Z)])) 9 [] [])
                   (map UBytes (file_lines cli_udict)))).
    split; [left; reflexivity|]. split; [left; split; [left|]; reflexivity|]. split; [left; split; reflexivity|].
    split; [|vm_compute; reflexivity].
    exists cli_default, cli_udict, (d_freq (build [([c_bei; c_jing], 5%Z); ([c_da; c_xue], 4%Z)])), 9%Z.
    split; [left; split; [left|]; reflexivity|]. split; [vm_compute; reflexivity|].
    split; [right; exists [85]%N; repeat split; discriminate|]. vm_compute. reflexivity.
  - split; [|split]; vm_compute; reflexivity.
Qed.

(** an empty dictionary cannot cut in accurate mode: log 0 *)
Example C49_failing_nonvacuous :
  cli numE no_hmm demo_T demo_ord (mkSur [] (fun _ => None) (fun _ => None) [32; 10; c_da; c_xue; 10; 32; 10]%N)
      (opts OptAbsent OptAbsent None None false) = ([32; 10]%N, Some ValueError).
Proof. vm_compute. reflexivity. Qed.

(** with -D D -u U -p -n: the tag of 北京 is the one of the default dictionary, 来 has none *)
Example C69_C70_nonvacuous :
  run_demo (opts OptBare OptBare (Some [68]%N) (Some [85]%N) true) =
    ([c_lai; 95; 120; 32; c_bei; c_jing; 95; 110; 115; 10; 10; c_da; c_xue; 95; 122; 122; 10]%N, None).
Proof. vm_compute. reflexivity. Qed.

(** a word of the dictionary given with -D need not be printed with its tag there *)
Theorem C70_tag_of_given_dictionary_refuted :
  ~ (forall num H T ord default dict w f t text,
       dict_file (mkSur default (fun _ => Some dict) (fun _ => None) text) (opts OptBare OptBare (Some [68]%N) None false) dict ->
       tag_entry dict w t -> (exists fr total, gen_pfdict (file_lines dict) = Ok (fr, total) /\ sget fr w = Some f /\ (0 < f)%Z) ->
       text = w ->
       cli num H T ord (mkSur default (fun _ => Some dict) (fun _ => None) text) (opts OptBare OptBare (Some [68]%N) None false) =
         (w ++ [95] ++ t ++ [10], None)%N).
Proof.
  intros A.
  specialize (A numE no_hmm demo_T demo_ord cli_udict bj_tagged [c_bei; c_jing] 30%Z s_ns [c_bei; c_jing]).
  assert (E : cli numE no_hmm demo_T demo_ord (mkSur cli_udict (fun _ => Some bj_tagged) (fun _ => None) [c_bei; c_jing])
            (opts OptBare OptBare (Some [68]%N) None false) = ([c_bei; c_jing; 95; 120; 10]%N, None)) by (vm_compute; reflexivity).
  rewrite E in A. clear E. assert (B : False); [|exact B].
  assert (C : ([c_bei; c_jing; 95; 120; 10]%N, @None exn) = ([c_bei; c_jing] ++ [95] ++ s_ns ++ [10], None)%N).
  { apply A.
    - right. exists [68]%N. repeat split; discriminate.
    - destruct C35_nonvacuous as (F & _). inversion F; subst. assumption.
    - exists (d_freq (build [([c_bei; c_jing], 30%Z)])), 30%Z. split; [vm_compute; reflexivity|]. split; [vm_compute; reflexivity|lia].
    - reflexivity. }
  discriminate C.
Qed.

Print Assumptions C49_lines.
Print Assumptions C49_prints_words.
Print Assumptions C49_empty_delimiter.
Print Assumptions C49_failing_line.
Print Assumptions C49_empty_pos.
Print Assumptions C69_prints_tags.
Print Assumptions C69_cut_all_ignored.
Print Assumptions C70_tags_of_default_dictionary.
Print Assumptions C70_tag_of_given_dictionary_refuted.
