(** * Properties of the dictionary calls *)
From Coq Require Import Reals.
From Verif Require Import PyBase PyRegex PyNum PyUtf8 ModelFinalseg ModelSeg ModelDict ModelApi
  SpecBase SpecSeg SpecNum SpecFull SpecDict SpecApi InstR InstQ InstB64 InstSign
  ProofsBase ProofsDag ProofsSeg ProofsSearch ProofsDict ProofsUserdict ProofsTotal ProofsWords ProofsUtf8 ProofsDictFile
  ProofsLoad PropsCut Demo ProofsDemo.

(** ** C15

    After [del_word(w)] and any later calls that do not write [w], [w] is not
    yielded any more: not by the accurate mode with or without the HMM, not by
    the search mode, and not by the full mode unless [w] starts with a letter or
    digit. *)
Theorem C15_deleted_word_gone :
  forall (num : Num) (H : hmm num) (d : dstate) (w : str) (os : list op),
    2 <= length w -> (exists c, In c w /\ han_char c = true) ->
    ~ In w (flat_map op_words os) ->
    let d' := do_ops num H d (OpDelWord w :: os) in
    forall (s : str) (HMM : bool),
      ~ In w (fst (cut num H (mode_of false HMM) (d_freq d') (d_total d') (d_force d') s)) /\
      ~ In w (fst (cut_for_search num H HMM (d_freq d') (d_total d') (d_force d') s)) /\
      (~ starts_alnum w -> ~ In w (fst (cut num H (mode_of true HMM) (d_freq d') (d_total d') (d_force d') s))).
Proof.
  intros num H d w os LEN [c [HC HH]] NW d' s HMM.
  assert (NH : ~ no_han w).
  { unfold no_han. rewrite Forall_forall. intros F. rewrite (F c HC) in HH. discriminate. }
  assert (ST : sget (d_freq d') w = Some 0%Z /\ In w (d_force d')).
  { unfold d', do_ops. cbn [fold_left].
    change (fst (do_op num H d (OpDelWord w))) with (add_word_freq d w 0 None).
    destruct (@do_ops_adds num H os (add_word_freq d w 0 None)) as [l [E F]].
    unfold do_ops in E. rewrite E. split.
    - apply adds_keep.
      + eapply Forall_impl; [|exact F]. intros a HI EA. subst w. auto.
      + simpl. rewrite add_get. unfold after_add. rewrite str_eqb_refl. reflexivity.
    - apply adds_force. simpl. apply set_add_In. auto. }
  destruct ST as [S0 SF].
  assert (NWD : ~ is_word (sget (d_freq d')) w) by (intros [n [E1 E2]]; congruence).
  assert (ACC : ~ In w (fst (cut num H (mode_of false HMM) (d_freq d') (d_total d') (d_force d') s))).
  { intros HI. destruct HMM.
    - apply cut_hmm_kind in HI. destruct HI as [?|[?|[?|?]]]; auto. lia.
    - apply cut_nohmm_kind in HI. destruct HI as [?|[?|?]]; auto. lia. }
  split; [exact ACC|]. split.
  - rewrite cut_for_search_eq. cbn [fst]. rewrite in_flat_map. intros [x [X1 X2]].
    unfold expand in X2. rewrite !in_app_iff, !in_map_iff in X2.
    assert (IW : forall n i, In i (inner_words (sget (d_freq d')) n x) -> sub x i n <> w).
    { intros n i HI E. unfold inner_words in HI. destruct (n <? length x); [|contradiction].
      apply filter_In in HI. destruct HI as [_ HB]. apply wordb_is_word in HB. rewrite E in HB. auto. }
    destruct X2 as [[i [E HI]]|[[i [E HI]]|[E|[]]]].
    + apply (IW _ _ HI E).
    + apply (IW _ _ HI E).
    + subst x. auto.
  - intros NA HI. apply cut_full_kind in HI. destruct HI as [?|[?|[?|?]]]; auto. lia.
Qed.

(** The text 北京大学 is one word of the demo dictionary; deleted, it comes apart,
    also after 北京大学生 has been added. *)
Definition bjdx : str := [c_bei; c_jing; c_da; c_xue].
Example C15_nonvacuous :
  let d' := do_ops numQ demo_hmm demo [OpDelWord bjdx; OpAddWord (bjdx ++ [c_sheng]) (Some 50%Z) None] in
  fst (cut numQ demo_hmm (mode_of false false) demo_fr demo_total [] bjdx) = [bjdx] /\
  fst (cut numQ demo_hmm (mode_of false false) (d_freq d') (d_total d') (d_force d') bjdx) = [[c_bei; c_jing]; [c_da; c_xue]] /\
  fst (cut numQ demo_hmm (mode_of false true) (d_freq d') (d_total d') (d_force d') bjdx) = [[c_bei; c_jing]; [c_da; c_xue]].
Proof. vm_compute. auto. Qed.

(** Without a Han character the claim is false: "abc" is still yielded in both modes. *)
Theorem C15_letters_refuted :
  exists w s d', 2 <= length w /\ d' = do_ops numQ demo_hmm demo [OpDelWord w] /\
    In w (fst (cut numQ demo_hmm (mode_of false false) (d_freq d') (d_total d') (d_force d') s)) /\
    In w (fst (cut numQ demo_hmm (mode_of false true) (d_freq d') (d_total d') (d_force d') s)).
Proof.
  exists [97; 98; 99]%N, [97; 98; 99]%N, (do_ops numQ demo_hmm demo [OpDelWord [97; 98; 99]%N]).
  split; [simpl; lia|]. split; [reflexivity|]. vm_compute. auto.
Qed.

(** ** C16 *)
Theorem C16_add_word_frame :
  forall (num : Num) (H : hmm num) (d : dstate) (w : str) (f : Z) (tag : option str),
    exists d', add_word num H d w (Some f) tag = Ok d' /\
      (forall k, sget (d_freq d') k =
         if str_eqb k w then Some f
         else match sget (d_freq d) k with
              | Some n => Some n
              | None => if is_prefix k w then Some 0%Z else None
              end) /\
      d_total d' = (d_total d + f)%Z /\
      (forall k, sget (d_tags d') k =
         match tag with
         | Some (c :: t) => if str_eqb k w then Some (c :: t) else sget (d_tags d) k
         | _ => sget (d_tags d) k
         end) /\
      (forall k, In k (d_force d') <-> In k (d_force d) \/ (k = w /\ f = 0%Z)).
Proof.
  intros num H d w f tag. exists (add_word_freq d w f tag). split; [reflexivity|].
  split; [intros k; simpl; apply add_get|]. split; [reflexivity|]. split.
  - intros k. simpl. destruct tag as [[|c t]|]; auto. apply sget_sset.
  - intros k. simpl. destruct (Z.eqb_spec f 0).
    + rewrite set_add_In. tauto.
    + tauto.
Qed.

(** [is_prefix] says what it should *)
Theorem C16_is_prefix :
  forall k w, is_prefix k w = true <-> k <> [] /\ exists v, w = k ++ v.
Proof. intros. rewrite is_prefix_spec. reflexivity. Qed.

(** with no frequency given: the same with the suggested one, or nothing happens *)
Theorem C16_add_word_default :
  forall (num : Num) (H : hmm num) (d : dstate) (w : str) (tag : option str),
    match suggest_freq_value num H (d_freq d) (d_total d) (d_force d) (Whole w) with
    | Ok f => add_word num H d w None tag = add_word num H d w (Some f) tag
    | Err e => do_op num H d (OpAddWord w None tag) = (d, OutExn e)
    end.
Proof.
  intros. unfold do_op, add_word. destruct (suggest_freq_value _ _ _ _ _ _); reflexivity.
Qed.

Example C16_nonvacuous :
  exists d', add_word numQ demo_hmm demo [c_sheng; c_lai] (Some 7%Z) (Some [110%N]) = Ok d' /\
    sget (d_freq d') [c_sheng; c_lai] = Some 7%Z /\ sget (d_freq d') [c_sheng] = Some 3%Z /\
    d_total d' = (demo_total + 7)%Z /\ sget (d_tags d') [c_sheng; c_lai] = Some [110%N].
Proof. eexists. split; [reflexivity|]. vm_compute. auto. Qed.

(** ** C17 *)
Theorem C17_always_prefix_closed :
  forall (num : Num) (H : hmm num) (d : dstate),
    reachable num H d -> prefix_closed (sget (d_freq d)).
Proof.
  intros num H d (lines & fr & total & force & os & E & ->).
  destruct (@do_ops_adds num H os (mkD fr total [] force)) as [l [-> _]].
  apply adds_closed. simpl. eapply gen_pfdict_closed; eauto.
Qed.

(** hence the word graph is exact (C06) in every reachable state *)
Theorem C06_C17_word_graph_reachable :
  forall (num : Num) (H : hmm num) (d : dstate) (s : str),
    reachable num H d ->
    length (get_DAG (d_freq d) s) = length s /\
    forall k, k < length s ->
      let ends := filter (fun i => wordb (sget (d_freq d)) (sub s k (i + 1 - k))) (seq k (length s - k)) in
      nth_error (get_DAG (d_freq d) s) k = Some (match ends with [] => [k] | _ => ends end).
Proof. intros num H d s R. apply C06_word_graph_exact. eapply C17_always_prefix_closed; eauto. Qed.

(** a file with the one line "北京 5", then a failing and a succeeding call *)
Definition bj_line : bytes := [0xE5; 0x8C; 0x97; 0xE4; 0xBA; 0xAC; 32; 53; 10]%N.
Definition bj_ops : list op :=
  [OpUserdict [UText [c_da; c_xue; c_sheng; 32; 52]%N; UBytes [0xFF]%N]; OpDelWord [c_bei; c_jing]].
Example C17_nonvacuous :
  exists d, reachable numQ demo_hmm d /\
    sget (d_freq d) [c_da; c_xue; c_sheng] = Some 4%Z /\ sget (d_freq d) [c_da; c_xue] = Some 0%Z /\
    sget (d_freq d) [c_bei; c_jing] = Some 0%Z.
Proof.
  exists (do_ops numQ demo_hmm (mkD [([c_bei; c_jing], 5%Z); ([c_bei], 0%Z)] 5 [] []) bj_ops). split.
  - exists [bj_line], [([c_bei; c_jing], 5%Z); ([c_bei], 0%Z)], 5%Z, [], bj_ops.
    split; [vm_compute; reflexivity|reflexivity].
  - vm_compute. auto.
Qed.

(** ** C18 *)
Theorem C18_total_never_undercounts :
  forall (num : Num) (S : NumSign num) (H : hmm num) (lines : list bytes) (fr : freqs) (total : Z)
         (force : list str) (os : list op),
    gen_pfdict lines = Ok (fr, total) ->
    (forall x w f, In x lines -> parse_dict_line x = Some (w, f) -> (0 <= f)%Z) ->
    Forall op_nonneg os ->
    let d := do_ops num H (mkD fr total [] force) os in
    (sum_of (d_freq d) <= d_total d)%Z /\
    (forall w n, sget (d_freq d) w = Some n -> (0 <= n <= d_total d)%Z) /\
    (total <= d_total d)%Z.
Proof.
  intros num S H lines fr total force os E NN F d.
  destruct (@do_ops_ok num S H os (mkD fr total [] force)) as [[ND [NN' SUM]] L]; auto.
  { apply (gen_pfdict_total_ok lines E NN). }
  fold d in ND, NN', SUM, L. split; auto. split; auto.
  intros w n G. split; [apply sget_In in G; eauto|].
  pose proof (sum_of_get _ _ NN' G). lia.
Qed.

(** one more call never lowers the total *)
Theorem C18_total_grows :
  forall (num : Num) (S : NumSign num) (H : hmm num) (d : dstate) (o : op),
    total_ok (d_freq d) (d_total d) -> op_nonneg o ->
    total_ok (d_freq (fst (do_op num H d o))) (d_total (fst (do_op num H d o))) /\
    (d_total d <= d_total (fst (do_op num H d o)))%Z.
Proof. intros. eapply do_op_ok; eauto. Qed.

(** the hypotheses about the number type hold for exact reals and for binary64 *)
Theorem C18_total_binary64 :
  forall (lg : Z -> b64) (H : hmm (numB lg)) (lines : list bytes) (fr : freqs) (total : Z)
         (force : list str) (os : list op),
    gen_pfdict lines = Ok (fr, total) ->
    (forall x w f, In x lines -> parse_dict_line x = Some (w, f) -> (0 <= f)%Z) ->
    Forall op_nonneg os ->
    let d := do_ops (numB lg) H (mkD fr total [] force) os in
    (sum_of (d_freq d) <= d_total d)%Z /\
    (forall w n, sget (d_freq d) w = Some n -> (0 <= n <= d_total d)%Z) /\
    (total <= d_total d)%Z.
Proof. intros lg H lines fr total force os E NN F. apply (C18_total_never_undercounts _ (signB lg) H lines); auto. Qed.

(** The total is not always the sum: a word written twice counts twice. *)
Theorem C18_equality_refuted :
  exists lines fr total, gen_pfdict lines = Ok (fr, total) /\ (sum_of fr < total)%Z.
Proof.
  exists [bj_line; bj_line]. eexists. eexists. split; [vm_compute; reflexivity|]. vm_compute. reflexivity.
Qed.

Example C18_nonvacuous :
  exists fr total, gen_pfdict [bj_line] = Ok (fr, total) /\ Forall op_nonneg bj_ops /\
    (forall x w f, In x [bj_line] -> parse_dict_line x = Some (w, f) -> (0 <= f)%Z).
Proof.
  eexists. eexists. split; [vm_compute; reflexivity|]. split; [repeat constructor|].
  intros x w f [<-|[]] E. vm_compute in E. inversion E. lia.
Qed.

(** ** C22 *)

(** every line says something, or is refused *)
Theorem C22_every_line :
  forall l, (exists e, line_reads l e) \/ (exists e, line_refused l e).
Proof. exact line_cases. Qed.

(** a file all of whose lines are accepted *)
Theorem C22_userdict_is_add_word :
  forall (num : Num) (H : hmm num) (d : dstate) lines es,
    Forall2 line_reads lines es ->
    load_userdict num H d lines = add_each num H d es.
Proof.
  intros num H d lines es F. pose proof (@load_all num H d lines es [] F) as E. rewrite app_nil_r in E.
  rewrite E. destruct (add_each num H d es) as [d' [e|]]; reflexivity.
Qed.

(** a refused line: the words before it are kept *)
Theorem C22_userdict_refused :
  forall (num : Num) (H : hmm num) (d : dstate) lines es l e rest,
    Forall2 line_reads lines es -> line_refused l e ->
    load_userdict num H d (lines ++ l :: rest) =
      (fst (add_each num H d es),
       match snd (add_each num H d es) with Some e' => Some e' | None => Some e end).
Proof.
  intros num H d lines es l e rest F R. rewrite (@load_all num H d lines es (l :: rest) F).
  destruct (add_each num H d es) as [d' [e'|]]; auto. simpl. rewrite (@load_refused num H d' l e R). reflexivity.
Qed.

(** with a frequency on every line nothing raises, and the last line for a word wins *)
Theorem C22_last_line_wins :
  forall (num : Num) (H : hmm num) (d : dstate) lines (es : list (str * Z * option str)),
    Forall2 line_reads lines (map (fun e => Some (fst (fst e), Some (snd (fst e)), snd e)) es) ->
    exists d', load_userdict num H d lines = (d', None) /\
      forall k n, last_freq (map fst es) k = Some n -> sget (d_freq d') k = Some n.
Proof.
  intros num H d lines es F.
  assert (G : given (map (fun e => Some (fst (fst e), Some (snd (fst e)), snd e)) es) = Some (map fst es)).
  { clear F. induction es as [|[[w f] t] es IH]; simpl; auto. rewrite IH. reflexivity. }
  destruct (@add_each_given num H d _ _ G) as [d' [E [_ [E3 _]]]].
  exists d'. rewrite (C22_userdict_is_add_word num H d _ _ F). auto.
Qed.

(** lines "北京 3", "", "北京 8 ns" and a line that is not UTF-8 *)
Example C22_nonvacuous :
  exists es e,
    Forall2 line_reads [UText [c_bei; c_jing; 32; 51]%N; UBytes [10]%N; UText [c_bei; c_jing; 32; 56; 32; 110; 115; 10]%N] es
    /\ line_refused (UBytes [0xFF]%N) e
    /\ es = [Some ([c_bei; c_jing], Some 3%Z, None); None; Some ([c_bei; c_jing], Some 8%Z, Some [110; 115]%N)].
Proof.
  eexists. eexists. split; [|split; [left; split; [vm_compute; reflexivity|reflexivity]|reflexivity]].
  repeat constructor.
  - eexists. split; [vm_compute; reflexivity|]. split; [vm_compute; intuition discriminate|].
    exists (Some [51%N]). split; [|split; [reflexivity|]].
    + split; [discriminate|]. split; [reflexivity|]. split; [|exact I]. split; [discriminate|repeat constructor].
    + intros w' f' t' [NW [E _]]. destruct w' as [|a [|b w']]; simpl in *; try congruence; try lia.
      destruct f' as [x|]; [destruct x; discriminate|]. destruct t'; discriminate.
  - eexists. split; vm_compute; reflexivity.
  - eexists. split; [vm_compute; reflexivity|]. split; [vm_compute; intuition discriminate|].
    exists (Some [56%N]). split; [|split; [reflexivity|]].
    + split; [discriminate|]. split; [reflexivity|]. split; split; try discriminate; repeat constructor.
    + intros w' f' t' [NW [E _]]. destruct w' as [|a [|b w']]; simpl in *; try congruence; try lia.
      destruct f' as [x|]; [destruct x; discriminate|]. destruct t'; discriminate.
Qed.

(** ** C23 *)

(** what the parser returns re-assembles to the line, and its word is the shortest
    possible; stated for the lines [load_userdict] passes on *)
Theorem C23_parse_sound :
  forall l text w f t,
    uline_text l = Some text -> parse_userdict_line text = Some (w, f, t) ->
    line_parts text w f t /\ forall w' f' t', line_parts text w' f' t' -> length w <= length w'.
Proof.
  intros l text w f t E EP. destruct (parse_sound (uline_no_final_newline l E) EP) as [_ R]. exact R.
Qed.

(** every non-empty line without a line break inside is parsed *)
Theorem C23_parse_total :
  forall l text,
    uline_text l = Some text ->
    (parse_userdict_line text = None <-> text = [] \/ In 10%N text).
Proof.
  intros l text E. split.
  - intros EP. destruct text as [|c text]; auto. right.
    destruct (in_dec N.eq_dec 10%N (c :: text)) as [HI|NI]; auto. exfalso.
    eapply (@parse_total (c :: text)); [apply no_newline_In; exact NI| |exact EP]. apply whole_parts. discriminate.
  - intros [->|HI]; [reflexivity|]. apply parse_newline; auto. apply (uline_no_final_newline l E).
Qed.

(** the parts of a line are determined by it *)
Theorem C23_parts_unique :
  forall text w f t f' t', line_parts text w f t -> line_parts text w f' t' -> f = f' /\ t = t'.
Proof.
  intros text w f t f' t' [_ [E [PF PT]]] [_ [E' [PF' PT']]]. subst text. apply app_inv_head in E'.
  apply parts_inj; auto.
Qed.

(** the four documented forms, for words without blanks *)
Theorem C23_documented_forms :
  forall w f t,
    w <> [] -> ~ In 32%N w -> ~ In 10%N w ->
    match f with Some ds => ds <> [] /\ Forall (fun c => is_digit09 c = true) ds | None => True end ->
    match t with Some ls => ls <> [] /\ Forall (fun c => is_lower c = true) ls | None => True end ->
    parse_userdict_line (w ++ match f with Some ds => 32%N :: ds | None => [] end
                           ++ match t with Some ls => 32%N :: ls | None => [] end) = Some (w, f, t).
Proof.
  intros w f t NW NB NN PF PT. apply parse_simple; auto.
  apply Forall_forall. intros c HC. split; intros ->; auto.
Qed.

(** A blank inside a word is allowed; the frequency is the last number. *)
Example C23_blank_in_word :
  parse_userdict_line [97; 32; 98; 32; 49; 50; 32; 110]%N = Some ([97; 32; 98]%N, Some [49; 50]%N, Some [110]%N).
Proof. vm_compute. reflexivity. Qed.
(** "a b" is read as the word "a" with the tag "b" *)
Example C23_tag_not_word :
  parse_userdict_line [97; 32; 98]%N = Some ([97]%N, None, Some [98]%N).
Proof. vm_compute. reflexivity. Qed.
(** an upper-case tag is part of the word *)
Example C23_upper_case_tag :
  parse_userdict_line [97; 32; 66]%N = Some ([97; 32; 66]%N, None, None).
Proof. vm_compute. reflexivity. Qed.

(** ** C24 *)
Theorem C24_file_read_faithfully :
  forall (lines : list bytes) (es : list (str * Z)),
    Forall2 (fun line e => dict_line line (fst e) (snd e)) lines es ->
    exists fr, gen_pfdict lines = Ok (fr, fold_right Z.add 0%Z (map snd es)) /\
      forall k, sget fr k =
        match last_freq es k with
        | Some n => Some n
        | None => if existsb (fun e => is_prefix k (fst e)) es then Some 0%Z else None
        end.
Proof.
  intros lines es F. apply gen_pfdict_ok. unfold parse_all.
  induction F as [|x [w f] lines es R F IH]; simpl; auto.
  rewrite (dict_line_parse R). f_equal. exact IH.
Qed.

Theorem C24_malformed_line :
  forall (lines : list bytes) (line : bytes),
    In line lines ->
    (utf8_decode (bytes_strip line) = None \/
     (exists text, utf8_decode (bytes_strip line) = Some text /\ ~ In 32%N text) \/
     (exists w f rest, utf8_decode (bytes_strip line) = Some (w ++ 32%N :: f ++ rest) /\
        ~ In 32%N w /\ ~ In 32%N f /\ (rest = [] \/ exists r, rest = 32%N :: r) /\ parse_int f = None)) ->
    gen_pfdict lines = Err ValueError.
Proof.
  intros lines line HI D. apply gen_pfdict_bad. exists line. split; auto.
  destruct D as [E|[[text [E NB]]|(w & f & rest & E & NW & NF & R & PI)]].
  - apply parse_bad_utf8; auto.
  - eapply parse_no_blank; eauto.
  - unfold parse_dict_line. rewrite E, split_on_app by auto.
    destruct R as [->|[r ->]].
    + rewrite app_nil_r, split_on_none, PI by auto. reflexivity.
    + rewrite split_on_app, PI by auto. reflexivity.
Qed.

(** the decoder is UTF-8: it inverts the encoder *)
Theorem C24_utf8 : forall b s, utf8_decode b = Some s <-> utf8_encode s = Some b.
Proof. exact utf8_inverse. Qed.

(** "北京 5" and "北京 12 ns" with a line end *)
Example C24_nonvacuous :
  Forall2 (fun line e => dict_line line (fst e) (snd e))
    [bj_line; [0xE5; 0x8C; 0x97; 0xE4; 0xBA; 0xAC; 32; 49; 50; 32; 110; 115; 13; 10]%N]
    [([c_bei; c_jing], 5%Z); ([c_bei; c_jing], 12%Z)].
Proof.
  repeat constructor.
  - exists [53%N], None, [0xE5; 0x8C; 0x97; 0xE4; 0xBA; 0xAC; 32; 53]%N, [10%N].
    repeat split; try discriminate; repeat constructor. vm_compute. intuition discriminate.
  - exists [49; 50]%N, (Some [110; 115]%N), [0xE5; 0x8C; 0x97; 0xE4; 0xBA; 0xAC; 32; 49; 50; 32; 110; 115]%N, [13; 10]%N.
    repeat split; try discriminate; repeat constructor.
    + vm_compute. intuition discriminate.
    + exists [110%N], 115%N. auto.
Qed.

Print Assumptions C15_deleted_word_gone.
Print Assumptions C15_letters_refuted.
Print Assumptions C16_add_word_frame.
Print Assumptions C16_is_prefix.
Print Assumptions C16_add_word_default.
Print Assumptions C17_always_prefix_closed.
Print Assumptions C06_C17_word_graph_reachable.
Print Assumptions C18_total_never_undercounts.
Print Assumptions C18_total_grows.
Print Assumptions C18_total_binary64.
Print Assumptions C18_equality_refuted.
Print Assumptions C22_every_line.
Print Assumptions C22_userdict_is_add_word.
Print Assumptions C22_userdict_refused.
Print Assumptions C22_last_line_wins.
Print Assumptions C23_parse_sound.
Print Assumptions C23_parse_total.
Print Assumptions C23_parts_unique.
Print Assumptions C23_documented_forms.
Print Assumptions C24_file_read_faithfully.
Print Assumptions C24_malformed_line.
Print Assumptions C24_utf8.
