(** * Properties of part-of-speech tagging (C33-C37, C55, C59, C60, C62, C63, C64) *)
From Coq Require Import Lia.
From Coq Require Import Reals.
From Verif Require Import PyBase PyRegex PyNum ModelFinalseg ModelSeg ModelDict ModelApi ModelPosseg
  SpecBase SpecSeg SpecNum SpecScore SpecDict SpecApi SpecHealth SpecPosseg SpecTagging InstB64 InstB64Ext InstExt InstQ
  ProofsBase ProofsRegex ProofsSplit ProofsNoHmm ProofsLocal ProofsDictFile ProofsSuggest ProofsHealth ProofsPvit2
  ProofsPosseg ProofsPosHmm2 ProofsPosTags ProofsPosLocal DataPossegOk PropsCut Demo ProofsDemo DemoPos.

(** the numbers in the tables are ordinary *)
Definition values_ok {num} (NI : NumInf num) (v : pvalues num) : Prop :=
  (forall y, i_fin NI 1 (v_start v y)) /\ (forall x y, i_fin NI 1 (v_trans v x y)) /\
  (forall y c x, v_emit v y c = Some x -> i_fin NI 1 x).

(** tables whose transitions keep the tag inside a word *)
Definition one_tag {num} (T : ptables num) : Prop :=
  forall x y, step T x y -> fst x = l_B \/ fst x = l_M -> snd x = snd y.

Lemma shipped_fine num (NI : NumInf num) v : values_ok NI v ->
  tables_ok NI (shipped num v) /\ bmes (shipped num v) /\ one_tag (shipped num v).
Proof.
  intros (A & B & C). split; [apply shipped_ok; auto|]. split; [apply shipped_bmes|].
  intros x y. apply shipped_same_tag.
Qed.

(** ** C33: the words of a tagged text make up the text, none is empty *)
Theorem C33_tagging_lossless :
  forall (num : Num) (NI : NumInf num) (T : ptables num) (ord : orders) (HMM : bool)
         (tab : sdict str) (fr : freqs) (total : Z) (s : str),
    tables_ok NI T -> bmes T -> one_tag T -> fair_order ord ->
    sane (sget fr) total -> i_lim NI (2 * length s) ->
    exists ws, ps_cut T ord HMM tab fr total s = gof ws /\
      concat (map fst ws) = s /\ Forall (fun wt => fst wt <> []) ws.
Proof.
  intros num NI T ord HMM tab fr total s OK BM ST FO SA LIM.
  destruct (ps_cut_lossless num NI T OK BM ST ord FO HMM tab fr total s SA) as (ws & E & C & N); auto.
  exists ws. split; auto. split; auto. rewrite Forall_map in N. exact N.
Qed.

(** with the tables that come with jieba, whatever the (finite) numbers in them *)
Theorem C33_shipped_tables :
  forall (num : Num) (NI : NumInf num) (v : pvalues num) (ord : orders) (HMM : bool)
         (tab : sdict str) (fr : freqs) (total : Z) (s : str),
    values_ok NI v -> fair_order ord -> sane (sget fr) total -> i_lim NI (2 * length s) ->
    exists ws, ps_cut (shipped num v) ord HMM tab fr total s = gof ws /\
      concat (map fst ws) = s /\ Forall (fun wt => fst wt <> []) ws.
Proof.
  intros num NI v ord HMM tab fr total s V FO SA LIM. destruct (shipped_fine _ _ _ V) as (A & B & C).
  apply (C33_tagging_lossless num NI); auto.
Qed.

(** in binary64, for texts of at most 2^49 characters and tables with numbers of
    size at most 2^340 *)
Theorem C33_binary64 :
  forall (lg : Z -> b64) (v : pvalues (numB lg)) (ord : orders) (HMM : bool)
         (tab : sdict str) (fr : freqs) (total : Z) (s : str),
    values_ok (infB lg) v -> fair_order ord -> sane (sget fr) total -> (Z.of_nat (length s) <= 2 ^ 49)%Z ->
    exists ws, ps_cut (shipped (numB lg) v) ord HMM tab fr total s = gof ws /\
      concat (map fst ws) = s /\ Forall (fun wt => fst wt <> []) ws.
Proof.
  intros lg v ord HMM tab fr total s V FO SA LIM. apply (C33_shipped_tables _ (infB lg)); auto.
  cbn [i_lim infB]. unfold blim. lia.
Qed.

(** after any history of calls *)
Theorem C33_after_any_history :
  forall (num : Num) (NI : NumInf num) (S : NumSign num) (H : hmm num) (v : pvalues num) (ord : orders)
         (w : pworld) (os : list pop) (i : nat) (HMM : bool) (s : str),
    values_ok NI v -> fair_order ord ->
    healthy (d_freq (pw_d w)) (d_total (pw_d w)) -> Forall pop_nonneg os ->
    i < length (pw_tabs w) -> i_lim NI (2 * length s) ->
    exists ws,
      snd (do_pop num H (shipped num v) ord (do_pops num H (shipped num v) ord w os) (PCut i HMM s)) = PWords (gof ws) /\
      concat (map fst ws) = s /\ Forall (fun wt => fst wt <> []) ws.
Proof.
  intros num NI S H v ord w os i HMM s V FO HE FA L LIM.
  rewrite pop_cut by (rewrite pops_length; auto).
  destruct (C33_shipped_tables num NI v ord HMM
             (nth i (pw_tabs (makesure_userdict_loaded (do_pops num H (shipped num v) ord w os) i)) [])
             (d_freq (pw_d (do_pops num H (shipped num v) ord w os)))
             (d_total (pw_d (do_pops num H (shipped num v) ord w os))) s) as (ws & E & C); auto.
  - apply healthy_sane. apply pops_healthy; auto.
  - exists ws. rewrite E. auto.
Qed.

Definition s_n : str := [110]%N.          (* n *)
Definition s_ns : str := [110; 115]%N.    (* ns *)
Definition demo_tab : sdict str :=
  [([c_bei; c_jing], s_ns); ([c_lai; c_dao], [118]%N); ([c_da; c_xue], s_n)].

(** 来到北京京生生，a1.5 : the group 京生生 is tagged by the HMM *)
Definition pos_text : str :=
  [c_lai; c_dao; c_bei; c_jing; c_jing; c_sheng; c_sheng; c_comma; 97; 49; 46; 53; 32]%N.
Example C33_nonvacuous :
  values_ok infQ demo_v /\ fair_order demo_ord /\ sane (sget demo_fr) demo_total /\
  i_lim infQ (2 * length pos_text) /\
  ps_cut demo_T demo_ord true demo_tab demo_fr demo_total pos_text =
    gof [([c_lai; c_dao], [118]); ([c_bei; c_jing], s_ns); ([c_jing; c_sheng; c_sheng], [110; 122]);
         ([c_comma], [120]); ([97; 49], [101; 110; 103]); ([46; 53], [109]); ([32], [120])]%N.
Proof.
  split; [exact demo_v_ok|]. split; [exact demo_fair|]. split; [apply saneb_ok; vm_compute; reflexivity|].
  split; [exact I|]. vm_compute. reflexivity.
Qed.

(** ** C34: without HMM, the words are those of [cut] *)
Theorem C34_same_words :
  forall (num : Num) (H : hmm num) (T : ptables num) (ord : orders) (tab : sdict str)
         (fr : freqs) (total : Z) (force : list str) (s : str),
    ~ In 37%N s -> ~ In 45%N s ->
    words_of (ps_cut T ord false tab fr total s) = cut num H (mode_of false false) fr total force s.
Proof.
  intros num H T ord tab fr total force s A B. apply ps_cut_nohmm_cut.
  intros c I. split; intros ->; auto.
Qed.

(** the tagger does not take "-" and "%" to be parts of words: "a-b" *)
Theorem C34_refuted :
  exists (d : dstate) (s : str),
    sane (sget (d_freq d)) (d_total d) /\
    cut numE (mkHmm numE (fun _ => None) (fun _ _ => None) (fun _ _ => None)) (mode_of false false) (d_freq d) (d_total d) [] s = gof [s] /\
    words_of (ps_cut demo_T demo_ord false [] (d_freq d) (d_total d) s) = gof [[97]; [45]; [98]]%N.
Proof.
  exists (build [([97; 45; 98]%N, 10%Z)]), [97; 45; 98]%N.
  split; [apply saneb_ok|split]; vm_compute; reflexivity.
Qed.

Example C34_nonvacuous :
  ~ In 37%N demo_text /\ ~ In 45%N demo_text /\
  words_of (ps_cut demo_T demo_ord false demo_tab demo_fr demo_total demo_text) =
  gof [[c_lai; c_dao]; [c_bei; c_jing]; [c_da; c_xue; c_sheng]; [c_comma]; [97; 98; 99]; [32]; [49; 50]; [13; 10]]%N.
Proof.
  split; [|split]; [vm_compute; intuition discriminate|vm_compute; intuition discriminate|vm_compute; reflexivity].
Qed.

(** ** C35: where the tags come from, without HMM *)

(** for a given table *)
Theorem C35_tags_without_hmm :
  forall (num : Num) (O : NumOrder num) (T : ptables num) (ord : orders) (tab : sdict str)
         (fr : freqs) (total : Z) (s : str),
    sane (sget fr) total -> prefix_closed (sget fr) ->
    exists (choice : str -> list str) (out : str -> list tagged),
      ps_cut T ord false tab fr total s =
        gof (flat_map (fun br : bool * str => if fst br then out (snd br)
                                 else map (fun w => (w, [120%N])) (chars_crlf (snd br)))
                      (runs pos_word_char s)) /\
      forall r, In (true, r) (runs pos_word_char s) ->
        best_for num O (sget fr) total r (choice r) /\
        tag_merged (fun w => tag_or_x (sget tab w)) (choice r) (out r).
Proof.
  intros num O T ord tab fr total s SA PC.
  exists (chosen num fr total), (fun r => fst (ps_nohmm_block num tab fr total r)). split.
  - rewrite ps_cut_runs. apply gdone_gfor. intros [b r] HI. cbn [fst snd]. destruct b; auto.
    destruct (nohmm_block_ok num tab fr total r SA) as [out [E _]].
    + apply (run_no_newline s (true, r)); auto.
    + rewrite E. reflexivity.
  - intros r HI. split.
    + split; [apply chosen_candidate; auto|]. intros ws' C. apply chosen_best; auto.
    + destruct (nohmm_block_ok num tab fr total r SA) as [out [E [G _]]].
      * apply (run_no_newline s (true, r)); auto.
      * rewrite E. exact G.
Qed.

Lemma tag_merged_ext t1 t2 ws out : (forall w, t1 w = t2 w) -> tag_merged t1 ws out -> tag_merged t2 ws out.
Proof.
  intros E. induction 1; [constructor|rewrite E; constructor; auto|constructor; auto].
Qed.

(** With one tagger: the table is read from the lines of the dictionary file; then any
    calls are made; the tag of a word is the last one given for it by a line of the
    file or a call. *)
Theorem C35_last_tag_wins :
  forall (num : Num) (O : NumOrder num) (S : NumSign num) (H : hmm num) (T : ptables num) (ord : orders)
         (lines : list bytes) (entries : list (str * str)) (d : dstate) (os : list pop) (s : str),
    Forall2 (fun line e => tag_entry line (fst e) (snd e)) lines entries ->
    healthy (d_freq d) (d_total d) -> d_tags d = [] ->
    Forall pop_nonneg os ->
    (forall same ls, ~ In (PInit 0 same ls) os) ->
    let w0 := mkPW d [fst (load_word_tag lines [])] in
    let w := do_pops num H T ord w0 os in
    let tag k := tag_or_x (last_for k (entries ++ history_tags num H T ord w0 os)) in
    exists (choice : str -> list str) (out : str -> list tagged),
      snd (do_pop num H T ord w (PCut 0 false s)) =
        PWords (gof (flat_map (fun br : bool * str => if fst br then out (snd br)
                                 else map (fun w => (w, [120%N])) (chars_crlf (snd br)))
                      (runs pos_word_char s))) /\
      forall r, In (true, r) (runs pos_word_char s) ->
        best_for num O (sget (d_freq (pw_d w))) (d_total (pw_d w)) r (choice r) /\
        tag_merged tag (choice r) (out r).
Proof.
  intros num O S H T ord lines entries d os s FE HE DT NN NI w0 w tag.
  assert (HW : healthy (d_freq (pw_d w)) (d_total (pw_d w))) by (apply pops_healthy; auto).
  assert (LW : length (pw_tabs w) = 1) by (unfold w; rewrite pops_length; auto).
  assert (ND : NoDup (map fst (d_tags (pw_d w0)))) by (simpl; rewrite DT; constructor).
  rewrite pop_cut by lia.
  destruct (C35_tags_without_hmm num O T ord (nth 0 (pw_tabs (makesure_userdict_loaded w 0)) [])
              (d_freq (pw_d w)) (d_total (pw_d w)) s) as (choice & out & E & G).
  { apply healthy_sane; auto. }
  { apply HW. }
  exists choice, out. split; [rewrite E; reflexivity|]. intros r HI. destruct (G r HI) as [B M].
  split; auto. eapply tag_merged_ext; [|exact M]. intros k. cbv beta. unfold tag. f_equal.
  rewrite makesure_mine; [|lia|apply pops_nodup; auto]. unfold eff.
  destruct (load_entries lines entries [] FE) as (tab & EL & ET).
  destruct (taken_ok num H T ord 0 k os w0 [] [] (sget tab k)) as [R1 R2]; auto.
  { simpl. rewrite DT. reflexivity. }
  { simpl. rewrite EL. reflexivity. }
  fold w in R1, R2. rewrite R1, R2.
  assert (TA := taken_all num H T ord 0 os).
  (* cuts of other taggers do nothing: there are none *)
  assert (TB : forall w1 waiting mine, length (pw_tabs w1) = 1 ->
            let r := taken num H T ord 0 w1 os waiting mine in
            fst r ++ snd r = (mine ++ waiting) ++ history_tags num H T ord w1 os).
  { clear. induction os as [|o os IH]; intros w1 waiting mine L; cbn zeta; cbn [taken history_tags].
    - simpl. rewrite app_nil_r. reflexivity.
    - pose proof (pop_length num H T ord w1 o) as PL. rewrite L in PL.
      destruct o as [o|j h x|j same ls].
      + rewrite IH by auto. rewrite !app_assoc. reflexivity.
      + rewrite L. destruct (j <? 1)%nat eqn:EJ.
        * apply Nat.ltb_lt in EJ. replace j with 0 in * by lia. rewrite Nat.eqb_refl.
          rewrite IH by auto. rewrite app_nil_r. reflexivity.
        * rewrite IH by auto. reflexivity.
      + rewrite IH by auto. reflexivity. }
  specialize (TB w0 [] [] eq_refl). cbn zeta in TB. simpl app in TB.
  rewrite <- TB, last_for_app, last_for_app. unfold over. rewrite ET. unfold over. simpl sget.
  destruct (last_for k (snd _)); auto. destruct (last_for k (fst _)); auto.
  destruct (last_for k entries); auto.
Qed.

(** The file has the line "北京 30 ns"; the word is then given the tag "n", tagged, and
    given the tag "nr" by a line of a user dictionary whose next line is refused. *)
Definition bj_tagged : bytes := [0xE5; 0x8C; 0x97; 0xE4; 0xBA; 0xAC; 32; 51; 48; 32; 110; 115; 10]%N.
Definition bj_history : list pop :=
  [PTok (OpAddWord [c_bei; c_jing] None (Some s_n)); PCut 0 true [c_bei]; PCut 3 true [c_bei];
   PTok (OpUserdict [UText [c_bei; c_jing; 32; 110; 114]%N; UBytes [0xFF]%N; UText [c_bei; 32; 110; 114]%N])].
Definition bj_d : dstate := mkD demo_fr demo_total [] [].
Definition bj_w0 : pworld := mkPW bj_d [fst (load_word_tag [bj_tagged] [])].
Definition no_hmm : hmm numE := mkHmm numE (fun _ => None) (fun _ _ => None) (fun _ _ => None).
Example C35_nonvacuous :
  Forall2 (fun line e => tag_entry line (fst e) (snd e)) [bj_tagged] [([c_bei; c_jing], s_ns)] /\
  healthy (d_freq bj_d) (d_total bj_d) /\ Forall pop_nonneg bj_history /\
  (forall same ls, ~ In (PInit 0 same ls) bj_history) /\
  history_tags numE no_hmm demo_T demo_ord bj_w0 bj_history =
    [([c_bei; c_jing], s_n); ([c_bei; c_jing], [110; 114]%N)] /\
  snd (do_pop numE no_hmm demo_T demo_ord bj_w0 (PCut 0 false [c_bei; c_jing; c_da; 49; 97]%N)) =
    PWords (gof [([c_bei; c_jing], s_ns); ([c_da], [120]); ([49; 97], [101; 110; 103])]%N) /\
  snd (do_pop numE no_hmm demo_T demo_ord (do_pops numE no_hmm demo_T demo_ord bj_w0 bj_history)
              (PCut 0 false [c_bei; c_jing; c_da; 49; 97]%N)) =
    PWords (gof [([c_bei; c_jing], [110; 114]); ([c_da], [120]); ([49; 97], [101; 110; 103])]%N).
Proof.
  split.
  { constructor; [|constructor]. exists [51; 48]%N, (firstn 12 bj_tagged), [10]%N. simpl.
    split; [discriminate|]. split; [intuition discriminate|]. split; [reflexivity|].
    split; [intuition discriminate|]. split; [intuition discriminate|].
    split; [exists [110]%N, 115%N; split; reflexivity|]. split; [reflexivity|].
    split; [repeat constructor|reflexivity]. }
  split; [exact demo_healthy|]. split; [repeat constructor|].
  split; [intros same ls I; simpl in I; intuition discriminate|].
  split; [|split]; vm_compute; reflexivity.
Qed.

(** ** C36: several taggers over one tokenizer *)

(** A tag waits until some tagger cuts and then belongs to that tagger only: this is
    what [taken] says.  The table of tagger [i] after any calls, other than its own
    [initialize]: *)
Theorem C36_tags_belong_to_the_next_cut :
  forall (num : Num) (H : hmm num) (T : ptables num) (ord : orders) (w : pworld) (os : list pop) (i : nat) (k : str),
    i < length (pw_tabs w) -> d_tags (pw_d w) = [] -> (forall same ls, ~ In (PInit i same ls) os) ->
    sget (nth i (pw_tabs (do_pops num H T ord w os)) []) k =
    match last_for k (fst (taken num H T ord i w os [] [])) with
    | Some t => Some t
    | None => sget (nth i (pw_tabs w) []) k
    end.
Proof.
  intros num H T ord w os i k L DT NI.
  destruct (taken_ok num H T ord i k os w [] [] (sget (nth i (pw_tabs w) []) k)) as [R _]; auto.
  - rewrite DT. constructor.
  - rewrite DT. reflexivity.
Qed.

(** so a tag that [add_word] was given is not honoured by a second tagger *)
Theorem C36_second_tagger_refuted :
  exists (w : pworld) (word tag : str),
    let w' := do_pops numE no_hmm demo_T demo_ord w [PTok (OpAddWord word None (Some tag)); PCut 0 true []] in
    snd (do_pop numE no_hmm demo_T demo_ord w' (PCut 0 false word)) = PWords (gof [(word, tag)]) /\
    snd (do_pop numE no_hmm demo_T demo_ord w' (PCut 1 false word)) = PWords (gof [(word, [120]%N)]).
Proof.
  exists (mkPW bj_d [[]; []]), [c_jing; c_sheng], s_n. split; vm_compute; reflexivity.
Qed.

(** [initialize] replaces the table by what the file says, whatever the history; tags
    that are still waiting are kept *)
Theorem C36_initialize_forgets :
  forall (num : Num) (H : hmm num) (T : ptables num) (ord : orders) (w : pworld) (i : nat) (same : bool)
         (lines : list bytes) (entries : list (str * str)),
    i < length (pw_tabs w) ->
    Forall2 (fun line e => tag_entry line (fst e) (snd e)) lines entries ->
    let w' := fst (do_pop num H T ord w (PInit i same lines)) in
    snd (do_pop num H T ord w (PInit i same lines)) = PUnit ->
    (forall k, sget (nth i (pw_tabs w') []) k = last_for k entries) /\
    d_tags (pw_d w') = d_tags (pw_d w).
Proof.
  intros num H T ord w i same lines entries L FE w' E. subst w'.
  destruct (load_entries lines entries [] FE) as (tab & EL & ET).
  revert E. cbn [do_pop]. destruct (if same then _ else _) as [[fr total]|e]; [|discriminate].
  rewrite EL. cbn [fst snd pw_tabs pw_d d_tags]. intros _. split; auto.
  intros k. rewrite set_nth_same by auto. rewrite ET. unfold over. simpl. destruct (last_for k entries); auto.
Qed.

(** so after [initialize()] an earlier user tag is not honoured any more *)
Theorem C36_initialize_refuted :
  exists (lines : list bytes) (word tag : str),
    let w := mkPW bj_d [fst (load_word_tag lines [])] in
    let w1 := do_pops numE no_hmm demo_T demo_ord w [PTok (OpAddWord word None (Some tag)); PCut 0 true []] in
    let w2 := fst (do_pop numE no_hmm demo_T demo_ord w1 (PInit 0 true lines)) in
    snd (do_pop numE no_hmm demo_T demo_ord w1 (PCut 0 false word)) = PWords (gof [(word, tag)]) /\
    snd (do_pop numE no_hmm demo_T demo_ord w1 (PInit 0 true lines)) = PUnit /\
    snd (do_pop numE no_hmm demo_T demo_ord w2 (PCut 0 false word)) = PWords (gof [(word, s_ns)]).
Proof. exists [bj_tagged], [c_bei; c_jing], s_n. split; [|split]; vm_compute; reflexivity. Qed.

(** tagger 1 cuts between two tags *)
Example C36_nonvacuous :
  let os := [PTok (OpAddWord [c_bei; c_jing] None (Some s_n)); PCut 1 true [];
             PTok (OpAddWord [c_da; c_xue] None (Some s_n)); PCut 0 true [];
             PTok (OpAddWord [c_da; c_xue] None (Some s_ns))] in
  let w := mkPW bj_d [[]; []] in
  taken numE no_hmm demo_T demo_ord 0 w os [] [] = ([([c_da; c_xue], s_n)], [([c_da; c_xue], s_ns)]) /\
  taken numE no_hmm demo_T demo_ord 1 w os [] [] = ([([c_bei; c_jing], s_n)], [([c_da; c_xue], s_ns)]).
Proof. split; vm_compute; reflexivity. Qed.

(** ** C37, C60: the tagger's Viterbi search *)
Theorem C37_viterbi_never_fails :
  forall (num : Num) (NI : NumInf num) (v : pvalues num) (ord : orders) (obs : str),
    values_ok NI v -> fair_order ord -> obs <> [] -> i_lim NI (2 * length obs) ->
    exists p route, pviterbi (shipped num v) ord obs = Ok (p, route) /\
      length route = length obs /\
      forall i x y, nth_error route i = Some x -> nth_error route (S i) = Some y -> step (shipped num v) x y.
Proof.
  intros num NI v ord obs V FO NE LIM. destruct (shipped_fine _ _ _ V) as (A & B & C).
  destruct (pviterbi_ok A FO NE LIM) as (p & route & E & (CL & CS & _) & _). exists p, route. split; auto. split; auto.
  clear -CS. induction route as [|a route IH]; intros [|i] x y E1 E2; try discriminate.
  - destruct route as [|b route]; [discriminate|]. simpl in E1, E2. injection E1 as <-. injection E2 as <-. apply CS.
  - simpl in E1. destruct CS as [_ CS]. eapply IH; eauto.
Qed.

(** the same with any tables that satisfy [tables_ok]; the route has the best score of
    all taggings the search considers *)
Theorem C60_viterbi_optimal :
  forall (num : Num) (NI : NumInf num) (T : ptables num) (ord : orders) (obs : str),
    tables_ok NI T -> fair_order ord -> obs <> [] -> i_lim NI (2 * length obs) ->
    exists p route, pviterbi T ord obs = Ok (p, route) /\
      considered T obs route /\ tag_score T obs route = p /\
      forall ys, considered T obs ys -> f_lt num (tag_score T obs route) (tag_score T obs ys) = false.
Proof.
  intros num NI T ord obs OK FO NE LIM. destruct (pviterbi_ok OK FO NE LIM) as (p & route & E & A & B & C).
  exists p, route. repeat (split; auto). rewrite B. exact C.
Qed.

(** in binary64, with the shipped tables *)
Theorem C37_C60_binary64 :
  forall (lg : Z -> b64) (v : pvalues (numB lg)) (ord : orders) (obs : str),
    values_ok (infB lg) v -> fair_order ord -> obs <> [] -> (Z.of_nat (length obs) <= 2 ^ 49)%Z ->
    exists p route, pviterbi (shipped (numB lg) v) ord obs = Ok (p, route) /\
      considered (shipped (numB lg) v) obs route /\ tag_score (shipped (numB lg) v) obs route = p /\
      forall ys, considered (shipped (numB lg) v) obs ys ->
        f_lt (numB lg) (tag_score (shipped (numB lg) v) obs route) (tag_score (shipped (numB lg) v) obs ys) = false.
Proof.
  intros lg v ord obs V FO NE LIM. destruct (shipped_fine _ _ _ V) as (A & B & C).
  apply (C60_viterbi_optimal _ (infB lg)); auto. cbn [i_lim infB]. unfold blim. lia.
Qed.

Example C37_nonvacuous :
  values_ok infQ demo_v /\ fair_order demo_ord /\
  exists p, pviterbi demo_T demo_ord [c_jing; c_sheng; c_sheng] =
    Ok (p, [(l_B, [110; 122]); (l_M, [110; 122]); (l_M, [110; 122])]%N).
Proof.
  split; [exact demo_v_ok|]. split; [exact demo_fair|]. eexists. vm_compute. reflexivity.
Qed.

(** ** C59: Python iterates over sets in an order that changes from run to run; the
    tagged words do not depend on it *)
Theorem C59_independent_of_set_order :
  forall (num : Num) (NI : NumInf num) (T : ptables num) (ord1 ord2 : orders) (HMM : bool)
         (tab : sdict str) (fr : freqs) (total : Z) (s : str),
    tables_ok NI T -> fair_order ord1 -> fair_order ord2 -> i_lim NI (2 * length s) ->
    ps_cut T ord1 HMM tab fr total s = ps_cut T ord2 HMM tab fr total s.
Proof. intros. eapply ps_cut_order; eauto. Qed.

Theorem C59_shipped_binary64 :
  forall (lg : Z -> b64) (v : pvalues (numB lg)) (ord1 ord2 : orders) (HMM : bool)
         (tab : sdict str) (fr : freqs) (total : Z) (s : str),
    values_ok (infB lg) v -> fair_order ord1 -> fair_order ord2 -> (Z.of_nat (length s) <= 2 ^ 49)%Z ->
    ps_cut (shipped (numB lg) v) ord1 HMM tab fr total s = ps_cut (shipped (numB lg) v) ord2 HMM tab fr total s.
Proof.
  intros lg v ord1 ord2 HMM tab fr total s V F1 F2 LIM. destruct (shipped_fine _ _ _ V) as (A & B & C).
  apply (C59_independent_of_set_order _ (infB lg)); auto. cbn [i_lim infB]. unfold blim. lia.
Qed.

(** two orders that visit the states differently *)
Example C59_nonvacuous :
  fair_order demo_ord /\ fair_order back_ord /\
  (exists obs t l, NoDup l /\ demo_ord obs t l <> back_ord obs t l) /\
  ps_cut demo_T back_ord true demo_tab demo_fr demo_total pos_text =
  ps_cut demo_T demo_ord true demo_tab demo_fr demo_total pos_text.
Proof.
  split; [exact demo_fair|]. split; [exact back_fair|]. split.
  - exists [], 0, [(l_B, s_n); (l_S, s_n)]. split; [|discriminate].
    repeat constructor; simpl; intuition discriminate.
  - apply (C59_independent_of_set_order _ infQ); [apply (shipped_fine numE infQ demo_v demo_v_ok)|exact back_fair|exact demo_fair|exact I].
Qed.

(** ** C62: tags with HMM

    The text is divided as without HMM; words of several characters have the tag of
    the table; so have single characters alone or whose group is a dictionary word;
    the other groups of single characters are divided into Han runs, tagged by the
    HMM, and the rest. *)
Theorem C62_tags_with_hmm :
  forall (num : Num) (O : NumOrder num) (NI : NumInf num) (T : ptables num) (ord : orders) (tab : sdict str)
         (fr : freqs) (total : Z) (s : str),
    tables_ok NI T -> bmes T -> one_tag T -> fair_order ord ->
    sane (sget fr) total -> prefix_closed (sget fr) -> i_lim NI (2 * length s) ->
    exists (choice : str -> list str) (out : str -> list tagged),
      ps_cut T ord true tab fr total s =
        gof (flat_map (fun br : bool * str => if fst br then out (snd br)
                                 else map (fun w => (w, [120%N])) (chars_crlf (snd br)))
                      (runs pos_word_char s)) /\
      forall r, In (true, r) (runs pos_word_char s) ->
        best_for num O (sget fr) total r (choice r) /\
        tag_grouped (fun x ps => stage_tags (hmm_finds T) (runs han_char x) ps)
                    (sget fr) (fun w => tag_or_x (sget tab w)) (choice r) (out r).
Proof.
  intros num O NI T ord tab fr total s OK BM ST FO SA PC LIM.
  destruct (ps_cut_text num NI T OK BM ST ord FO true tab fr total s SA (fun _ => LIM)) as [out [E G]].
  exists (chosen num fr total), out. split; [exact E|]. intros r HI. split.
  - split; [apply chosen_candidate; auto|]. intros ws' C. apply chosen_best; auto.
  - apply G. exact HI.
Qed.

(** the example of C33 has all cases; its hypotheses for C62 *)
Example C62_nonvacuous :
  tables_ok infQ demo_T /\ bmes demo_T /\ one_tag demo_T /\ prefix_closed (sget demo_fr) /\
  runs pos_word_char pos_text =
    [(true, [c_lai; c_dao; c_bei; c_jing; c_jing; c_sheng; c_sheng]); (false, [c_comma]);
     (true, [97; 49; 46; 53]); (false, [32])]%N.
Proof.
  destruct (shipped_fine numE infQ demo_v demo_v_ok) as (A & B & C).
  split; [exact A|]. split; [exact B|]. split; [exact C|]. split; [exact demo_prefix_closed|reflexivity].
Qed.

(** ** C63: dictionary files for the tagger *)

(** lines [word freq tag]: the table has the tag of the word's last line *)
Theorem C63_tags_of_a_file :
  forall (lines : list bytes) (entries : list (str * str)),
    Forall2 (fun line e => tag_entry line (fst e) (snd e)) lines entries ->
    exists tab, load_word_tag lines [] = (tab, None) /\ forall k, sget tab k = last_for k entries.
Proof.
  intros lines entries F. destruct (load_entries lines entries [] F) as (tab & E & G). exists tab. split; auto.
  intros k. rewrite G. unfold over. simpl. destruct (last_for k entries); auto.
Qed.

(** a line [word freq], which the tokenizer reads, stops the tagger with ValueError *)
Theorem C63_untagged_line_refused :
  forall (lines more : list bytes) (entries : list (str * str)) (line : bytes) (w : str) (f : Z),
    Forall2 (fun line e => tag_entry line (fst e) (snd e)) lines entries ->
    untagged_entry line w f ->
    parse_dict_line line = Some (w, f) /\
    snd (load_word_tag (lines ++ line :: more) []) = Some ValueError.
Proof.
  intros lines more entries line w f F U. destruct (untagged_entry_line _ _ _ U) as [D N].
  split; [apply dict_line_parse; exact D|].
  generalize (@nil (str * str)) as tab. induction F as [|l [k t] ls es E F IH]; intros tab; cbn [load_word_tag app].
  - rewrite N. reflexivity.
  - simpl in E. rewrite (tag_entry_line _ _ _ E). apply IH.
Qed.

(** conversely an empty line is skipped by the tagger and refused by the tokenizer *)
Theorem C63_empty_line :
  forall (line : bytes) (more : list bytes) (tab : sdict str) (fr : freqs) (total : Z),
    bytes_strip line = [] ->
    load_word_tag (line :: more) tab = load_word_tag more tab /\
    gen_pfdict_loop (line :: more) fr total = Err ValueError.
Proof.
  intros line more tab fr total E. split.
  - cbn [load_word_tag]. unfold tag_line. rewrite E. reflexivity.
  - cbn [gen_pfdict_loop]. unfold parse_dict_line. rewrite E. reflexivity.
Qed.

Example C63_nonvacuous :
  untagged_entry [0xE5; 0x8C; 0x97; 32; 53; 10]%N [c_bei] 5%Z /\
  load_word_tag [bj_tagged; [13; 10]%N] [] = ([([c_bei; c_jing], s_ns)], None) /\
  load_word_tag [bj_tagged; [0xE5; 0x8C; 0x97; 32; 53; 10]%N; bj_tagged] [] = ([([c_bei; c_jing], s_ns)], Some ValueError).
Proof.
  split; [|split; vm_compute; reflexivity].
  exists [53]%N, [0xE5; 0x8C; 0x97; 32; 53]%N, [10]%N. simpl.
  split; [discriminate|]. split; [intuition discriminate|]. split; [reflexivity|].
  split; [discriminate|]. split; [repeat constructor|]. repeat (split; [reflexivity|]).
  split; [repeat constructor|reflexivity].
Qed.

(** ** C64: tagging is local *)

(** Where a character that is no part of words begins or ends (and CR LF is not torn
    apart), the text can be tagged in two parts. *)
Theorem C64_tagging_is_local :
  forall (num : Num) (T : ptables num) (ord : orders) (HMM : bool) (tab : sdict str)
         (fr : freqs) (total : Z) (u v : str),
    ~ (exists u0 v0, u = u0 ++ [13%N] /\ v = 10%N :: v0) ->
    (exists u0 c, u = u0 ++ [c] /\ pos_word_char c = false) \/
    (exists c v0, v = c :: v0 /\ pos_word_char c = false) ->
    ps_cut T ord HMM tab fr total (u ++ v) =
    gapp (ps_cut T ord HMM tab fr total u) (ps_cut T ord HMM tab fr total v).
Proof. intros. apply ps_cut_local. split; auto. Qed.

Example C64_nonvacuous :
  let u := [c_lai; c_dao; 45]%N in let v := [c_bei; c_jing]%N in
  (exists u0 c, u = u0 ++ [c] /\ pos_word_char c = false) /\
  ps_cut demo_T demo_ord true demo_tab demo_fr demo_total (u ++ v) =
    gof [([c_lai; c_dao], [118]); ([45], [120]); ([c_bei; c_jing], s_ns)]%N.
Proof.
  split; [exists [c_lai; c_dao], 45%N; split; reflexivity|vm_compute; reflexivity].
Qed.

(** ** C55: [posseg.lcut(s, HMM, use_paddle=True)] without paddle *)
Theorem C55_lcut_paddle_ignores_hmm :
  forall (num : Num) (H : hmm num) (T : ptables num) (ord : orders) (w : pworld) (s : str) (HMM : bool),
    mod_lcut num H T ord w s HMM true = mod_lcut num H T ord w s true false.
Proof. reflexivity. Qed.

(** so HMM=False is not honoured: "1.5" *)
Theorem C55_refuted :
  forall (num : Num) (H : hmm num) (T : ptables num) (ord : orders),
    exists (w : pworld) (s : str),
      snd (mod_lcut num H T ord w s false false) <> snd (mod_lcut num H T ord w s false true).
Proof.
  intros num H T ord. exists (mkPW (mkD [] 1 [] []) [[]]), [49; 46; 53]%N. intros E.
  unfold mod_lcut, mod_cut in E. rewrite !pop_cut in E by (simpl; lia).
  vm_compute in E. discriminate.
Qed.

(** ** C15 for the tagger: a deleted word can still come out *)
Theorem C15_tagger_refuted :
  exists (w : str) (d' : dstate),
    2 <= length w /\ Forall (fun c => han_char c = true) w /\
    d' = do_ops numE no_hmm (mkD demo_fr demo_total [] []) [OpDelWord w] /\
    ~ In w (fst (cut numE no_hmm (mode_of false true) (d_freq d') (d_total d') (d_force d') w)) /\
    In w (fst (words_of (ps_cut demo_T demo_ord true [] (d_freq d') (d_total d') w))).
Proof.
  eexists [c_jing; c_sheng; c_sheng], _. split; [simpl; lia|]. split; [repeat constructor|].
  split; [reflexivity|]. split; vm_compute; [intuition discriminate|auto].
Qed.
Print Assumptions C33_tagging_lossless.
Print Assumptions C33_shipped_tables.
Print Assumptions C33_binary64.
Print Assumptions C33_after_any_history.
Print Assumptions C34_same_words.
Print Assumptions C34_refuted.
Print Assumptions C35_tags_without_hmm.
Print Assumptions C35_last_tag_wins.
Print Assumptions C36_tags_belong_to_the_next_cut.
Print Assumptions C36_second_tagger_refuted.
Print Assumptions C36_initialize_forgets.
Print Assumptions C36_initialize_refuted.
Print Assumptions C37_viterbi_never_fails.
Print Assumptions C60_viterbi_optimal.
Print Assumptions C37_C60_binary64.
Print Assumptions C59_independent_of_set_order.
Print Assumptions C59_shipped_binary64.
Print Assumptions C62_tags_with_hmm.
Print Assumptions C63_tags_of_a_file.
Print Assumptions C63_untagged_line_refused.
Print Assumptions C63_empty_line.
Print Assumptions C64_tagging_is_local.
Print Assumptions C55_lcut_paddle_ignores_hmm.
Print Assumptions C55_refuted.
Print Assumptions C15_tagger_refuted.
