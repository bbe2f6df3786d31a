(** * jieba with all the tables it ships: C38, C42, C61, C62, C69, C83, C113, C116

    The theorems about keywords, the command line and the tagger without any condition on
    tables: [tagger lg] are the tables of jieba/posseg, [shipped lg] of ModelTables those
    of jieba/finalseg, in binary64. *)
From Coq Require Import Reals Lra Lia.
From Flocq Require Import Core BinarySingleNaN.
From Verif Require Import PyBase PyRegex PyNum ModelFinalseg ModelSeg ModelDict ModelApi ModelPosseg ModelPosParallel ModelPosTimed
  ModelAnalyse ModelInit ModelCLI SpecBase SpecSeg SpecNum SpecScore SpecDict SpecApi SpecHealth SpecPosseg SpecTagging SpecCli SpecAnalyse
  InstQ InstB64 InstB64Ext InstSign B64Lit DataPosseg DataPossegOk ModelPosTables ModelPosEmit
  ProofsBase ProofsDict ProofsPosseg ProofsPosTables ProofsB64Lit ProofsPosEmit ProofsPosLocal ProofsHealth
  SpecUnknown ProofsUnknown ProofsAbsorb ProofsPosMissing ProofsSuggest PropsCut
  PropsPosseg PropsPosParallel PropsPosTimed PropsCli PropsAnalyse PropsMixed PropsHmmJoin PropsPosTables PropsTagger Demo.
From Verif Require ModelTables.

(** the numbers of jieba/posseg *)
Definition tagger_values (lg : Z -> b64) : pvalues (numB lg) :=
  mkPv (numB lg)
    (fun y => match pos_start_num y with Some me => b64_of me | None => b64_min_float end)
    (fun x y => b64_of (pos_trans_num x y))
    emissions.
Lemma tagger_shipped lg : tagger lg = shipped (numB lg) (tagger_values lg).
Proof. reflexivity. Qed.
Lemma tagger_values_ok lg : values_ok (infB lg) (tagger_values lg).
Proof.
  split; [|split]; cbn [v_start v_trans v_emit tagger_values].
  - intros y. pose proof (pos_start_small y) as SM. destruct (pos_start_num y); [apply small_bfin; exact SM|apply bfin_min].
  - intros x y. apply small_bfin, pos_trans_small.
  - intros y c x E. apply small_bfin, (emissions_small y c x E).
Qed.
Lemma limB lg n : (Z.of_nat n <= 2 ^ 49)%Z -> i_lim (infB lg) (2 * n).
Proof. intros L. cbn [i_lim infB]. unfold blim. lia. Qed.

(** ** Keywords, after any calls that change the dictionary or the tags *)
Theorem C38_shipped :
  forall (lg : Z -> b64) (LO : log_ok lg) (lower : str -> str)
         (ord : orders) (w0 : pworld) (os : list pop) (x : tfidf (numB lg)) (s : str) (k : option Z)
         (allow : list str) (withFlag : bool),
    let H := ModelTables.shipped lg in
    let T := tagger lg in
    let w := do_pops (numB lg) H T ord w0 os in
    fair_order ord -> healthy (d_freq (pw_d w0)) (d_total (pw_d w0)) -> Forall pop_nonneg os ->
    pw_tabs w0 <> [] -> (Z.of_nat (length s) <= 2 ^ 49)%Z ->
    (forall y, not_nan (idf_of x y : b64)) ->
    exists ts occ c all r,
      words_for (numB lg) H T ord w allow s ts /\
      counted lower (tf_stop x) allow withFlag ts occ /\
      first_occurrences occ c /\
      best_first (fun jy => bval (snd jy : b64)) (map (fun j => (j, tfidf_weight x occ j)) c) all /\
      top_part k all r /\
      snd (extract_tags lower H T ord w x s k true allow withFlag) = Ok (Items (numB lg) r) /\
      snd (extract_tags lower H T ord w x s k false allow withFlag) = Ok (Keys (numB lg) (map fst r)).
Proof.
  intros lg LO lower ord w0 os x s k allow wf H T w FO HE FA NE LIM NN. unfold w, T. rewrite tagger_shipped.
  apply C38_binary64; auto.
  - apply tagger_values_ok.
  - apply healthy_sane. apply pops_healthy; auto. apply signB.
  - intros E. apply NE. apply length_zero_iff_nil. rewrite <- (pops_length (numB lg) H (shipped (numB lg) (tagger_values lg)) ord os w0), E. reflexivity.
Qed.

Theorem C42_shipped :
  forall (lg : Z -> b64) (LO : log_ok lg) (lower : str -> str)
         (ord : orders) (w0 : pworld) (os : list pop) (x : textrank) (s : str) (k : Z) (allow : list str) (withFlag : bool),
    let H := ModelTables.shipped lg in
    let T := tagger lg in
    let w := do_pops (numB lg) H T ord w0 os in
    fair_order ord -> healthy (d_freq (pw_d w0)) (d_total (pw_d w0)) -> Forall pop_nonneg os ->
    pw_tabs w0 <> [] -> (Z.of_nat (length s) * Z.of_nat (tr_span x) <= 2 ^ 46)%Z ->
    (Z.of_nat (length s) <= 2 ^ 49)%Z -> (0 < k)%Z ->
    exists words (d r : list (term * b64)),
      snd (do_pop (numB lg) H T ord w (PCut 0 true s)) = PWords (gof words) /\
      textrank_words (numB lg) lower x words allow withFlag = Ok d /\
      snd (textrank_tags lower H T ord w x s (Some k) true allow withFlag) = Ok (Items (numB lg) r) /\
      snd (textrank_tags lower H T ord w x s (Some k) false allow withFlag) = Ok (Keys (numB lg) (map fst r)) /\
      (Z.of_nat (length r) <= k)%Z /\ NoDup (map fst r) /\ (forall a, In a r -> In a d) /\
      (forall a b, SpecAnalyse.before r a b -> (B2R (snd b) <= B2R (snd a))%R) /\
      (forall a b, In a r -> In b d -> ~ In b r -> (B2R (snd b) <= B2R (snd a))%R) /\
      ((Z.of_nat (length r) < k)%Z -> forall a, In a d -> In a r).
Proof.
  intros lg LO lower ord w0 os x s k allow wf H T w FO HE FA NE LIM LIM2 K. unfold w, T. rewrite tagger_shipped.
  apply C42_binary64; auto.
  - apply tagger_values_ok.
  - apply healthy_sane. apply pops_healthy; auto. apply signB.
  - intros E. apply NE. apply length_zero_iff_nil. rewrite <- (pops_length (numB lg) H (shipped (numB lg) (tagger_values lg)) ord os w0), E. reflexivity.
Qed.

(** ** Parallel tagging never raises and gives the words of the text *)
Theorem C61_shipped :
  forall (lg : Z -> b64) (ord : orders) (w : pworld) (HMM : bool) (s : str),
    fair_order ord -> sane (sget (d_freq (pw_d w))) (d_total (pw_d w)) ->
    (Z.of_nat (length s) <= 2 ^ 49)%Z -> (0 < length (pw_tabs w))%nat ->
    exists ws, concat (map fst ws) = s /\
      forall g, ppos_cut (numB lg) (ModelTables.shipped lg) (tagger lg) ord w HMM s g <-> g = gof ws.
Proof.
  intros lg ord w HMM s FO SA L LT. rewrite tagger_shipped.
  apply (C61_parallel_total (numB lg) (infB lg)); auto; [apply tagger_values_ok|now apply limB].
Qed.

(** ** The tags with HMM *)
Theorem C62_shipped :
  forall (lg : Z -> b64) (LO : log_ok lg) (ord : orders) (tab : sdict str) (fr : freqs) (total : Z) (s : str),
    fair_order ord -> sane (sget fr) total -> prefix_closed (sget fr) -> (Z.of_nat (length s) <= 2 ^ 49)%Z ->
    exists (choice : str -> list str) (out : str -> list tagged),
      ps_cut (tagger lg) ord true tab fr total s =
        gof (flat_map (fun br : bool * str => if fst br then out (snd br)
                                 else map (fun w => (w, [120%N])) (chars_crlf (snd br)))
                      (runs pos_word_char s)) /\
      forall r, In (true, r) (runs pos_word_char s) ->
        best_for (numB lg) (orderB lg LO) (sget fr) total r (choice r) /\
        tag_grouped (fun x ps => stage_tags (hmm_finds (tagger lg)) (runs han_char x) ps)
                    (sget fr) (fun w => tag_or_x (sget tab w)) (choice r) (out r).
Proof.
  intros lg LO ord tab fr total s FO SA PC L. destruct (C119_tables lg) as (A & B & C & _).
  apply (C62_tags_with_hmm (numB lg) (orderB lg LO) (infB lg)); auto. now apply limB.
Qed.

(** ** The command line with tags *)
Theorem C69_shipped :
  forall (lg : Z -> b64) (ord : orders) (su : surroundings)
         (a : cli_args) (text : str) (ls : list str) (sep p : str) (d : dstate) (entries : list (str * str)),
    let H := ModelTables.shipped lg in
    let T := tagger lg in
    fair_order ord -> (forall l, In l ls -> (Z.of_nat (length l) <= 2 ^ 49)%Z) ->
    tagged_with a p -> reads su a text -> lines_of text ls -> separator a sep -> loaded (numB lg) H su a d ->
    Forall2 (fun line e => tag_entry line (fst e) (snd e)) (file_lines (su_default su)) entries ->
    sane (sget (d_freq d)) (d_total d) ->
    exists (tab : sdict str) (tss : list (list tagged)),
      (forall k, sget tab k = match sget (d_tags d) k with Some t => Some t | None => last_for k entries end) /\
      Forall2 (fun l ts => ps_cut T ord (c_hmm a) tab (d_freq d) (d_total d) l = gof ts /\
                           concat (map fst ts) = l /\ Forall (fun wt => fst wt <> []) ts) ls tss /\
      cli (numB lg) H T ord su a =
        (printed (map (fun ts => between sep (map (fun wt => fst wt ++ p ++ snd wt) ts)) tss), None).
Proof.
  intros lg ord su a text ls sep p d entries H T FO LIM P R LS SE L TE SA. unfold T. rewrite tagger_shipped.
  eapply (C69_prints_tags (numB lg) (infB lg)); eauto; [apply tagger_values_ok|]. intros l I. apply limB. auto.
Qed.

(** ** A tagging generator consumed while things change *)
Theorem C83_shipped :
  forall (lg : Z -> b64) (ord : orders) (D : nat -> pmoment) (HMM : bool) (s : str),
    fair_order ord -> (Z.of_nat (length s) <= 2 ^ 49)%Z ->
    let g := tp_cut (numB lg) (tagger lg) ord D HMM s 0 in
    let ws := map fst (fst g) in
    ~ In [] ws /\ prefix_of (concat ws) s /\ (snd g = None -> concat ws = s) /\
    ((forall n, pm_check (D n) = None /\ sane (sget (pm_freq (D n))) (pm_total (D n))) -> snd g = None).
Proof.
  intros lg ord D HMM s FO L g ws. destruct (C119_tables lg) as (A & B & C & _). pose proof (limB lg _ L) as LIM.
  destruct (C83_lossless_under_updates (numB lg) (infB lg) (tagger lg) ord D HMM s A B C FO LIM) as (X & Y & Z0).
  split; auto. split; auto. split; auto. intros SA.
  apply (C83_no_exception (numB lg) (infB lg) (tagger lg) ord D HMM s A B C FO LIM SA).
Qed.

(** ** Words of other characters *)
Theorem C113_shipped :
  forall (lg : Z -> b64) (ord : orders) (HMM : bool) (tab : sdict str) (fr : freqs) (total : Z) (s w t : str),
    fair_order ord -> sane (sget fr) total -> (Z.of_nat (length s) <= 2 ^ 49)%Z ->
    In (w, t) (fst (ps_cut (tagger lg) ord HMM tab fr total s)) ->
    Forall (fun c => pos_word_char c = true) w \/ length w = 1%nat \/ w = [13; 10]%N.
Proof.
  intros lg ord HMM tab fr total s w t FO SA L I. rewrite tagger_shipped in I.
  eapply C113_tagger_binary64; eauto. apply tagger_values_ok.
Qed.

(** ** The HMM only joins *)
Theorem C116_shipped :
  forall (lg : Z -> b64) (LO : log_ok lg) (ord : orders) (tab : sdict str) (fr : freqs) (total : Z) (s : str),
    fair_order ord -> sane (sget fr) total -> (Z.of_nat (length s) <= 2 ^ 49)%Z ->
    (exists fine,
      joins_characters fine (map fst (fst (ps_cut (tagger lg) ord false tab fr total s))) /\
      joins_characters fine (map fst (fst (ps_cut (tagger lg) ord true tab fr total s)))) /\
    (Forall (fun c => is_alnum c = false) s ->
      joins_characters (map fst (fst (ps_cut (tagger lg) ord false tab fr total s)))
                       (map fst (fst (ps_cut (tagger lg) ord true tab fr total s)))).
Proof.
  intros lg LO ord tab fr total s FO SA L. destruct (C119_tables lg) as (A & B & C & _).
  apply (C116_tagger (numB lg) (orderB lg LO) (infB lg)); auto. now apply limB.
Qed.

(** the conditions that are left are met by the demonstration dictionary, with a call of
    add_word, a tagger with an empty table, and the order in which lists are written *)
Example shipped_nonvacuous :
  let w := mkPW (mkD demo_fr demo_total [] []) [[]] in
  let os := [PTok (OpAddWord [c_sheng; c_da] (Some 50%Z) (Some [122; 122]%N))] in
  fair_order plain_ord /\ healthy (d_freq (pw_d w)) (d_total (pw_d w)) /\ Forall pop_nonneg os /\
  pw_tabs w <> [] /\ sane (sget demo_fr) demo_total /\ prefix_closed (sget demo_fr).
Proof.
  intros w os. assert (HE : healthy demo_fr demo_total) by (apply healthyb_ok; vm_compute; reflexivity).
  split; [apply plain_fair|]. split; [exact HE|]. split; [repeat constructor; cbn; lia|]. split; [discriminate|].
  split; [now apply healthy_sane|apply HE].
Qed.

Print Assumptions C38_shipped.
Print Assumptions C42_shipped.
Print Assumptions C61_shipped.
Print Assumptions C62_shipped.
Print Assumptions C69_shipped.
Print Assumptions C83_shipped.
Print Assumptions C113_shipped.
Print Assumptions C116_shipped.
