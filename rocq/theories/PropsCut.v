(** * Properties of accurate mode, search mode and tokenize

    Throughout, [cut num H m fr total force s] is the run of [cut(s)] on an
    initialised tokenizer with dictionary [fr], total [total], HMM tables [H] and
    forced splits [force]; [num] is any arithmetic whatsoever unless a
    [NumOrder num] is assumed.  [gof ws] is a run that yields [ws] and ends
    without an exception. *)
From Coq Require Import Reals.
From Verif Require Import PyBase PyRegex PyNum ModelFinalseg ModelSeg ModelDict
  SpecBase SpecSeg SpecHmm SpecNum SpecScore InstR InstQ InstB64
  ProofsBase ProofsRegex ProofsSplit ProofsDag ProofsFinalseg ProofsSeg ProofsOpt ProofsSearch ProofsNoHmm
  Demo ProofsDemo.

(** ** C01, C02: lossless, total, no empty word *)

Theorem C01_accurate_lossless :
  forall (num : Num) (H : hmm num) (HMM : bool) (fr : freqs) (total : Z) (force : list str) (s : str),
    sane (sget fr) total ->
    exists ws, cut num H (mode_of false HMM) fr total force s = gof ws /\ concat ws = s.
Proof.
  intros num H HMM fr total force s SA.
  destruct (@cut_lossless num H (mode_of false HMM) fr total force s) as [ws [E [P _]]]; eauto.
  destruct HMM; reflexivity.
Qed.

Theorem C01_accurate_prefix :
  forall (num : Num) (H : hmm num) (HMM : bool) (fr : freqs) (total : Z) (force : list str) (s : str),
    let g := cut num H (mode_of false HMM) fr total force s in
    prefix_of (concat (fst g)) s /\ (snd g = None -> concat (fst g) = s).
Proof.
  intros num H HMM fr total force s g.
  destruct (@cut_prefix num H (mode_of false HMM) fr total force s) as [u [[P _] [PR N]]].
  - destruct HMM; reflexivity.
  - fold g in P, N. rewrite P. auto.
Qed.

Theorem C02_no_empty_word :
  forall (num : Num) (H : hmm num) (HMM : bool) (fr : freqs) (total : Z) (force : list str) (s : str),
    ~ In [] (fst (cut num H (mode_of false HMM) fr total force s)).
Proof.
  intros num H HMM fr total force s HI.
  destruct (@cut_prefix num H (mode_of false HMM) fr total force s) as [u [[_ P] _]].
  - destruct HMM; reflexivity.
  - rewrite Forall_forall in P. apply (P [] HI). reflexivity.
Qed.

(** in full mode the claim is false: a text of two characters that are not word
    characters, the second one a blank *)
Theorem C02_full_mode_refuted :
  exists s, In [] (fst (cut numQ demo_hmm (mode_of true false) demo_fr demo_total [] s)).
Proof. exists [c_comma; 32%N]. vm_compute. auto. Qed.

(** when the dictionary is not [sane] an exception is possible: an empty
    dictionary makes [log(0)] fail, after the words before the first block *)
Example C01_insane_raises :
  cut numQ demo_hmm (mode_of false false) [] 0 [] [c_comma; c_bei] = ([[c_comma]], Some ValueError).
Proof. vm_compute. reflexivity. Qed.

Example C01_nonvacuous :
  sane (sget demo_fr) demo_total /\
  cut numQ demo_hmm (mode_of false true) demo_fr demo_total [] demo_text =
  gof [[c_lai; c_dao]; [c_bei; c_jing]; [c_da; c_xue; c_sheng]; [c_comma];
       [97; 98; 99]; [32]; [49; 50]; [13; 10]]%N.
Proof. split; [exact demo_sane | vm_compute; reflexivity]. Qed.

(** ** C06: the word graph *)

Theorem C06_word_graph_exact :
  forall (fr : freqs) (s : str),
    prefix_closed (sget fr) ->
    length (get_DAG fr s) = length s /\
    forall k, k < length s ->
      let ends := filter (fun i => wordb (sget fr) (sub s k (i + 1 - k))) (seq k (length s - k)) in
      nth_error (get_DAG fr s) k = Some (match ends with [] => [k] | _ => ends end).
Proof.
  intros fr s PC. split; [apply get_DAG_length|]. intros k L. cbn zeta.
  rewrite get_DAG_nth, dag_at_words, dag_words_exact by auto. reflexivity.
Qed.

(** the same, for one entry: [i] is listed exactly if [s[k:i+1]] is a word *)
Theorem C06_word_graph_members :
  forall (fr : freqs) (s : str) (k i : nat),
    prefix_closed (sget fr) -> k < length s ->
    exists l, nth_error (get_DAG fr s) k = Some l /\
      (In i l <->
        (k <= i < length s /\ is_word (sget fr) (sub s k (i + 1 - k)))
        \/ (i = k /\ no_word_starts (sget fr) (skipn k s))).
Proof.
  intros fr s k i PC L. exists (dag_at fr s k). split; [apply get_DAG_nth; auto|].
  rewrite dag_at_words.
  pose proof (no_words_dag _ PC L) as NW. pose proof (@dag_words_In fr s k i PC L) as DI.
  change (slice s k (i + 1)) with (sub s k (i + 1 - k)) in DI.
  destruct (dag_words fr s k) as [|j l] eqn:E.
  - split.
    + intros [<-|[]]. right. split; auto. apply NW. auto.
    + intros [A|[-> _]]; [|left; auto]. apply DI in A. contradiction.
  - rewrite DI. split; auto. intros [A|[-> A]]; auto. apply NW in A. discriminate.
Qed.

Example C06_nonvacuous :
  prefix_closed (sget demo_fr) /\
  get_DAG demo_fr [c_bei; c_jing; c_da; c_xue; c_sheng] = [[1; 3]; [1]; [3; 4]; [3]; [4]].
Proof. split; [exact demo_prefix_closed | vm_compute; reflexivity]. Qed.

(** ** C07, C54: HMM=False follows a best segmentation and then joins letters and digits *)

(** what [cut(s, HMM=False)] does with one run: [out] comes from the best
    candidate [ws] by joining single letters/digits *)
Definition best_for (num : Num) (O : NumOrder num) (D : dictionary) (total : Z) (r : str)
           (ws : list str) : Prop :=
  candidate D r ws /\
  forall ws', candidate D r ws' ->
    (o_val O (score num D total ws') <= o_val O (score num D total ws))%R.

Theorem C07_C54_best_segmentation :
  forall (num : Num) (O : NumOrder num) (H : hmm num) (fr : freqs) (total : Z) (force : list str) (s : str),
    sane (sget fr) total -> prefix_closed (sget fr) ->
    exists choice : str -> list str, exists out : str -> list str,
      cut num H (mode_of false false) fr total force s =
        gof (flat_map (fun br : bool * str => if fst br then out (snd br) else chars_crlf (snd br))
                      (runs word_char s))
      /\ forall r, best_for num O (sget fr) total r (choice r) /\ merged (choice r) (out r).
Proof.
  intros num O H fr total force s SA PC.
  exists (chosen num fr total), (fun r => merge_eng [] (chosen num fr total r)).
  split; [apply cut_nohmm_text; auto|]. intros r. split; [split|].
  - apply chosen_candidate; auto.
  - intros ws' C. apply chosen_best; auto.
  - apply merge_eng_merged.
Qed.

(** in exact arithmetic: the product of frequency / total is maximal *)
Theorem C07_most_probable :
  forall (H : hmm numR) (fr : freqs) (total : Z) (force : list str) (s : str),
    sane (sget fr) total -> prefix_closed (sget fr) ->
    exists choice : str -> list str, exists out : str -> list str,
      cut numR H (mode_of false false) fr total force s =
        gof (flat_map (fun br : bool * str => if fst br then out (snd br) else chars_crlf (snd br))
                      (runs word_char s))
      /\ forall r, candidate (sget fr) r (choice r) /\ merged (choice r) (out r) /\
           forall ws', candidate (sget fr) r ws' ->
             (prob (sget fr) total ws' <= prob (sget fr) total (choice r))%R.
Proof.
  intros H fr total force s SA PC.
  destruct (C07_C54_best_segmentation numR orderR H fr total force s SA PC) as [ch [out [E B]]].
  exists ch, out. split; auto. intros r. destruct (B r) as [[B1 B2] B3]. split; auto. split; auto.
  intros ws' C. apply B2 in C. destruct SA as [T P].
  rewrite !score_ln_prob in C by auto. simpl in C. apply ln_le_inv in C; auto using prob_pos.
Qed.

(** in binary64 arithmetic: the floating-point score is maximal *)
Theorem C07_best_binary64 :
  forall (lg : Z -> b64) (LO : log_ok lg) (H : hmm (numB lg)) (fr : freqs) (total : Z)
         (force : list str) (s : str),
    sane (sget fr) total -> prefix_closed (sget fr) ->
    exists choice : str -> list str, exists out : str -> list str,
      cut (numB lg) H (mode_of false false) fr total force s =
        gof (flat_map (fun br : bool * str => if fst br then out (snd br) else chars_crlf (snd br))
                      (runs word_char s))
      /\ forall r, candidate (sget fr) r (choice r) /\ merged (choice r) (out r) /\
           forall ws', candidate (sget fr) r ws' ->
             (bval (score (numB lg) (sget fr) total ws')
              <= bval (score (numB lg) (sget fr) total (choice r)))%R.
Proof.
  intros lg LO H fr total force s SA PC.
  destruct (C07_C54_best_segmentation (numB lg) (orderB lg LO) H fr total force s SA PC)
    as [ch [out [E B]]].
  exists ch, out. split; auto. intros r. destruct (B r) as [[B1 B2] B3]. auto.
Qed.

Example C07_nonvacuous :
  sane (sget demo_fr) demo_total /\ prefix_closed (sget demo_fr) /\
  let r := [c_bei; c_jing; c_da; c_xue; c_sheng] in
  candidate (sget demo_fr) r [[c_bei; c_jing]; [c_da; c_xue; c_sheng]] /\
  candidate (sget demo_fr) r [[c_bei; c_jing; c_da; c_xue]; [c_sheng]] /\
  cut numQ demo_hmm (mode_of false false) demo_fr demo_total [] r = gof [[c_bei; c_jing]; [c_da; c_xue; c_sheng]].
Proof.
  split; [exact demo_sane|]. split; [exact demo_prefix_closed|]. cbn zeta.
  assert (W : forall w, wordb (sget demo_fr) w = true -> is_word (sget demo_fr) w)
    by (intros; apply wordb_is_word; auto).
  split; [|split]; [| |vm_compute; reflexivity].
  - exists [c_da; c_xue; c_sheng]. split; auto. split; [discriminate|].
    split; [left; apply W; vm_compute; reflexivity|].
    exists []. split; auto. split; [discriminate|].
    split; [left; apply W; vm_compute; reflexivity|reflexivity].
  - exists [c_sheng]. split; auto. split; [discriminate|].
    split; [left; apply W; vm_compute; reflexivity|].
    exists []. split; auto. split; [discriminate|].
    split; [left; apply W; vm_compute; reflexivity|reflexivity].
Qed.

(** ** C08: ties go to the longest next word *)

Theorem C08_longest_word_on_ties :
  forall (num : Num) (O : NumOrder num) (H : hmm num) (fr : freqs) (total : Z) (force : list str) (s : str),
    sane (sget fr) total -> prefix_closed (sget fr) ->
    exists choice : str -> list str, exists out : str -> list str,
      cut num H (mode_of false false) fr total force s =
        gof (flat_map (fun br : bool * str => if fst br then out (snd br) else chars_crlf (snd br))
                      (runs word_char s))
      /\ forall r, best_for num O (sget fr) total r (choice r) /\ merged (choice r) (out r) /\
           forall before w after w' after',
             choice r = before ++ w :: after ->
             candidate (sget fr) (concat (w :: after)) (w' :: after') ->
             o_val O (score num (sget fr) total (w' :: after'))
               = o_val O (score num (sget fr) total (w :: after)) ->
             length w' <= length w.
Proof.
  intros num O H fr total force s SA PC.
  exists (chosen num fr total), (fun r => merge_eng [] (chosen num fr total r)).
  split; [apply cut_nohmm_text; auto|]. intros r. split; [split|split].
  - apply chosen_candidate; auto.
  - intros ws' C. apply chosen_best; auto.
  - apply merge_eng_merged.
  - intros a w b w' b' E C ES. eapply (chosen_longest (num:=num) O); eauto. rewrite ES. apply Rle_refl.
Qed.

(** a tie: 来 来到 with frequencies such that both segmentations have the same score *)
Example C08_nonvacuous :
  let d := build [([c_lai], 4%Z); ([c_dao], 4%Z); ([c_lai; c_dao], 1%Z); ([c_bei], 7%Z)] in
  f_eq numQ (score numQ (sget (d_freq d)) (d_total d) [[c_lai]; [c_dao]])
            (score numQ (sget (d_freq d)) (d_total d) [[c_lai; c_dao]]) = true /\
  cut numQ demo_hmm (mode_of false false) (d_freq d) (d_total d) [] [c_lai; c_dao] = gof [[c_lai; c_dao]].
Proof. vm_compute. auto. Qed.

(** ** C09: no invented words *)

Theorem C09_only_known_words :
  forall (num : Num) (H : hmm num) (fr : freqs) (total : Z) (force : list str) (s : str) (w : str),
    sane (sget fr) total -> prefix_closed (sget fr) ->
    In w (fst (cut num H (mode_of false false) fr total force s)) ->
    is_word (sget fr) w \/ length w = 1 \/ w = [13; 10]%N \/ Forall (fun c => is_alnum c = true) w.
Proof.
  intros num H fr total force s w SA PC. rewrite cut_nohmm_text by auto. simpl.
  rewrite in_flat_map. intros [[b r] [_ HI]]. simpl in HI. destruct b.
  - pose proof (chosen_candidate num r SA PC) as C. apply candidate_words in C.
    pose proof (merged_words (fun w => is_word (sget fr) w \/ length w = 1 \/ w = [13; 10]%N
      \/ Forall (fun c => is_alnum c = true) w) (merge_eng_merged (chosen num fr total r)) C) as MW.
    cbn beta in MW.
    rewrite Forall_forall in MW. apply MW; auto.
    + intros x [A|A]; auto.
    + intros g NE FA. right. right. right. apply concat_singles_alnum. auto.
  - pose proof (chars_crlf_words r) as C. rewrite Forall_forall in C. destruct (C w HI); auto.
Qed.

(** ** C10: search mode *)

Theorem C10_search_mode :
  forall (num : Num) (H : hmm num) (HMM : bool) (fr : freqs) (total : Z) (force : list str) (s : str),
    let words := cut num H (mode_of false HMM) fr total force s in
    cut_for_search num H HMM fr total force s = (flat_map (expand (sget fr)) (fst words), snd words).
Proof. intros. apply cut_for_search_eq. Qed.

Example C10_nonvacuous :
  cut_for_search numQ demo_hmm true demo_fr demo_total [] [c_da; c_xue; c_sheng; c_bei; c_jing] =
  gof [[c_da; c_xue]; [c_da; c_xue; c_sheng]; [c_bei; c_jing]].
Proof. vm_compute. reflexivity. Qed.

(** ** C11, C12: tokenize *)

Theorem C11_tokenize_tiles :
  forall (num : Num) (H : hmm num) (HMM : bool) (fr : freqs) (total : Z) (force : list str) (s : str),
    sane (sget fr) total ->
    exists toks,
      tokenize num H TDefault HMM fr total force s = gof toks
      /\ tiles 0 (length s) toks
      /\ Forall (located s) toks
      /\ cut num H (mode_of false HMM) fr total force s = gof (map (fun t => fst (fst t)) toks).
Proof.
  intros num H HMM fr total force s SA.
  destruct (C01_accurate_lossless num H HMM fr total force s SA) as [ws [E P]].
  exists (tokenize_default ws 0). unfold tokenize. rewrite E. cbn [fst snd gof].
  destruct (tokenize_default_spec ws 0) as [T1 T2].
  split; [reflexivity|]. split; [|split].
  - simpl in T1. rewrite P in T1. exact T1.
  - assert (G : forall ws u v, Forall (located (u ++ concat ws ++ v)) (tokenize_default ws (length u))).
    { clear. induction ws as [|w ws IH]; intros u v; simpl; auto. constructor.
      - exists u, (concat ws ++ v). rewrite <- app_assoc. auto.
      - specialize (IH (u ++ w) v). rewrite app_length, <- app_assoc in IH.
        rewrite <- app_assoc. exact IH. }
    specialize (G ws [] []). simpl in G. rewrite app_nil_r, P in G. exact G.
  - rewrite T2. reflexivity.
Qed.

Theorem C12_tokenize_search_located :
  forall (num : Num) (H : hmm num) (HMM : bool) (fr : freqs) (total : Z) (force : list str) (s : str),
    sane (sget fr) total ->
    exists toks,
      tokenize num H TSearch HMM fr total force s = gof toks
      /\ Forall (located s) toks
      /\ cut_for_search num H HMM fr total force s = gof (map (fun t => fst (fst t)) toks).
Proof.
  intros num H HMM fr total force s SA.
  destruct (C01_accurate_lossless num H HMM fr total force s SA) as [ws [E P]].
  exists (tokenize_search fr ws 0). unfold tokenize. rewrite cut_for_search_eq, E. cbn [fst snd gof].
  destruct (tokenize_search_spec fr ws [] []) as [T1 T2]. simpl in T1, T2.
  rewrite app_nil_r, P in T1. split; [reflexivity|]. split; auto. rewrite T2. reflexivity.
Qed.

Example C12_nonvacuous :
  tokenize numQ demo_hmm TSearch true demo_fr demo_total [] [c_da; c_xue; c_sheng; c_bei; c_jing] =
  gof [([c_da; c_xue], 0, 2); ([c_da; c_xue; c_sheng], 0, 3); ([c_bei; c_jing], 3, 5)].
Proof. vm_compute. reflexivity. Qed.

(** ** C13: the HMM stage *)

Theorem C13_hmm_stage :
  forall (num : Num) (H : hmm num) (s : str),
    s <> [] ->
    exists labels ws,
      fs_cut_han H s = gof ws /\ concat ws = s /\ ~ In [] ws /\
      length labels = length s /\ chain labels /\ final labels /\ spelled_by labels ws.
Proof.
  intros num H s NE. destruct (fs_cut_han_ok H NE) as [ls [ws [E [[P1 P2] R]]]].
  exists ls, ws. split; auto. split; auto. split; auto.
  intros HI. rewrite Forall_forall in P2. apply (P2 [] HI). reflexivity.
Qed.

Theorem C13_hmm_cut_lossless :
  forall (num : Num) (H : hmm num) (force : list str) (s : str),
    exists ws, fs_cut num H force s = gof ws /\ concat ws = s /\ ~ In [] ws.
Proof.
  intros num H force s. destruct (fs_cut_ok H force s) as [ws [E [P1 P2]]].
  exists ws. split; auto. split; auto.
  intros HI. rewrite Forall_forall in P2. apply (P2 [] HI). reflexivity.
Qed.

Example C13_nonvacuous :
  fs_cut_han demo_hmm [c_bei; c_jing; c_da] = gof [[c_bei; c_jing; c_da]].
Proof. vm_compute. reflexivity. Qed.

Print Assumptions C01_accurate_lossless.
Print Assumptions C01_accurate_prefix.
Print Assumptions C02_no_empty_word.
Print Assumptions C02_full_mode_refuted.
Print Assumptions C06_word_graph_exact.
Print Assumptions C06_word_graph_members.
Print Assumptions C07_C54_best_segmentation.
Print Assumptions C07_most_probable.
Print Assumptions C07_best_binary64.
Print Assumptions C08_longest_word_on_ties.
Print Assumptions C09_only_known_words.
Print Assumptions C10_search_mode.
Print Assumptions C11_tokenize_tiles.
Print Assumptions C12_tokenize_search_located.
Print Assumptions C13_hmm_stage.
Print Assumptions C13_hmm_cut_lossless.
