(** * The paddle mode (C48, C71) *)
From Verif Require Import PyBase ProofsBase PyNum PyUtf8 ModelFinalseg ModelSeg ModelPosseg ModelArgs ModelLac SpecLac
  ProofsLac DataLac DataLacOk PropsArgs.

(** a vocabulary with an entry for unknown words in which ids and words go with each other *)
Definition vocab_ok (ds : dataset) : Prop :=
  sget (word2id ds) s_OOV <> None /\
  forall w i, sget (word2id ds) w = Some i -> sget (id2word ds) (str_int i) = Some w.

(** the network gives one known label for each character *)
Definition net_ok (ds : dataset) (net : list Z -> res (list Z)) : Prop :=
  forall ids, exists ls, net ids = Ok ls /\ length ls = length ids /\
    Forall (fun l => sget (id2label ds) (str_int l) <> None) ls.

Definition in_vocabulary (ds : dataset) (c : char) : bool :=
  match sget (word2id ds) [c] with Some _ => true | None => false end.

(** a character as the mode gives it back *)
Definition given_back (ds : dataset) (c : char) : char := if in_vocabulary ds c then c else 32%N.

(** ids and labels the network is asked for and answers *)
Definition id_of (ds : dataset) (c : char) (i : Z) : Prop :=
  sget (word2id ds) (if in_vocabulary ds c then [c] else s_OOV) = Some i.
Definition answers (ds : dataset) (net : list Z -> res (list Z)) (t : str) (labels : list str) : Prop :=
  exists ids ls, Forall2 (id_of ds) t ids /\ net ids = Ok ls /\
    Forall2 (fun l label => sget (id2label ds) (str_int l) = Some label) ls labels.

Lemma Forall2_len {A B} (R : A -> B -> Prop) l m : Forall2 R l m -> length l = length m.
Proof. induction 1; cbn; auto. Qed.

Lemma answers_exist ds net t : vocab_ok ds -> net_ok ds net ->
  exists ids ls labels, rmap (word_to_id ds) t = Ok ids /\ Forall2 (id_of ds) t ids /\ net ids = Ok ls /\
    Forall2 (fun l label => sget (id2label ds) (str_int l) = Some label) ls labels /\ length labels = length t /\
    parse_result ds ids ls = parse_loop (map (fun c => [given_back ds c]) t) labels [] [] [] [].
Proof.
  intros [OOV V] NO.
  assert (I : exists ids, rmap (word_to_id ds) t = Ok ids /\ Forall2 (id_of ds) t ids /\
                rmap (shown_word ds) ids = Ok (map (fun c => [given_back ds c]) t)).
  { induction t as [|c t (ids & A & B & C)]; [exists []; repeat constructor|].
    assert (X : exists i, word_to_id ds c = Ok i /\ id_of ds c i /\ shown_word ds i = Ok [given_back ds c]).
    { unfold word_to_id, id_of, in_vocabulary, given_back, in_vocabulary, lookup. rewrite smem_sget.
      destruct (sget (word2id ds) [c]) as [i|] eqn:E.
      - rewrite E. exists i. repeat split. unfold shown_word, lookup. rewrite (V _ _ E). cbn [rbind].
        assert (N : str_eqb [c] s_OOV = false) by (apply str_eqb_neq; discriminate). rewrite N. reflexivity.
      - destruct (sget (word2id ds) s_OOV) as [i|] eqn:E2; [|congruence]. exists i. repeat split.
        unfold shown_word, lookup. rewrite (V _ _ E2). cbn [rbind]. rewrite str_eqb_refl. reflexivity. }
    destruct X as (i & X1 & X2 & X3). exists (i :: ids). cbn [rmap map]. rewrite X1, X3, A, C. cbn [rbind].
    repeat split. constructor; auto. }
  destruct I as (ids & A & B & C). destruct (NO ids) as (ls & N & L & F).
  assert (Q : exists labels, rmap (fun id => lookup (id2label ds) (str_int id)) ls = Ok labels /\
                Forall2 (fun l label => sget (id2label ds) (str_int l) = Some label) ls labels).
  { clear N L. induction F as [|l ls X _ (labels & E & F2)]; [exists []; repeat constructor|].
    destruct (sget (id2label ds) (str_int l)) as [label|] eqn:EL; [|congruence].
    exists (label :: labels). cbn [rmap]. unfold lookup at 1. rewrite EL. cbn [rbind]. rewrite E. split; [reflexivity|].
    constructor; auto. }
  destruct Q as (labels & E & F2). exists ids, ls, labels. repeat split; auto.
  - apply Forall2_len in B, F2. congruence.
  - unfold parse_result. rewrite C. cbn [rbind]. rewrite E. reflexivity.
Qed.

Lemma combine_fst {A B} (l : list A) : forall (m : list B), length l = length m -> map fst (combine l m) = l.
Proof. induction l as [|a l IH]; intros [|b m] L; cbn in *; try discriminate; auto. rewrite IH; auto. Qed.
Lemma combine_snd {A B} (l : list A) : forall (m : list B), length l = length m -> map snd (combine l m) = m.
Proof. induction l as [|a l IH]; intros [|b m] L; cbn in *; try discriminate; auto. rewrite IH; auto. Qed.

(** ** C48: the words of the paddle mode

    The text without the whitespace around it is labelled by the network and divided into
    words by the labels; there are as many words as tags; no word is empty; characters
    outside the vocabulary come back as a space. *)
Theorem C48_paddle_mode :
  forall (ds : dataset) (net : list Z -> res (list Z)) (s : str),
    vocab_ok ds -> net_ok ds net ->
    exists t labels ws words tags,
      stripped s t /\ answers ds net t labels /\ length labels = length t /\
      divided None (combine (map (given_back ds) t) labels) ws /\
      words = map (map fst) ws /\
      Forall2 (fun w tag => exists c label w', w = (c, label) :: w' /\ tag_of label tag) ws tags /\
      get_result ds net s = Ok (words, tags) /\
      length words = length tags /\ concat words = map (given_back ds) t /\ Forall (fun w => w <> []) words.
Proof.
  intros ds net s V NO. set (t := str_strip s).
  destruct (answers_exist ds net t V NO) as (ids & ls & labels & A & B & N & F & L & P).
  set (cs := combine (map (given_back ds) t) labels).
  assert (LC : length (map (given_back ds) t) = length labels) by (rewrite map_length; auto).
  destruct (parse_words cs) as (ws & D & E). destruct (divided_concat _ _ _ D) as [CC NE].
  exists t, labels, ws, (map word_text ws), (map word_tag ws).
  split; [apply strip_spec|]. split; [exists ids, ls; auto|]. split; [auto|]. split; [exact D|]. split; [reflexivity|].
  split.
  { clear - NE. induction NE as [|w ws X _ IH]; constructor; auto. destruct w as [|[c l] w]; [congruence|].
    exists c, l, w. split; [reflexivity|]. apply tag_part_ok. }
  assert (G : get_result ds net s = Ok (map word_text ws, map word_tag ws)).
  { unfold get_result, get_vars. fold t. rewrite A. cbn [rbind]. rewrite N. cbn [rbind]. rewrite P, <- E.
    unfold cs. rewrite <- (map_map fst (fun x => [x])), combine_fst, combine_snd by auto. rewrite map_map. reflexivity. }
  split; [exact G|]. split; [rewrite !map_length; reflexivity|]. split.
  - unfold word_text. change (map (map fst) ws) with (map (map (@fst char str)) ws). rewrite <- concat_map, CC. apply combine_fst. exact LC.
  - apply Forall_map. eapply Forall_impl; [|exact NE]. intros [|x w] X; [congruence|discriminate].
Qed.

(** the words and tags as the two functions yield them *)
Theorem C48_cut_and_tag :
  forall (ds : dataset) (net : list Z -> res (list Z)) (gbk : bytes -> str) (a : arg) (s : str),
    vocab_ok ds -> net_ok ds net -> carries a s ->
    exists t words tags,
      stripped s t /\ concat words = map (given_back ds) t /\ length words = length tags /\
      paddle_cut ds net gbk a = gof words /\ paddle_pos_cut ds net gbk a = gof (combine words tags).
Proof.
  intros ds net gbk a s V NO C. pose proof (carries_decode gbk a s C) as DE.
  destruct (C48_paddle_mode ds net s V NO) as (t & labels & ws & words & tags & ST & _ & _ & _ & _ & _ & G & L & CC & NE).
  exists t, words, tags. split; [exact ST|]. split; [exact CC|]. split; [exact L|].
  assert (EMPTY : s = [] -> words = [] /\ tags = []).
  { intros ->. destruct ST as (x & y & E & _). destruct t as [|c t]; [|destruct x; discriminate].
    cbn in CC. destruct NE as [|w words X _]; [destruct tags; [auto|discriminate]|]. destruct w; [congruence|discriminate]. }
  split.
  - unfold paddle_cut. rewrite DE. destruct s as [|c s]; [destruct EMPTY as [-> _]; reflexivity|].
    unfold get_sent. rewrite G. reflexivity.
  - assert (GF : forall n, gfor (combine (seq n (length words)) words) (fun it =>
              match nth_error tags (fst it - n) with Some x => gone (snd it, x) | None => gerr IndexError end) = gof (combine words tags)).
    { clear - L. revert tags L. induction words as [|w words IH]; intros [|x tags] L n; try discriminate; [reflexivity|].
      cbn [length seq combine gfor fst]. rewrite Nat.sub_diag. cbn [nth_error snd].
      specialize (IH tags ltac:(cbn in L; lia) (S n)).
      assert (X : gfor (combine (seq (S n) (length words)) words) (fun it =>
                match nth_error (x :: tags) (fst it - n) with Some y => gone (snd it, y) | None => gerr IndexError end) =
              gof (combine words tags)).
      { rewrite <- IH. apply gfor_ext. intros [i v] I. cbn [fst snd]. apply in_combine_l, in_seq in I.
        replace (i - n) with (S (i - S n)) by lia. reflexivity. }
      rewrite X. reflexivity. }
    specialize (GF 0).
    assert (GF2 : gfor (combine (seq 0 (length words)) words) (fun it =>
              match nth_error tags (fst it) with Some x => gone (snd it, x) | None => gerr IndexError end) = gof (combine words tags)).
    { rewrite <- GF. apply gfor_ext. intros it _. rewrite Nat.sub_0_r. reflexivity. }
    unfold paddle_pos_cut. rewrite DE, G. destruct a as [[|c a]|b]; auto.
    destruct C as [C|(b & C & _)]; [|discriminate]. injection C as <-. destruct EMPTY as [-> ->]; reflexivity.
Qed.

(** ** the vocabulary and the labels that come with jieba *)

Definition in_lac (c : char) : bool := existsb (N.eqb c) lac_chars.

Theorem C48_shipped :
  exists ds, load_dataset word_dic tag_dic = Ok ds /\ vocab_ok ds /\
    (forall c, in_vocabulary ds c = in_lac c) /\
    (forall l, (0 <= l < 57)%Z -> sget (id2label ds) (str_int l) <> None).
Proof.
  destruct (load_ok lac_rows lac_label_rows lac_rows_ok lac_labels_ok) as (ds & E & W & NW & LB).
  exists ds. split; [exact E|].
  assert (ROW : forall w, In w (map snd lac_rows) -> exists i, In (i, w) lac_rows).
  { intros w I. apply in_map_iff in I. destruct I as ([i v] & <- & I). exists i. exact I. }
  split; [|split].
  - split.
    + assert (I : In s_OOV (map snd lac_rows)).
      { unfold lac_rows. rewrite map_app. apply in_app_iff. right. unfold lac_other, s_OOV. cbn [map snd].
        do 4 right. left. reflexivity. }
      destruct (ROW _ I) as (i & J). apply W in J. destruct J as [-> _]. discriminate.
    + intros w i G. destruct (in_dec (list_eq_dec N.eq_dec) w (map snd lac_rows)) as [I|I].
      * destruct (ROW _ I) as (j & J). apply W in J. destruct J as [G' J]. rewrite G in G'. injection G' as <-. exact J.
      * rewrite (NW _ I) in G. discriminate.
  - intros c. unfold in_vocabulary, in_lac.
    assert (X : existsb (N.eqb c) lac_chars = true <-> In [c] (map snd lac_rows)).
    { rewrite existsb_exists. unfold lac_rows. rewrite map_app, number_words, in_app_iff. split.
      - intros (d & I & EQ). apply N.eqb_eq in EQ. subst d. left. unfold lac_words. apply in_map_iff. exists c. auto.
      - intros [I|I].
        + unfold lac_words in I. apply in_map_iff in I. destruct I as (d & EQ & I). injection EQ as ->. exists c. split; auto. apply N.eqb_refl.
        + exfalso. apply in_map_iff in I. destruct I as (r & EQ & I). apply other_ids in I. rewrite EQ in I. cbn in I. tauto. }
    destruct (existsb (N.eqb c) lac_chars).
    + destruct (ROW [c]) as (i & J); [apply X; reflexivity|]. apply W in J. destruct J as [-> _]. reflexivity.
    + destruct (sget (word2id ds) [c]) as [i|] eqn:G; [|reflexivity].
      destruct (in_dec (list_eq_dec N.eq_dec) [c] (map snd lac_rows)) as [I|I]; [apply X in I; discriminate|].
      rewrite (NW _ I) in G. discriminate.
  - intros l L. unfold lac_label_rows in LB. destruct (number_nth lac_labels 0 l) as (w & I).
    { change (Z.of_nat (length lac_labels)) with 57%Z. lia. }
    rewrite (LB _ _ I). discriminate.
Qed.

(** the labels of the network are 0 to 56 *)
Definition net57 (net : list Z -> res (list Z)) : Prop :=
  forall ids, exists ls, net ids = Ok ls /\ length ls = length ids /\ Forall (fun l => 0 <= l < 57)%Z ls.

Theorem C48_shipped_words :
  forall (net : list Z -> res (list Z)) (gbk : bytes -> str), net57 net ->
    exists ds, load_dataset word_dic tag_dic = Ok ds /\
    forall (a : arg) (s : str), carries a s ->
    exists t words tags,
      stripped s t /\ concat words = map (fun c => if in_lac c then c else 32%N) t /\ length words = length tags /\
      paddle_cut ds net gbk a = gof words /\ paddle_pos_cut ds net gbk a = gof (combine words tags).
Proof.
  intros net gbk N. destruct C48_shipped as (ds & E & V & IV & LB). exists ds. split; [exact E|].
  intros a s C. destruct (C48_cut_and_tag ds net gbk a s V) with (2 := C) as (t & words & tags & A & B & R).
  - intros ids. destruct (N ids) as (ls & X & L & F). exists ls. repeat split; auto. eapply Forall_impl; [|exact F]. auto.
  - exists t, words, tags. split; [exact A|]. split; [|exact R]. rewrite B. apply map_ext. intros c. unfold given_back. rewrite IV. reflexivity.
Qed.

(** texts of known characters and single spaces, with no whitespace at the ends, come back as they are *)
Theorem C48_lossless_inside_vocabulary :
  forall (net : list Z -> res (list Z)) (gbk : bytes -> str) (s : str), net57 net ->
    (forall c, In c s -> in_lac c = true \/ c = 32%N) ->
    (forall c u, s = c :: u -> is_space c = false) -> (forall c u, s = u ++ [c] -> is_space c = false) ->
    exists ds words, load_dataset word_dic tag_dic = Ok ds /\
      paddle_cut ds net gbk (AText s) = gof words /\ concat words = s.
Proof.
  intros net gbk s N IN HD TL. destruct (C48_shipped_words net gbk N) as (ds & E & A).
  destruct (A (AText s) s (or_introl eq_refl)) as (t & words & tags & ST & C & _ & P & _).
  exists ds, words. split; [exact E|]. split; [exact P|]. rewrite C.
  assert (T : t = s).
  { destruct ST as (a & b & EQ & SP & _ & _). rewrite Forall_app in SP. destruct SP as [SA SB].
    destruct a as [|c a].
    - destruct b as [|c b] using rev_ind; [rewrite app_nil_r in EQ; auto|].
      exfalso. apply Forall_app in SB. destruct SB as [_ SB]. inversion SB; subst.
      rewrite (TL c (t ++ b)) in *; [discriminate|]. rewrite <- app_assoc. reflexivity.
    - exfalso. inversion SA; subst. rewrite (HD c (a ++ t ++ b)) in *; [discriminate|reflexivity]. }
  rewrite T. rewrite <- (map_id s) at 2. apply map_ext_in. intros c I. destruct (IN c I) as [->| ->]; auto.
Qed.

(** a network that calls everything the beginning of an adjective *)
Definition net_a (ids : list Z) : res (list Z) := Ok (map (fun _ => 0%Z) ids).
Lemma net_a_ok : net57 net_a.
Proof.
  intros ids. exists (map (fun _ => 0%Z) ids). repeat split; [apply map_length|]. apply Forall_map. apply Forall_forall. intros; lia.
Qed.

(** The mode is not lossless: U+1F600 is not in the vocabulary; whitespace around the text is dropped. *)
Theorem C48_lossless_refuted :
  ~ (forall net gbk ds s ws, net57 net -> load_dataset word_dic tag_dic = Ok ds ->
       paddle_cut ds net gbk (AText s) = gof ws -> concat ws = s).
Proof.
  intros A. destruct (C48_shipped_words net_a (fun _ => []) net_a_ok) as (ds & E & B).
  destruct (B (AText [97; 0x1F600; 97]%N) _ (or_introl eq_refl)) as (t & words & tags & ST & C & _ & P & _).
  pose proof (A _ _ _ _ _ net_a_ok E P) as X. rewrite C in X. apply (f_equal (existsb (N.eqb 0x1F600))) in X.
  assert (NL : in_lac 0x1F600%N = false) by (vm_compute; reflexivity).
  change (existsb (N.eqb 0x1F600) [97; 0x1F600; 97]%N) with true in X.
  apply existsb_exists in X. destruct X as (c & I & EQ). apply N.eqb_eq in EQ. subst c.
  apply in_map_iff in I. destruct I as (c & EQ & _). destruct (in_lac c) eqn:IC; [subst c; congruence|discriminate].
Qed.

Theorem C48_strips_refuted :
  ~ (forall net gbk ds s ws, net57 net -> load_dataset word_dic tag_dic = Ok ds ->
       paddle_cut ds net gbk (AText s) = gof ws -> length (concat ws) = length s).
Proof.
  intros A. destruct (C48_shipped_words net_a (fun _ => []) net_a_ok) as (ds & E & B).
  destruct (B (AText [32; 97]%N) _ (or_introl eq_refl)) as (t & words & tags & ST & C & _ & P & _).
  pose proof (A _ _ _ _ _ net_a_ok E P) as X. rewrite C, map_length in X.
  destruct ST as (a & b & EQ & _ & HD & _). destruct a as [|x a].
  - destruct t as [|c t]; [cbn in X; discriminate|]. injection EQ as <- _. specialize (HD _ _ eq_refl). vm_compute in HD. discriminate.
  - apply (f_equal (@length _)) in EQ. cbn [length app] in EQ. rewrite !app_length in EQ. cbn in X. lia.
Qed.

(** 来 U+1F600 到 between blanks; labels v-B, v-I, O with the ids of tag.dic *)
Example C48_nonvacuous :
  let rows := [(3%Z, [0x6765%N]); (4%Z, [0x5230%N]); (9%Z, s_OOV)] in
  let labels := [(0, [118; 45; 66]); (1, [118; 45; 73]); (2, [79])]%N in
  match load_dataset (map kv_line rows) (map (fun r => kv_line (Z.of_N (fst r), snd r)) labels) with
  | Ok ds =>
      paddle_pos_cut ds (fun ids => if list_eqb Z.eqb ids [3; 9; 4]%Z then Ok [0; 1; 2]%Z else Err ValueError) (fun _ => [])
        (AText [32; 0x6765; 0x1F600; 0x5230; 10]%N) =
      gof [([0x6765; 32], [118]); ([0x5230], [79])]%N
  | Err _ => False
  end.
Proof. vm_compute. reflexivity. Qed.

(** ** C71: the empty text is kept from the network, a blank text is not

    [e] is what the network raises for an empty sequence (the comment in
    jieba/__init__.py:302 says that it does raise). *)
Theorem C71_blank_text_reaches_network :
  forall (ds : dataset) (net : list Z -> res (list Z)) (gbk : bytes -> str) (e : exn) (s : str),
    net [] = Err e -> s <> [] -> Forall (fun c => is_space c = true) s ->
    paddle_cut ds net gbk (AText []) = gnil /\ paddle_cut ds net gbk (ABytes []) = gnil /\
    paddle_pos_cut ds net gbk (AText []) = gnil /\
    paddle_cut ds net gbk (AText s) = gerr e /\ paddle_pos_cut ds net gbk (AText s) = gerr e /\
    paddle_pos_cut ds net gbk (ABytes []) = gerr e.
Proof.
  intros ds net gbk e s NE NN SP.
  assert (B : str_strip s = []).
  { destruct (strip_spec s) as (a & b & E & _ & HD & _). destruct (str_strip s) as [|c t] eqn:EQ; auto.
    specialize (HD c t eq_refl). rewrite Forall_forall in SP. rewrite (SP c) in HD; [discriminate|].
    rewrite E. apply in_app_iff. right. left. reflexivity. }
  assert (G : get_result ds net s = Err e) by (unfold get_result, get_vars; rewrite B; cbn [rmap rbind]; rewrite NE; reflexivity).
  repeat split.
  - unfold paddle_cut. cbn [strdecode]. destruct s as [|c s]; [congruence|]. unfold get_sent. rewrite G. reflexivity.
  - unfold paddle_pos_cut. cbn [strdecode]. destruct s as [|c s]; [congruence|]. rewrite G. reflexivity.
  - unfold paddle_pos_cut, get_result, get_vars. cbn. rewrite NE. reflexivity.
Qed.

(** every other text gives the network at least one character *)
Theorem C71_other_texts_do_not :
  forall (ds : dataset) (net net' : list Z -> res (list Z)) (gbk : bytes -> str) (s : str),
    (forall ids, ids <> [] -> net ids = net' ids) -> (exists c, In c s /\ is_space c = false) ->
    paddle_cut ds net gbk (AText s) = paddle_cut ds net' gbk (AText s) /\
    paddle_pos_cut ds net gbk (AText s) = paddle_pos_cut ds net' gbk (AText s).
Proof.
  intros ds net net' gbk s SAME (c & I & NS).
  assert (B : str_strip s <> []).
  { intros B. destruct (strip_spec s) as (a & b & E & SP & _). rewrite B in E. cbn in E.
    rewrite Forall_forall in SP. rewrite E in I. rewrite (SP c I) in NS. discriminate. }
  assert (G : get_result ds net s = get_result ds net' s).
  { unfold get_result. destruct (get_vars ds s) as [ids|e] eqn:E; auto. cbn [rbind]. rewrite SAME; auto.
    intros ->. unfold get_vars in E. destruct (str_strip s) as [|x t]; [congruence|]. cbn [rmap] in E.
    destruct (word_to_id ds x); [|discriminate]. cbn [rbind] in E. destruct (rmap (word_to_id ds) t); discriminate. }
  unfold paddle_cut, paddle_pos_cut, get_sent. cbn [strdecode]. destruct s as [|x s]; auto. rewrite G. auto.
Qed.

Example C71_nonvacuous :
  let s := [32; 0x3000]%N in
  s <> [] /\ Forall (fun c => is_space c = true) s /\ (exists c, In c [32; 97]%N /\ is_space c = false).
Proof. cbv zeta. split; [discriminate|]. split; [repeat constructor|]. exists 97%N. cbn. auto. Qed.

Print Assumptions C48_paddle_mode.
Print Assumptions C48_cut_and_tag.
Print Assumptions C48_shipped.
Print Assumptions C48_shipped_words.
Print Assumptions C48_lossless_inside_vocabulary.
Print Assumptions C48_lossless_refuted.
Print Assumptions C48_strips_refuted.
Print Assumptions C71_blank_text_reaches_network.
Print Assumptions C71_other_texts_do_not.
