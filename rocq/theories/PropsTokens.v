(** * What tokenize reports, place by place (C12), and tokenize and cut_for_search in binary64 (C102, C104) *)
From Coq Require Import Reals Lra Lia.
From Flocq Require Import Core BinarySingleNaN.
From Verif Require Import PyBase PyRegex PyNum ModelFinalseg ModelSeg ModelDict SpecBase SpecSeg SpecHmm SpecNum SpecScore SpecMode
  SpecDict SpecHealth SpecLog SpecRoundErr SpecUnknown SpecMissing SpecHmmErr InstQ InstR InstB64
  ProofsBase ProofsSearch Demo ProofsDemo PropsCut PropsRoundErr PropsDefault.

(** the tokens of one word [w] at [a]: the shorter words inside it at their places, then itself *)
Definition token_parts (D : dictionary) (t : str * nat * nat) : list (str * nat * nat) :=
  let '(w, a, b) := t in
  map (fun i => (sub w i 2, (a + i)%nat, (a + i + 2)%nat)) (inner_words D 2 w)
  ++ map (fun i => (sub w i 3, (a + i)%nat, (a + i + 3)%nat)) (inner_words D 3 w) ++ [(w, a, b)].

Lemma tokenize_search_parts fr ws a :
  tokenize_search fr ws a = flat_map (token_parts (sget fr)) (tokenize_default ws a).
Proof.
  revert a. induction ws as [|w ws IH]; intros a; cbn [tokenize_search tokenize_default flat_map]; auto.
  rewrite IH. unfold token_parts at 2. rewrite !dict_grams_eq, !map_map by lia.
  rewrite <- !app_assoc. cbn [fst snd app]. reflexivity.
Qed.

(** the search mode reports the tokens of the default mode, each after the dictionary words
    of two, then three, characters inside it, by increasing place *)
Theorem C12_every_place :
  forall (num : Num) (H : hmm num) (HMM : bool) (fr : freqs) (total : Z) (force : list str) (s : str),
    let default := tokenize num H TDefault HMM fr total force s in
    tokenize num H TSearch HMM fr total force s = (flat_map (token_parts (sget fr)) (fst default), snd default).
Proof. intros. unfold default, tokenize. cbn [fst snd]. now rewrite tokenize_search_parts. Qed.

Lemma In_inner D n w i : n <> 0%nat ->
  In i (inner_words D n w) <-> ((n < length w)%nat /\ (i + n <= length w)%nat /\ is_word D (sub w i n)).
Proof.
  intros N. unfold inner_words. destruct (n <? length w)%nat eqn:E.
  - apply Nat.ltb_lt in E. rewrite filter_In, in_seq, wordb_is_word. split; [intros [A B]; repeat split; auto; lia|].
    intros (A & B & C). split; auto. lia.
  - apply Nat.ltb_ge in E. split; [intros []|lia].
Qed.

Lemma sub_text u w v i n : (i + n <= length w)%nat -> sub (u ++ w ++ v) (length u + i) n = sub w i n.
Proof.
  intros L. unfold sub.
  assert (E : skipn (length u + i) (u ++ w ++ v) = skipn i w ++ v).
  { rewrite skipn_app. rewrite skipn_all2 by lia. replace (length u + i - length u)%nat with i by lia. cbn [app].
    rewrite skipn_app. replace (i - length w)%nat with 0%nat by lia. reflexivity. }
  rewrite E, firstn_app, skipn_length. replace (n - (length w - i))%nat with 0%nat by lia.
  cbn [firstn]. apply app_nil_r.
Qed.

(** ... so what is reported is: the words of the default mode, and every dictionary word of
    two or three characters of the text that lies inside one of them without being it *)
Theorem C12_what_is_reported :
  forall (num : Num) (H : hmm num) (HMM : bool) (fr : freqs) (total : Z) (force : list str) (s : str),
    sane (sget fr) total ->
    exists words toks,
      tokenize num H TDefault HMM fr total force s = gof words /\
      tokenize num H TSearch HMM fr total force s = gof toks /\
      forall u x y, In (u, x, y) toks <->
        (In (u, x, y) words \/
         exists w a b n, In (w, a, b) words /\ (n = 2 \/ n = 3)%nat /\ (a + n < b)%nat /\
           (a <= x)%nat /\ y = (x + n)%nat /\ (y <= b)%nat /\ u = sub s x n /\ is_word (sget fr) u).
Proof.
  intros num H HMM fr total force s SA.
  destruct (C11_tokenize_tiles num H HMM fr total force s SA) as (words & E & _ & LOC & _).
  pose proof (C12_every_place num H HMM fr total force s) as P. cbv zeta in P. rewrite E in P. cbn [fst snd gof] in P.
  exists words, (flat_map (token_parts (sget fr)) words). split; [exact E|]. split; [exact P|]. clear P E.
  intros u x y. rewrite in_flat_map. split.
  - intros [[[w a] b] [I J]]. pose proof (proj1 (Forall_forall _ _) LOC _ I) as (p & q & ES & LP & LB). unfold token_parts in J.
    assert (G : forall n, (n = 2 \/ n = 3)%nat ->
      In (u, x, y) (map (fun i => (sub w i n, (a + i)%nat, (a + i + n)%nat)) (inner_words (sget fr) n w)) ->
      exists w a b n, In (w, a, b) words /\ (n = 2 \/ n = 3)%nat /\ (a + n < b)%nat /\
           (a <= x)%nat /\ y = (x + n)%nat /\ (y <= b)%nat /\ u = sub s x n /\ is_word (sget fr) u).
    { intros n N K. apply in_map_iff in K. destruct K as [i [EQ K]]. injection EQ as <- <- <-.
      apply In_inner in K; [|lia]. destruct K as (K1 & K2 & K3).
      exists w, a, b, n. repeat (split; [auto; lia|]). split; auto.
      rewrite ES, <- LP. symmetry. now apply sub_text. }
    apply in_app_or in J. destruct J as [J|J]; [right; apply (G 2%nat); auto|].
    apply in_app_or in J. destruct J as [J|J]; [right; apply (G 3%nat); auto|].
    destruct J as [J|[]]. injection J as <- <- <-. now left.
  - intros [I|(w & a & b & n & I & N & L1 & L2 & -> & L3 & EU & W)].
    + exists (u, x, y). split; auto. unfold token_parts. apply in_or_app. right. apply in_or_app. right. left. reflexivity.
    + pose proof (proj1 (Forall_forall _ _) LOC _ I) as (p & q & ES & LP & LB).
      exists (w, a, b). split; auto.
      assert (EX : u = sub w (x - a) n).
      { rewrite EU, ES. replace x with (length p + (x - a))%nat at 1 by lia. apply sub_text. lia. }
      assert (K : In (x - a)%nat (inner_words (sget fr) n w)).
      { apply In_inner; [lia|]. repeat split; try lia. now rewrite <- EX. }
      assert (M : In (u, x, (x + n)%nat)
                    (map (fun i => (sub w i n, (a + i)%nat, (a + i + n)%nat)) (inner_words (sget fr) n w))).
      { apply in_map_iff. exists (x - a)%nat. split; auto. rewrite <- EX. repeat f_equal; lia. }
      unfold token_parts. apply in_or_app. destruct N as [->| ->]; [left; exact M|right]. apply in_or_app. left. exact M.
Qed.

(** 大学生 with 大学 and the words of the demonstration dictionary *)
Example C12_places_nonvacuous :
  sane (sget demo_fr) demo_total /\
  tokenize numQ demo_hmm TDefault true demo_fr demo_total [] [c_bei; c_jing; c_da; c_xue; c_sheng] =
    gof [([c_bei; c_jing], 0, 2); ([c_da; c_xue; c_sheng], 2, 5)]%nat /\
  tokenize numQ demo_hmm TSearch true demo_fr demo_total [] [c_bei; c_jing; c_da; c_xue; c_sheng] =
    gof [([c_bei; c_jing], 0, 2); ([c_da; c_xue], 2, 4); ([c_da; c_xue; c_sheng], 2, 5)]%nat.
Proof. split; [apply demo_sane|]. split; vm_compute; reflexivity. Qed.

(** ** binary64 *)

(** tokenize and cut_for_search without HMM: those of exact arithmetic, when one segmentation is clearly the best *)
Theorem C102_tokens_same_as_exact :
  forall (lg : Z -> b64), log_ok lg -> log_close lg ->
  forall (H : hmm (numB lg)) (H' : hmm numR) (fr : freqs) (total : Z) (force : list str) (s : str),
    healthy fr total -> (total <= 2 ^ 44)%Z ->
    (forall r, In (true, r) (runs word_char s) ->
       (length r <= 2 ^ 21)%nat /\ exists ws, clear_winner (sget fr) total r ws) ->
    cut_for_search (numB lg) H false fr total force s = cut_for_search numR H' false fr total force s /\
    forall tm, tokenize (numB lg) H tm false fr total force s = tokenize numR H' tm false fr total force s.
Proof.
  intros lg LO LC H H' fr total force s HE LT W.
  pose proof (C102_same_as_exact lg LO LC H H' fr total force s HE LT W) as E. split.
  - pose proof (C10_search_mode (numB lg) H false fr total force s) as A.
    pose proof (C10_search_mode numR H' false fr total force s) as B. cbv zeta in A, B.
    rewrite A, B, E. reflexivity.
  - intros tm. unfold tokenize. rewrite E. reflexivity.
Qed.

(** ... and with HMM, when the labels of the groups given to it are clearly the best too *)
Theorem C104_tokens_same_as_exact :
  forall (lg : Z -> b64), log_ok lg -> log_close lg ->
  forall (H : hmm (numB lg)) (fr : freqs) (total : Z) (force : list str) (s : str) (win : str -> list str),
    moderate_tables H -> healthy fr total -> (total <= 2 ^ 44)%Z ->
    (forall r, In (true, r) (runs word_char s) ->
       (length r <= 2 ^ 21)%nat /\ clear_winner (sget fr) total r (win r) /\
       forall g h, single_group (win r) g -> length g <> 1%nat -> ~ is_word (sget fr) (concat g) ->
         In (true, h) (runs han_char (concat g)) -> exists ls, clear_labels H h ls) ->
    cut_for_search (numB lg) H true fr total force s = cut_for_search numR (exact_tables H) true fr total force s /\
    forall tm, tokenize (numB lg) H tm true fr total force s = tokenize numR (exact_tables H) tm true fr total force s.
Proof.
  intros lg LO LC H fr total force s win MT HE LT W.
  pose proof (C104_same_as_exact lg LO LC H fr total force s win MT HE LT W) as E. split.
  - pose proof (C10_search_mode (numB lg) H true fr total force s) as A.
    pose proof (C10_search_mode numR (exact_tables H) true fr total force s) as B. cbv zeta in A, B.
    rewrite A, B, E. reflexivity.
  - intros tm. unfold tokenize. rewrite E. reflexivity.
Qed.

(* hypotheses met: [C102_nonvacuous] (PropsRoundErr.v) and [C104_nonvacuous] (PropsDefault.v) *)

Print Assumptions C12_every_place.
Print Assumptions C12_what_is_reported.
Print Assumptions C102_tokens_same_as_exact.
Print Assumptions C104_tokens_same_as_exact.
