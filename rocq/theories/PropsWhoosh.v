(** * The tokenizer for Whoosh (C50, C72) *)
From Verif Require Import PyBase ProofsBase PyNum ModelFinalseg ModelSeg ModelDict ModelApi ModelWhoosh
  SpecBase SpecSeg ProofsSeg ProofsSearch PropsCut InstQ Demo ProofsDemo.

(** all words but single characters that are not Han *)
Definition kept_word (w : str) : bool :=
  match w with
  | [] => false
  | [c] => ((0x4E00 <=? c) && (c <=? 0x9FD5))%N
  | _ => true
  end.
Definition as_token (t : str * nat * nat) : wtoken :=
  let '(w, x, y) := t in mkTok w w x x y.

Lemma hget_hset h r t : r < length h -> hget (hset h r t) r = Some t.
Proof. revert r. induction h as [|x h IH]; intros [|r] L; cbn in *; try lia; auto. apply IH. lia. Qed.
Lemma hset_length h r t : length (hset h r t) = length h.
Proof. revert r. induction h as [|x h IH]; intros [|r]; cbn; auto. Qed.
Lemma hset_other h r t k : k <> r -> hget (hset h r t) k = hget h k.
Proof. revert r k. induction h as [|x h IH]; intros [|r] [|k] N; cbn; auto; try congruence. apply (IH r k). congruence. Qed.

Lemma skipped w : (negb (accepted w) && (length w <=? 1)) = negb (kept_word w).
Proof.
  destruct w as [|c [|d w]]; auto.
  - cbn [accepted kept_word length]. unfold in_range. rewrite Nat.leb_refl, andb_true_r. reflexivity.
  - cbn. rewrite andb_false_r. reflexivity.
Qed.

Lemma loop_tokens r words : forall h, r < length h ->
  let res := wh_loop r words h in
  map (fun y => hget (snd y) (fst y)) (fst res) = map (fun t => Some (as_token t)) (filter (fun t => kept_word (fst (fst t))) words) /\
  Forall (fun y => fst y = r) (fst res) /\
  hget (snd res) r = match rev (filter (fun t => kept_word (fst (fst t))) words) with t :: _ => Some (as_token t) | [] => hget h r end /\
  (forall k, k <> r -> hget (snd res) k = hget h k) /\
  length (snd res) = length h.
Proof.
  induction words as [|[[w x] y] words IH]; intros h L; cbn zeta.
  - cbn. auto.
  - cbn [wh_loop filter fst]. rewrite skipped. destruct (kept_word w) eqn:K; cbn [negb]; [|apply IH; auto].
    specialize (IH (hset h r (mkTok w w x x y))). rewrite hset_length in IH. specialize (IH L). cbn zeta in IH.
    destruct (wh_loop r words _) as [ys h2]. cbn [fst snd map] in *. destruct IH as (A & B & C & D & E).
    rewrite A, hget_hset by auto. split; [reflexivity|]. split; [constructor; auto|]. split; [|split; [|exact E]].
    + cbn [rev]. rewrite C. destruct (rev (filter _ words)); cbn [app]; [rewrite hget_hset; auto|reflexivity].
    + intros k N. rewrite D, hset_other; auto.
Qed.

(** ** C50

    Read one by one, the tokens are the search-mode words other than single characters that
    are not Han; each one is the part of the text its offsets name. *)
Theorem C50_tokens :
  forall (num : Num) (H : hmm num) (d : dstate) (text : str) (h : heap),
    sane (sget (d_freq d)) (d_total d) ->
    exists toks r,
      tokenize num H TSearch true (d_freq d) (d_total d) (d_force d) text = gof toks /\
      wh_call num H d text h = (r, None) /\
      read_each r = map (fun t => Some (as_token t)) (filter (fun t => kept_word (fst (fst t))) toks) /\
      forall t, In (Some t) (read_each r) ->
        firstn (tk_endchar t - tk_startchar t) (skipn (tk_startchar t) text) = tk_text t /\
        tk_endchar t = tk_startchar t + length (tk_text t) /\ tk_endchar t <= length text /\
        tk_original t = tk_text t /\ tk_pos t = tk_startchar t.
Proof.
  intros num H d text h SA.
  destruct (C12_tokenize_search_located num H true (d_freq d) (d_total d) (d_force d) text SA) as (toks & E & LO & _).
  exists toks, (wh_loop (length h) toks (h ++ [None])). unfold wh_call. rewrite E. cbn [fst snd gof].
  destruct (loop_tokens (length h) toks (h ++ [None])) as (A & _); [rewrite app_length; cbn; lia|].
  split; [reflexivity|]. split; [reflexivity|]. split; [exact A|].
  intros t I. unfold read_each in I. rewrite A in I. apply in_map_iff in I. destruct I as ([[w x] y] & EQ & I).
  injection EQ as <-. apply filter_In in I. destruct I as [I _]. rewrite Forall_forall in LO. specialize (LO _ I).
  destruct LO as (u & v & -> & <- & ->). cbn [tk_endchar tk_startchar tk_text tk_original tk_pos].
  split; [|split; [reflexivity|split; [rewrite !app_length; lia|split; reflexivity]]].
  rewrite skipn_app, skipn_all, Nat.sub_diag. cbn [app skipn].
  replace (length u + length w - length u) with (length w) by lia.
  rewrite firstn_app, firstn_all, Nat.sub_diag. cbn. apply app_nil_r.
Qed.

(** every Han character of the text is in a token *)
Theorem C50_no_han_character_is_lost :
  forall (num : Num) (H : hmm num) (d : dstate) (text : str) (h : heap) (i : nat) (c : char),
    sane (sget (d_freq d)) (d_total d) ->
    nth_error text i = Some c -> (0x4E00 <= c <= 0x9FD5)%N ->
    exists r t, wh_call num H d text h = (r, None) /\ In (Some t) (read_each r) /\
      tk_startchar t <= i < tk_endchar t.
Proof.
  intros num H d text h i c SA NE HAN.
  destruct (C01_accurate_lossless num H true (d_freq d) (d_total d) (d_force d) text SA) as (ws & E & P).
  destruct (C50_tokens num H d text h SA) as (toks & r & ET & R & RE & _).
  assert (T : toks = tokenize_search (d_freq d) ws 0).
  { unfold tokenize in ET. rewrite E in ET. cbn in ET. unfold gof in ET. congruence. }
  assert (W : forall ws n, n <= i -> nth_error (concat ws) (i - n) = Some c ->
            exists w x, In (w, x, x + length w) (tokenize_search (d_freq d) ws n) /\ x <= i < x + length w /\ nth_error w (i - x) = Some c).
  { clear - NE. induction ws as [|w ws IH]; intros n L N; cbn [concat] in N; [destruct (i - n); discriminate|].
    destruct (Nat.lt_ge_cases (i - n) (length w)) as [LT|GE].
    - exists w, n. rewrite nth_error_app1 in N by auto. split; [|split; [lia|exact N]].
      cbn [tokenize_search]. apply in_app_iff. right. apply in_app_iff. right. left. reflexivity.
    - rewrite nth_error_app2 in N by auto. destruct (IH (n + length w)) as (w' & x & I & B); [lia| |].
      { replace (i - (n + length w)) with (i - n - length w) by lia. exact N. }
      exists w', x. split; [|exact B]. cbn [tokenize_search]. apply in_app_iff. right. apply in_app_iff. right. right. exact I. }
  destruct (W ws 0) as (w & x & I & B & N); [lia|rewrite Nat.sub_0_r, P; exact NE|].
  exists r, (mkTok w w x x (x + length w)). split; [exact R|]. split; [|exact B].
  rewrite RE. apply in_map_iff. exists (w, x, x + length w). split; [reflexivity|]. apply filter_In. rewrite T. split; [exact I|].
  cbn [fst]. destruct w as [|e [|f w]]; [destruct (i - x); discriminate| |reflexivity].
  cbn [kept_word]. assert (i - x = 0) as X by (cbn in B; lia). rewrite X in N. injection N as ->.
  apply andb_true_iff. rewrite !N.leb_le. lia.
Qed.

(** 北京大学生 , 1 a CR LF: the comma and the blank are dropped, the line end is not *)
Example C50_nonvacuous :
  let d := demo in
  saneb (d_freq d) (d_total d) = true /\
  map (option_map (fun t => (tk_text t, tk_startchar t, tk_endchar t)))
    (read_each (fst (wh_call numQ demo_hmm d [c_da; c_xue; c_sheng; c_comma; 49; 97; 32; 97; 13; 10; c_lai]%N []))) =
  [Some ([c_da; c_xue], 0, 2); Some ([c_da; c_xue; c_sheng], 0, 3); Some ([49; 97]%N, 4, 6);
   Some ([13; 10]%N, 8, 10); Some ([c_lai], 10, 11)].
Proof. split; vm_compute; reflexivity. Qed.

(** ** C72: the tokens are one object

    Put in a list, they all have the attributes of the last one. *)
Theorem C72_one_object :
  forall (num : Num) (H : hmm num) (d : dstate) (text : str) (h : heap) (t : option wtoken),
    let r := fst (wh_call num H d text h) in
    In t (read_list r) -> t = last (read_each r) None.
Proof.
  intros num H d text h t r I. unfold r, wh_call in *. cbn [fst] in *.
  destruct (tokenize num H TSearch true (d_freq d) (d_total d) (d_force d) text) as [toks e]. cbn [fst] in *.
  destruct (loop_tokens (length h) toks (h ++ [None])) as (A & B & C & _); [rewrite app_length; cbn; lia|].
  unfold read_list in I. apply in_map_iff in I. destruct I as (y & <- & I). rewrite Forall_forall in B. rewrite (B y I), C.
  unfold read_each. rewrite A. destruct (rev (filter (fun t => kept_word (fst (fst t))) toks)) as [|x l] eqn:ER.
  - apply (f_equal (@rev _)) in ER. rewrite rev_involutive in ER. cbn in ER. rewrite ER in A. cbn in A.
    apply map_eq_nil in A. rewrite A in I. destruct I.
  - apply (f_equal (@rev _)) in ER. rewrite rev_involutive in ER. cbn in ER. rewrite ER, map_app. cbn. rewrite last_last. reflexivity.
Qed.

Theorem C72_list_refuted :
  ~ (forall num H d text h, sane (sget (d_freq d)) (d_total d) ->
       read_list (fst (wh_call num H d text h)) = read_each (fst (wh_call num H d text h))).
Proof.
  intros A. specialize (A numQ demo_hmm demo [c_da; c_xue; c_lai] [] demo_sane).
  vm_compute in A. discriminate.
Qed.

(** other objects are left alone *)
Theorem C72_other_objects :
  forall (num : Num) (H : hmm num) (d : dstate) (text : str) (h : heap) (k : nat),
    k < length h -> hget (snd (fst (wh_call num H d text h))) k = hget h k.
Proof.
  intros num H d text h k L. unfold wh_call. cbn [fst].
  destruct (loop_tokens (length h) (fst (tokenize num H TSearch true (d_freq d) (d_total d) (d_force d) text)) (h ++ [None]))
    as (_ & _ & _ & D & _); [rewrite app_length; cbn; lia|].
  rewrite D by lia. unfold hget. apply app_nth1. exact L.
Qed.

Print Assumptions C50_tokens.
Print Assumptions C50_no_han_character_is_lost.
Print Assumptions C72_one_object.
Print Assumptions C72_list_refuted.
Print Assumptions C72_other_objects.
