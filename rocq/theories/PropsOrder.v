(** * C80: the order of the lines of a user dictionary *)
From Coq Require Import Reals Lra Permutation.
From Verif Require Import PyBase PyRegex PyNum ModelFinalseg ModelSeg ModelDict ModelApi
  SpecBase SpecSeg SpecNum SpecScore SpecDict SpecApi SpecOrder SpecHealth InstR InstSign InstQ
  ProofsBase ProofsSeg ProofsOpt ProofsNoHmm ProofsDict ProofsSuggest ProofsOrder PropsDict PropsExt
  Demo ProofsDemo ProofsHealth.

(** The same dictionary in a different order answers every call in the same way, also
    after any further calls. *)
Theorem C80_same_dictionary_same_behaviour :
  forall (num : Num) (H : hmm num) (d e : dstate) (os : list op) (o : op),
    prefix_closed (sget (d_freq d)) -> same_dict d e ->
    snd (do_op num H (do_ops num H d os) o) = snd (do_op num H (do_ops num H e os) o).
Proof.
  intros num H d e os o P S.
  assert (P' : prefix_closed (sget (d_freq e))).
  { eapply prefix_closed_ext; [|exact P]. intros k. apply S. }
  destruct (@do_ops_same num H os d e P P' S) as [S' [Q Q']].
  apply do_op_same; auto.
Qed.

(** Loading the lines of a user dictionary, all with frequencies and for different
    words, in two orders: no call tells the difference. *)
Theorem C80_lines_in_any_order :
  forall (num : Num) (H : hmm num) (d : dstate) (lines lines' : list uline) (es es' : list (str * Z * option str)),
    let entry e := Some (fst (fst e), Some (snd (fst e)), snd e) in
    reachable num H d ->
    Forall2 line_reads lines (map entry es) -> Forall2 line_reads lines' (map entry es') ->
    Permutation es es' -> NoDup (map (fun e => fst (fst e)) es) ->
    exists d1 d2,
      load_userdict num H d lines = (d1, None) /\ load_userdict num H d lines' = (d2, None) /\
      same_dict d1 d2 /\
      forall os o, snd (do_op num H (do_ops num H d1 os) o) = snd (do_op num H (do_ops num H d2 os) o).
Proof.
  intros num H d lines lines' es es' entry R F F' P ND.
  exists (adds d es), (adds d es').
  split; [rewrite (C22_userdict_is_add_word num H d _ _ F); apply add_each_adds|].
  split; [rewrite (C22_userdict_is_add_word num H d _ _ F'); apply add_each_adds|].
  assert (S : same_dict (adds d es) (adds d es')) by (apply adds_perm; auto).
  split; auto. intros os o. apply C80_same_dictionary_same_behaviour; auto.
  apply adds_closed. eapply C17_always_prefix_closed; eauto.
Qed.

(** Without frequencies the order counts: 北 and 京 with frequency 5 each; the first of
    北京 and 京北 to be added gets frequency 3, the second 2. *)
Definition bj5 : dstate := build [([c_bei], 5%Z); ([c_jing], 5%Z)].

Lemma suggest_two (H : hmm numR) (d : dstate) c1 c2 f :
  healthy (d_freq d) (d_total d) -> sget (d_freq d) [c1; c2] = None \/ sget (d_freq d) [c1; c2] = Some 0%Z ->
  word_char c1 = true -> is_alnum c1 = false -> word_char c2 = true -> is_alnum c2 = false ->
  freq_get (d_freq d) [c1] 1 = 5%Z -> freq_get (d_freq d) [c2] 1 = 5%Z -> (1 <= f)%Z ->
  (IZR (f - 1) <= 25 / IZR (d_total d) < IZR f)%R ->
  suggest_freq_value numR H (d_freq d) (d_total d) (d_force d) (Whole [c1; c2]) = Ok f.
Proof.
  intros HE NW W1 A1 W2 A2 F1 F2 L B. pose proof HE as [PC [TP _]].
  rewrite suggest_whole; auto; [|discriminate].
  assert (CH : chosen numR (d_freq d) (d_total d) [c1; c2] = [[c1]; [c2]]).
  { pose proof (@chosen_candidate numR (d_freq d) (d_total d) [c1; c2] (healthy_sane HE) PC) as C.
    pose proof C as C'. apply candidate_partition, two_chars_cases in C. destruct C as [C|C]; auto.
    rewrite C in C'. destruct C' as [s' [_ [_ [[[n [E N]]|[E _]] _]]]]; [|discriminate].
    destruct NW as [NW|NW]; rewrite NW in E; [discriminate|]. inversion E; congruence. }
  rewrite CH. f_equal. unfold raw. cbn [fold_right map]. rewrite F1, F2.
  assert (FG : freq_get (d_freq d) [c1; c2] 1 = 1%Z \/ freq_get (d_freq d) [c1; c2] 1 = 0%Z).
  { unfold freq_get. destruct NW as [-> | ->]; auto. }
  match goal with |- Z.max (Rtrunc ?x + 1) _ = _ => set (X := x) end.
  assert (TR : (0 < IZR (d_total d))%R) by (apply IZR_lt; auto).
  assert (EX : X = (25 / IZR (d_total d))%R) by (unfold X; field; lra).
  assert (NN : (0 <= X)%R) by (rewrite EX; apply Rlt_le, Rdiv_lt_0_compat; lra).
  pose proof (Rtrunc_spec X NN) as [T1 T2]. rewrite EX in *.
  assert (Q1 : (Rtrunc (25 / IZR (d_total d)) < f)%Z) by (apply lt_IZR; lra).
  assert (Q2 : (f - 1 < Rtrunc (25 / IZR (d_total d)) + 1)%Z) by (apply lt_IZR; rewrite plus_IZR; lra).
  lia.
Qed.

Theorem C80_order_without_frequencies_refuted :
  forall (H : hmm numR),
    let bj := [c_bei; c_jing] in let jb := [c_jing; c_bei] in
    healthy (d_freq bj5) (d_total bj5) /\
    exists d1 d2, load_userdict numR H bj5 [UText bj; UText jb] = (d1, None) /\
      load_userdict numR H bj5 [UText jb; UText bj] = (d2, None) /\
      sget (d_freq d1) bj = Some 3%Z /\ sget (d_freq d1) jb = Some 2%Z /\
      sget (d_freq d2) bj = Some 2%Z /\ sget (d_freq d2) jb = Some 3%Z.
Proof.
  intros H bj jb.
  assert (HE : healthy (d_freq bj5) (d_total bj5)) by (apply healthyb_ok; vm_compute; reflexivity).
  split; auto.
  set (a := add_word_freq bj5 bj 3 None). set (b := add_word_freq bj5 jb 3 None).
  assert (HA : healthy (d_freq a) (d_total a)) by (apply healthyb_ok; vm_compute; reflexivity).
  assert (HB : healthy (d_freq b) (d_total b)) by (apply healthyb_ok; vm_compute; reflexivity).
  exists (add_word_freq a jb 2 None), (add_word_freq b bj 2 None).
  assert (LA : load_userdict_line numR H bj5 (UText bj) = add_word numR H bj5 bj None None) by reflexivity.
  assert (LB : load_userdict_line numR H bj5 (UText jb) = add_word numR H bj5 jb None None) by reflexivity.
  assert (LA' : load_userdict_line numR H a (UText jb) = add_word numR H a jb None None) by reflexivity.
  assert (LB' : load_userdict_line numR H b (UText bj) = add_word numR H b bj None None) by reflexivity.
  assert (EA : add_word numR H bj5 bj None None = Ok a).
  { unfold add_word. unfold bj, jb. rewrite (@suggest_two H bj5 c_bei c_jing 3%Z); auto; [lia|]. change (d_total bj5) with 10%Z. simpl. lra. }
  assert (EB : add_word numR H bj5 jb None None = Ok b).
  { unfold add_word. unfold bj, jb. rewrite (@suggest_two H bj5 c_jing c_bei 3%Z); auto; [lia|]. change (d_total bj5) with 10%Z. simpl. lra. }
  assert (EA' : add_word numR H a jb None None = Ok (add_word_freq a jb 2 None)).
  { unfold add_word. unfold bj, jb. rewrite (@suggest_two H a c_jing c_bei 2%Z); auto; [lia|]. change (d_total a) with 13%Z. simpl. lra. }
  assert (EB' : add_word numR H b bj None None = Ok (add_word_freq b bj 2 None)).
  { unfold add_word. unfold bj, jb. rewrite (@suggest_two H b c_bei c_jing 2%Z); auto; [lia|]. change (d_total b) with 13%Z. simpl. lra. }
  split; [cbn [load_userdict]; rewrite LA, EA; cbn [load_userdict]; rewrite LA', EA'; reflexivity|].
  split; [cbn [load_userdict]; rewrite LB, EB; cbn [load_userdict]; rewrite LB', EB'; reflexivity|].
  repeat split; vm_compute; reflexivity.
Qed.

(** lines "北京 3 ns" and "大学 0" in both orders *)
Example C80_nonvacuous :
  let es := [([c_bei; c_jing], 3%Z, Some [110; 115]%N); ([c_da; c_xue], 0%Z, None)] in
  let entry (e : str * Z * option str) := Some (fst (fst e), Some (snd (fst e)), snd e) in
  let l1 := UText [c_bei; c_jing; 32; 51; 32; 110; 115; 10]%N in
  let l2 := UText [c_da; c_xue; 32; 48]%N in
  Forall2 line_reads [l1; l2] (map entry es) /\ Forall2 line_reads [l2; l1] (map entry (rev es)) /\
  Permutation es (rev es) /\ NoDup (map (fun e => fst (fst e)) es) /\
  exists d, reachable numQ demo_hmm d /\ sget (d_freq d) [c_da; c_xue] = Some 0%Z.
Proof.
  intros es entry l1 l2.
  assert (R1 : line_reads l1 (entry ([c_bei; c_jing], 3%Z, Some [110; 115]%N))).
  { eexists. split; [vm_compute; reflexivity|]. split; [vm_compute; intuition discriminate|].
    exists (Some [51%N]). split; [|split; [reflexivity|]].
    + split; [discriminate|]. split; [reflexivity|]. split; split; try discriminate; repeat constructor.
    + intros w' f' t' [NW [E _]]. destruct w' as [|a [|b w']]; simpl in *; try congruence; try lia.
      destruct f' as [x|]; [destruct x; discriminate|]. destruct t'; discriminate. }
  assert (R2 : line_reads l2 (entry ([c_da; c_xue], 0%Z, None))).
  { eexists. split; [vm_compute; reflexivity|]. split; [vm_compute; intuition discriminate|].
    exists (Some [48%N]). split; [|split; [reflexivity|]].
    + split; [discriminate|]. split; [reflexivity|]. split; [|exact I]. split; [discriminate|repeat constructor].
    + intros w' f' t' [NW [E _]]. destruct w' as [|a [|b w']]; simpl in *; try congruence; try lia.
      destruct f' as [x|]; [destruct x; discriminate|]. destruct t'; discriminate. }
  split; [repeat constructor; auto|]. split; [repeat constructor; auto|].
  split; [apply Permutation_rev|]. split.
  2:{ destruct C17_nonvacuous as [d [R [_ [E _]]]]. exists d. auto. }
  repeat constructor; simpl; intuition discriminate.
Qed.

Print Assumptions C80_same_dictionary_same_behaviour.
Print Assumptions C80_lines_in_any_order.
Print Assumptions C80_order_without_frequencies_refuted.
