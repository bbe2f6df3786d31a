(** * C109: how many words there can be *)
From Coq Require Import Lia.
From Verif Require Import PyBase PyRegex PyNum ModelFinalseg ModelSeg ModelDict
  SpecBase SpecSeg SpecFull SpecFullOrder InstQ ProofsBase ProofsRegex ProofsSplit ProofsFull ProofsLocal ProofsFullOrder
  Demo ProofsDemo PropsCut PropsFull PropsFullOrder.

Definition chars (ws : list str) : nat := length (concat ws).

Lemma count_nonempty (ws : list str) : ~ In [] ws -> length ws <= chars ws.
Proof.
  unfold chars. induction ws as [|w ws IH]; intros N; [cbn; lia|]. cbn [concat length]. rewrite app_length.
  assert (w <> []) by (intros ->; apply N; left; auto). destruct w; [congruence|]. cbn [length].
  assert (~ In [] ws) by (intros I; apply N; right; auto). specialize (IH H0). lia.
Qed.

(** ** Accurate mode: at most one word per character, whatever is raised *)
Theorem C109_accurate :
  forall (num : Num) (H : hmm num) (HMM : bool) (fr : freqs) (total : Z) (force : list str) (s : str),
    length (fst (cut num H (mode_of false HMM) fr total force s)) <= length s.
Proof.
  intros num H HMM fr total force s.
  pose proof (C02_no_empty_word num H HMM fr total force s) as N.
  destruct (C01_accurate_prefix num H HMM fr total force s) as [[t E] _].
  apply count_nonempty in N. apply (f_equal (@length _)) in E. rewrite app_length in E. unfold chars in N. lia.
Qed.

Lemma filter_le {A} (f : A -> bool) l : length (filter f l) <= length l.
Proof. induction l as [|x l IH]; cbn [filter length]; [lia|]. destruct (f x); cbn [length]; lia. Qed.

Lemma expand_count D w : w <> [] -> length (expand D w) + 1 <= 2 * length w.
Proof.
  intros NE. unfold expand. rewrite !app_length, !map_length. unfold inner_words.
  destruct w as [|a [|b [|c w]]]; [congruence|cbn; lia|cbn; lia|]. set (u := a :: b :: c :: w).
  assert (L : length u = 3 + length w) by reflexivity. clearbody u. rewrite L.
  repeat match goal with |- context [filter ?f ?l] => pose proof (filter_le f l); set (filter f l) in * end.
  rewrite !seq_length in *.
  destruct w as [|d w]; cbn [length] in *.
  - replace (2 <? 3 + 0) with true by reflexivity. replace (3 <? 3 + 0) with false by reflexivity. cbn [length]. lia.
  - replace (2 <? 3 + S (length w)) with true by (symmetry; apply Nat.ltb_lt; lia).
    replace (3 <? 3 + S (length w)) with true by (symmetry; apply Nat.ltb_lt; lia). lia.
Qed.

(** ** Search mode: with what accurate mode gives, at most two words per character *)
Theorem C109_search :
  forall (num : Num) (H : hmm num) (HMM : bool) (fr : freqs) (total : Z) (force : list str) (s : str),
    length (fst (cut_for_search num H HMM fr total force s)) +
    length (fst (cut num H (mode_of false HMM) fr total force s)) <= 2 * length s.
Proof.
  intros num H HMM fr total force s. rewrite C10_search_mode. cbn [fst].
  pose proof (C02_no_empty_word num H HMM fr total force s) as N.
  destruct (C01_accurate_prefix num H HMM fr total force s) as [[t E] _].
  apply (f_equal (@length _)) in E. rewrite app_length in E. revert E N.
  generalize (fst (cut num H (mode_of false HMM) fr total force s)) as ws. intros ws E N.
  enough (length (flat_map (expand (sget fr)) ws) + length ws <= 2 * length (concat ws)) by lia.
  clear E. induction ws as [|w ws IH]; [cbn; lia|]. cbn [flat_map concat length]. rewrite !app_length.
  assert (w <> []) by (intros ->; apply N; left; auto). pose proof (expand_count (sget fr) w H0).
  assert (~ In [] ws) by (intros I; apply N; right; auto). specialize (IH H2). lia.
Qed.

(** ** Full mode *)
Lemma long_bound D s k M :
  (forall w, is_word D w -> length w <= M) -> length (long_ends D s k) <= M - 1.
Proof.
  intros B. rewrite <- (seq_length (M - 1) (k + 1)). apply NoDup_incl_length.
  { unfold long_ends. apply NoDup_filter. unfold ends. destruct (filter _ _) as [|x l] eqn:F; [repeat constructor; intros []|].
    rewrite <- F. apply NoDup_filter. apply seq_NoDup. }
  intros i I. unfold long_ends in I. apply filter_In in I. destruct I as [I L]. apply Nat.ltb_lt in L.
  unfold ends in I. destruct (filter _ _) as [|x l] eqn:F; [destruct I as [<-|[]]; lia|].
  rewrite <- F in I. apply filter_In in I. destruct I as [I W]. apply in_seq in I. apply in_seq.
  assert (IW : is_word D (sub s k (i + 1 - k))).
  { unfold wordb in W. unfold is_word. destruct (D _) as [n|]; [|discriminate]. exists n. split; auto.
    intros ->. discriminate. }
  apply B in IW. unfold sub in IW. rewrite firstn_length, skipn_length in IW. lia.
Qed.

Lemma here_bound D s clear k M :
  2 <= M -> (forall w, is_word D w -> length w <= M) ->
  length (sole D s clear k) + length (others D s clear k) <= M - 1.
Proof.
  intros G B. pose proof (long_bound D s k M B). unfold others.
  assert (S1 : length (sole D s clear k) <= 1).
  { unfold sole. destruct (ends D s k) as [|e [|e2 es]]; cbn; try lia. destruct (clear k); cbn; lia. }
  destruct (sole D s clear k) as [|x l]; [rewrite map_length; cbn; lia|cbn [length] in *; lia].
Qed.

Lemma pieces_bound D s clear M l : forall k,
  2 <= M -> (forall w, is_word D w -> length w <= M) ->
  length (pieces D s clear k l) <= (M - 1) * length (concat (map snd l)).
Proof.
  induction l as [|[b g] l IH]; intros k G B; [cbn; lia|]. cbn [pieces map concat snd]. rewrite !app_length.
  specialize (IH (k + length g) G B). rewrite Nat.mul_add_distr_l. apply Nat.add_le_mono; [|exact IH].
  assert (S : forall n j, length (flat_map (sole D s clear) (seq j n)) + length (flat_map (others D s clear) (seq j n)) <= (M - 1) * n).
  { induction n as [|n IHn]; intros j; [cbn; lia|]. cbn [seq flat_map]. rewrite !app_length.
    specialize (IHn (S j)). pose proof (here_bound D s clear j M G B). lia. }
  specialize (S (length g) k). destruct b.
  - rewrite app_length. destruct (flat_map (sole D s clear) _) as [|x ws]; cbn [length] in *; lia.
  - enough (E : forall n j, length (flat_map (fun i => sole D s clear i ++ others D s clear i) (seq j n)) =
        length (flat_map (sole D s clear) (seq j n)) + length (flat_map (others D s clear) (seq j n))) by (rewrite E; exact S).
    induction n as [|n IHn]; intros j; [reflexivity|]. cbn [seq flat_map]. rewrite !app_length, IHn. lia.
Qed.

Lemma blanks_bound n : forall t s, length s <= n ->
  length (at_blanks t s) <= 2 * length s + 1 /\ length (filter nonempty (at_blanks t s)) <= length t + length s.
Proof.
  induction n as [|n IH]; intros t s L.
  - destruct s; [|cbn in L; lia]. cbn. destruct t; cbn; lia.
  - destruct s as [|c s]; [cbn; destruct t; cbn; lia|]. cbn [at_blanks length] in *.
    destruct (is_space c).
    + destruct s as [|d s]; [cbn; destruct t; cbn; lia|]. cbn [length] in *. destruct (_ && _).
      * destruct (IH [] s) as [A B]; [lia|]. cbn [length filter nonempty] in *. split; [lia|]. destruct t; cbn [nonempty length]; lia.
      * destruct (IH [] (d :: s)) as [A B]; [cbn; lia|]. cbn [length] in A, B. cbn [length filter nonempty] in *.
        split; [lia|]. destruct t; cbn [nonempty length]; lia.
    + destruct (IH (t ++ [c]) s) as [A B]; [lia|]. rewrite app_length in B. cbn [length] in *. lia.
Qed.

(** with words of at most [M] characters, [M - 1] pieces for a character *)
Theorem C109_full :
  forall (num : Num) (H : hmm num) (HMM : bool) (fr : freqs) (total : Z) (force : list str) (s : str) (M : nat),
    prefix_closed (sget fr) -> 2 <= M -> (forall w, is_word (sget fr) w -> length w <= M) ->
    exists ps, cut num H (mode_of true HMM) fr total force s = gof ps /\
      length (filter (fun p => negb (length p =? 0)) ps) <= (M - 1) * length s /\
      length ps <= (M + 1) * length s.
Proof.
  intros num H HMM fr total force s M PC G B. destruct (C108_clear_decided (sget fr)) as [clear CL].
  eexists. split; [apply (C108_full_mode_exact num H HMM fr total force s clear PC CL)|].
  assert (FE : forall l : list str, filter (fun p => negb (length p =? 0)) l = filter nonempty l).
  { intros l. apply filter_ext. intros [|]; reflexivity. }
  rewrite FE. rewrite <- (runs_concat word_char s) at 2 4.
  pose proof (runs_class word_char s) as RC. induction RC as [|[b r] l [NE _] _ IH]; [cbn; lia|].
  cbn [flat_map map concat fst snd]. rewrite filter_app, !app_length.
  assert (1 <= length r) by (destruct r; [exfalso; apply NE; reflexivity|cbn; lia]).
  enough (length (filter nonempty (if b then pieces (sget fr) r (clear r) 0 (runs is_alnum r) else at_blanks [] r)) <= (M - 1) * length r
          /\ length (if b then pieces (sget fr) r (clear r) 0 (runs is_alnum r) else at_blanks [] r) <= (M + 1) * length r) as [P Q]
    by (rewrite !Nat.mul_add_distr_l; destruct IH; split; apply Nat.add_le_mono; assumption).
  destruct b.
  - pose proof (pieces_bound (sget fr) r (clear r) M (runs is_alnum r) 0 G B) as P. rewrite runs_concat in P.
    pose proof (filter_le nonempty (pieces (sget fr) r (clear r) 0 (runs is_alnum r))). nia.
  - destruct (blanks_bound (length r) [] r (le_n _)) as [P Q]. cbn [length] in Q. nia.
Qed.

(** the words of [n] times the same sign, with all their repetitions up to [n] *)
Definition repeats (c : char) (n : nat) : freqs := map (fun i => (repeat c i, 1%Z)) (seq 1 n).

Lemma repeat_prefix (c : char) n u v : u ++ v = repeat c n -> u = repeat c (length u) /\ length u <= n.
Proof.
  revert n. induction u as [|x u IH]; intros n E; [cbn; split; [auto|lia]|].
  destruct n as [|n]; [discriminate|]. cbn in E. injection E as -> E. destruct (IH n E) as [A B]. cbn. rewrite <- A. split; [auto|lia].
Qed.

Lemma repeats_get c n w : sget (repeats c n) w <> None <-> exists i, 1 <= i <= n /\ w = repeat c i.
Proof.
  unfold repeats. split.
  - intros E. destruct (sget _ w) as [z|] eqn:G; [|congruence]. apply sget_In in G. apply in_map_iff in G.
    destruct G as (i & EQ & I). injection EQ as <- _. apply in_seq in I. exists i. split; [lia|auto].
  - intros (i & L & ->) E. assert (I : In (repeat c i, 1%Z) (map (fun i => (repeat c i, 1%Z)) (seq 1 n))).
    { apply in_map_iff. exists i. split; auto. apply in_seq. lia. }
    apply (in_map fst) in I. unfold sget in E. apply (proj1 (dget_None str_eqb str_eqb_eq _ _)) in E. auto.
Qed.

Lemma repeats_closed c n : prefix_closed (sget (repeats c n)).
Proof.
  intros u v NE E. apply repeats_get in E. destruct E as (i & L & E). apply repeats_get.
  destruct (repeat_prefix c i u v E) as [A B]. exists (length u). split; auto. destruct u; [congruence|cbn in *; lia].
Qed.

Lemma repeats_word c n i : 1 <= i <= n -> wordb (sget (repeats c n)) (repeat c i) = true.
Proof.
  intros L. assert (E : sget (repeats c n) (repeat c i) <> None) by (apply repeats_get; eauto). unfold wordb.
  destruct (sget _ _) as [z|] eqn:G; [|congruence]. apply sget_In in G. apply in_map_iff in G.
  destruct G as (j & EQ & _). injection EQ as _ <-. reflexivity.
Qed.

Lemma sub_repeat (c : char) n k m : k + m <= n -> sub (repeat c n) k m = repeat c m.
Proof.
  intros L. replace n with (k + (m + (n - k - m))) by lia. unfold sub. rewrite !repeat_app.
  rewrite skipn_app, skipn_all2 by (rewrite repeat_length; lia). rewrite repeat_length, Nat.sub_diag. cbn [skipn app].
  rewrite firstn_app, repeat_length, Nat.sub_diag. cbn [firstn]. rewrite app_nil_r. apply firstn_all2. rewrite repeat_length. lia.
Qed.

Lemma forallb_filter_id {A} (f : A -> bool) l : forallb f l = true -> filter f l = l.
Proof.
  induction l as [|x l IH]; [reflexivity|]. cbn [forallb filter]. intros E. apply andb_true_iff in E. destruct E as [-> E].
  now rewrite IH.
Qed.

Lemma repeats_long c n k : k < n -> length (long_ends (sget (repeats c n)) (repeat c n) k) = n - k - 1.
Proof.
  intros L. unfold long_ends, ends. rewrite repeat_length.
  assert (F : filter (fun i => wordb (sget (repeats c n)) (sub (repeat c n) k (i + 1 - k))) (seq k (n - k)) = seq k (n - k)).
  { apply forallb_filter_id. apply forallb_forall. intros i I. apply in_seq in I. rewrite sub_repeat by lia. apply repeats_word. lia. }
  rewrite F. destruct (n - k) as [|m] eqn:E; [lia|]. cbn [seq filter]. rewrite Nat.ltb_irrefl.
  replace (filter (fun i => k <? i) (seq (S k) m)) with (seq (S k) m); [rewrite seq_length; lia|].
  symmetry. apply forallb_filter_id. apply forallb_forall. intros i I. apply in_seq in I. apply Nat.ltb_lt. lia.
Qed.

(** without a bound on the words there is no linear bound: a text of [n] equal signs and its
    repetitions as words give at least [n * (n - 1) / 2] pieces *)
Theorem C109_full_quadratic :
  forall (num : Num) (H : hmm num) (HMM : bool) (total : Z) (force : list str) (n : nat),
    exists fr s, prefix_closed (sget fr) /\ length s = n /\
      n * (n - 1) <= 2 * length (fst (cut num H (mode_of true HMM) fr total force s)).
Proof.
  intros num H HMM total force n. exists (repeats c_bei n), (repeat c_bei n).
  split; [apply repeats_closed|]. split; [apply repeat_length|].
  destruct (C108_without_letters num H HMM (repeats c_bei n) total force (repeat c_bei n) (repeats_closed _ _)) as (single & SG & E).
  { apply Forall_forall. intros x I. apply repeat_spec in I. subst x. split; reflexivity. }
  rewrite E. cbn [fst gof]. rewrite repeat_length.
  assert (B : forall m k, k + m = n ->
    m * (m - 1) <= 2 * length (flat_map (fun k0 => if single k0 then [sub (repeat c_bei n) k0 1]
       else map (word_at (repeat c_bei n) k0) (long_ends (sget (repeats c_bei n)) (repeat c_bei n) k0)) (seq k m))).
  { induction m as [|m IH]; intros k EK; [cbn; lia|]. cbn [seq flat_map]. rewrite app_length. specialize (IH (S k)).
    assert (LG := repeats_long c_bei n k).
    assert (m <= length (if single k then [sub (repeat c_bei n) k 1]
       else map (word_at (repeat c_bei n) k) (long_ends (sget (repeats c_bei n)) (repeat c_bei n) k))).
    { destruct (single k) eqn:SK.
      - apply SG in SK. destruct SK as [SK _]. rewrite SK in LG. cbn [length] in *. lia.
      - rewrite map_length. lia. }
    assert (m * (m - 1) <= 2 * length (flat_map (fun k0 => if single k0 then [sub (repeat c_bei n) k0 1]
       else map (word_at (repeat c_bei n) k0) (long_ends (sget (repeats c_bei n)) (repeat c_bei n) k0)) (seq (S k) m))) by (apply IH; lia).
    destruct m as [|m]; nia. }
  apply B. reflexivity.
Qed.

Theorem C109_full_linear_refuted :
  ~ exists k, forall fr s, prefix_closed (sget fr) ->
      length (fst (cut numQ demo_hmm (mode_of true false) fr 10 [] s)) <= k * length s.
Proof.
  intros [k B]. destruct (C109_full_quadratic numQ demo_hmm false 10 [] (2 * k + 2)) as (fr & s & PC & L & Q).
  specialize (B fr s PC). rewrite L in B. nia.
Qed.

(** the bounds are reached: a word of three characters with both its halves; two characters
    that form a word *)
Example C109_nonvacuous :
  let fr := d_freq (build [([c_bei; c_jing; c_da], 5%Z); ([c_bei; c_jing], 5%Z); ([c_jing; c_da], 5%Z)]) in
  prefix_closed (sget fr) /\ (forall w, is_word (sget fr) w -> length w <= 3) /\
  length (fst (cut_for_search numQ demo_hmm false fr 20 [] [c_bei; c_jing; c_da])) = 3 /\
  length (fst (cut numQ demo_hmm (mode_of false false) fr 20 [] [c_bei; c_jing; c_da])) = 1 /\
  length (fst (cut_for_search numQ demo_hmm false [] 20 [] [c_bei; c_jing; c_da])) = 3 /\
  length (fst (cut numQ demo_hmm (mode_of false false) [] 20 [] [c_bei; c_jing; c_da])) = 3 /\
  length (fst (cut numQ demo_hmm (mode_of true false) fr 20 [] [c_bei; c_jing; c_da])) = 3.
Proof.
  cbv zeta. split; [apply prefix_closedb_ok; vm_compute; reflexivity|]. split.
  { intros w (n & E & NZ). apply sget_In in E. revert E. vm_compute (d_freq _).
    intros E. cbn [In] in E. repeat (destruct E as [E|E]; [injection E as <- _; cbn; lia|]). destruct E. }
  repeat split; vm_compute; reflexivity.
Qed.

Print Assumptions C109_accurate.
Print Assumptions C109_search.
Print Assumptions C109_full.
Print Assumptions C109_full_quadratic.
Print Assumptions C109_full_linear_refuted.
