(** * C90: the number of lookups *)
From Coq Require Import Lia.
From Verif Require Import PyBase PyRegex PyNum InstQ ModelFinalseg ModelSeg ModelDict ModelTimed ModelRace SpecBase SpecSeg Demo
  ProofsBase ProofsRegex ProofsSplit ProofsDag ProofsFinalseg ProofsSeg ProofsRace ProofsDemo PropsTimed2.

Section Cost.
  Variable num : Num.
  Variable H : hmm num.
  Variable D : nat -> moment.
  Variable M : nat.
  (** no key of the dictionary has more than [M] characters *)
  Hypothesis keys : forall k w, smem (mo_freq (D k)) w = true -> length w <= M.

  Definition ccost {A} (g : cgen A) (b : nat) : Prop := forall n, snd (g n) <= n + b.

  (** ** The word graph *)
  Lemma scan_cost fuel s k i tmp n :
    k <= i ->
    let r := r_dag_scan D fuel s k i (slice s k (i + 1)) tmp n in
    snd r <= n + 2 * (M - (i - k)) + 1 /\
    forall L, fst r = Ok L -> length L <= length tmp + (M - (i - k)).
  Proof.
    revert i tmp n. induction fuel as [|fuel IH]; intros i tmp n LE; cbn [r_dag_scan].
    - cbn. split; [lia|]. intros L E. injection E as <-. lia.
    - destruct (i <? length s) eqn:EI; [|cbn; split; [lia|intros L E; injection E as <-; lia]].
      apply Nat.ltb_lt in EI. unfold rd_bind, rd_read.
      destruct (smem (mo_freq (D n)) (slice s k (i + 1))) eqn:S1;
        [|cbn; split; [lia|intros L E; injection E as <-; lia]].
      apply keys in S1. rewrite slice_length in S1 by lia.
      destruct (sget (mo_freq (D (S n))) (slice s k (i + 1))) as [z|];
        [|cbn; split; [lia|discriminate]].
      destruct (IH (i + 1) (if negb (z =? 0)%Z then tmp ++ [i] else tmp) (S (S n))) as [A B]; [lia|].
      split; [lia|]. intros L E. apply B in E. destruct (negb (z =? 0)%Z); [rewrite app_length in E; cbn in E|]; lia.
  Qed.

  Lemma dag_at_cost s k n :
    let r := r_dag_at D s k n in
    snd r <= n + (2 * M + 1) /\ forall L, fst r = Ok L -> length L <= M + 1.
  Proof.
    unfold r_dag_at, rd_bind. pose proof (scan_cost (S (length s)) s k k [] n (le_n k)) as [A B].
    destruct (r_dag_scan D _ s k k _ [] n) as [[t|e] n1]; cbn [fst snd rd_ret] in *.
    - split; [lia|]. intros L E. injection E as <-. specialize (B t eq_refl). destruct t; cbn in *; lia.
    - split; [lia|discriminate].
  Qed.

  Lemma dag_loop_cost s ks n :
    let r := r_dag_loop D s ks n in
    snd r <= n + length ks * (2 * M + 1) /\ forall Ls, fst r = Ok Ls -> Forall (fun L => length L <= M + 1) Ls.
  Proof.
    revert n. induction ks as [|k ks IH]; intros n; cbn [r_dag_loop].
    - cbn. split; [lia|]. intros Ls E. injection E as <-. constructor.
    - unfold rd_bind. destruct (dag_at_cost s k n) as [A B].
      destruct (r_dag_at D s k n) as [[L|e] n1]; cbn [fst snd] in *; [|split; [cbn; lia|discriminate]].
      destruct (IH n1) as [C E]. destruct (r_dag_loop D s ks n1) as [[Ls|e] n2]; cbn [fst snd rd_ret] in *.
      + split; [cbn [length]; lia|]. intros Q X. injection X as <-. constructor; auto.
      + split; [cbn [length]; lia|discriminate].
  Qed.

  Lemma dag_cost s n :
    let r := r_get_DAG D s n in
    snd r <= n + 1 + length s * (2 * M + 1) /\
    forall Ls, fst r = Ok Ls -> Forall (fun L => length L <= M + 1) Ls.
  Proof.
    unfold r_get_DAG, rd_bind, rd_read. destruct (mo_check (D n)); [cbn; split; [lia|discriminate]|].
    destruct (dag_loop_cost s (seq 0 (length s)) (S n)) as [A B]. rewrite seq_length in A. split; [lia|auto].
  Qed.

  (** ** The route *)
  Lemma cands_cost lt s idx route xs n : snd (r_calc_cands num D lt s idx route xs n) <= n + length xs.
  Proof.
    revert n. induction xs as [|x xs IH]; intros n; cbn [r_calc_cands]; [cbn; lia|].
    unfold rd_bind, rd_read, rd_lift, rd_err, rd_ret. destruct (py_log num _) as [lw|e]; [|cbn; lia].
    destruct (nth_error route (x - idx)); [|cbn; lia]. specialize (IH (S n)).
    destruct (r_calc_cands num D lt s idx route xs (S n)) as [[cs|e] n1]; cbn [snd length] in *; lia.
  Qed.
  Lemma calc_loop_cost lt s dag m route n :
    Forall (fun L => length L <= M + 1) dag ->
    snd (r_calc_loop num D lt s dag m route n) <= n + m * (M + 1).
  Proof.
    intros F. revert route n. induction m as [|idx IH]; intros route n; cbn [r_calc_loop]; [cbn; lia|].
    destruct (nth_error dag idx) as [xs|] eqn:E; [|cbn; lia]. apply nth_error_In in E.
    rewrite Forall_forall in F. specialize (F xs E). cbn in F. unfold rd_bind, rd_lift.
    pose proof (cands_cost lt s idx route xs n) as C.
    destruct (r_calc_cands num D lt s idx route xs n) as [[cs|e] n1]; cbn [snd] in *; [|lia].
    destruct (py_max (route_gt num) cs) as [r|e]; [|cbn; lia]. specialize (IH (r :: route) n1). lia.
  Qed.
  Lemma calc_cost s dag n :
    Forall (fun L => length L <= M + 1) dag -> snd (r_calc num D s dag n) <= n + 1 + length s * (M + 1).
  Proof.
    intros F. unfold r_calc, rd_bind, rd_read, rd_lift. destruct (py_log num _) as [lt|e]; [|cbn; lia].
    pose proof (calc_loop_cost lt s dag (length s) [(f_zero num, 0)] (S n) F). lia.
  Qed.

  (** ** Generators *)
  Lemma capp_cost {A} (g h : cgen A) a b : ccost g a -> ccost h b -> ccost (capp g h) (a + b).
  Proof.
    intros G K n. unfold capp. specialize (G n). destruct (g n) as [[ws [e|]] n1]; cbn [snd] in *; [lia|].
    specialize (K n1). destruct (h n1) as [x n2]. cbn [snd] in *. lia.
  Qed.
  Lemma pure_cost {A} (g : gen A) b : ccost (cpure g) b.
  Proof. intros n. cbn. lia. Qed.
  Lemma ccons_cost {A} (x : A) g b : ccost g b -> ccost (ccons x g) b.
  Proof. intros G n. unfold ccons. specialize (G n). destruct (g n). exact G. Qed.
  Lemma cfor_cost {A B} (l : list A) (f : A -> cgen B) (c : A -> nat) :
    (forall x, In x l -> ccost (f x) (c x)) -> ccost (cfor l f) (list_sum (map c l)).
  Proof.
    induction l as [|x l IH]; intros F; [apply pure_cost|]. cbn [cfor map list_sum fold_right].
    apply capp_cost; [apply F; left; auto|apply IH; intros; apply F; right; auto].
  Qed.
  Lemma sum_lengths (l : list str) k : list_sum (map (fun x => length x * k) l) = length (concat l) * k.
  Proof. induction l as [|x l IH]; [reflexivity|]. cbn. rewrite app_length. unfold list_sum in *. lia. Qed.
  Lemma count_words (l : list str) : Forall (fun w => w <> []) l -> length l <= length (concat l).
  Proof.
    induction 1 as [|w l N F IH]; cbn; [lia|]. rewrite app_length. destruct w; [congruence|]. cbn. lia.
  Qed.

  Lemma word_cost w : ccost (r_word D w) 1.
  Proof. intros n. cbn. lia. Qed.
  Lemma fs_block_cost blk : ccost (r_fs_block num H D blk) (length blk * 1).
  Proof.
    unfold r_fs_block. destruct (re_matches fs_re_han blk) eqn:E; [|apply pure_cost].
    destruct blk as [|c b]; [discriminate E|].
    destruct (@fs_cut_han_ok num H (c :: b)) as (ls & ws & EW & [P N] & _); [discriminate|]. rewrite EW. cbn [fst snd gof].
    replace (length (c :: b) * 1) with (length (c :: b) + 0) by lia. apply capp_cost; [|apply pure_cost].
    intros n. pose proof (cfor_cost ws (r_word D) (fun _ => 1) (fun x _ => word_cost x) n) as Q.
    pose proof (count_words ws N) as CW. rewrite P in CW.
    assert (SU : list_sum (map (fun _ : str => 1) ws) = length ws).
    { clear. induction ws as [|w ws IH]; [reflexivity|]. cbn in *. unfold list_sum in *. lia. }
    lia.
  Qed.
  Lemma fs_cost buf : ccost (r_fs_cut num H D buf) (length buf).
  Proof.
    unfold r_fs_cut. intros n.
    pose proof (cfor_cost (re_split fs_re_han buf) (r_fs_block num H D) (fun x => length x * 1)
                          (fun x _ => fs_block_cost x) n) as Q.
    rewrite sum_lengths, re_split_concat in Q. lia.
  Qed.
  Lemma buf_cost buf : ccost (match buf with [] => cpure gnil | _ => r_cut_buf num H D buf end) (2 * length buf).
  Proof.
    destruct buf as [|c b]; [apply pure_cost|]. intros n. unfold r_cut_buf.
    destruct (length (c :: b) =? 1); [cbn [snd]; lia|]. destruct (negb _); [|cbn [snd length]; lia].
    pose proof (fs_cost (c :: b) (S n)). cbn [length] in *. lia.
  Qed.
  Lemma loop_cost s route fuel x buf :
    route_fine num D s route -> x <= length s ->
    ccost (r_hmm_loop num H D fuel s route x buf) (2 * (length buf + (length s - x))).
  Proof.
    intros RF. revert x buf. induction fuel as [|fuel IH]; intros x buf L n; cbn [r_hmm_loop]; [cbn; lia|].
    destruct (x <? length s) eqn:E.
    - apply Nat.ltb_lt in E. destruct (RF x E) as [r [-> [HR _]]]. cbv zeta. destruct (snd r + 1 - x =? 1) eqn:E1.
      + pose proof (IH (snd r + 1) (buf ++ slice s x (snd r + 1)) ltac:(lia) n) as Q.
        rewrite app_length, slice_length in Q by lia. lia.
      + pose proof (capp_cost _ _ _ _ (buf_cost buf)
          (ccons_cost (slice s x (snd r + 1)) _ _ (IH (snd r + 1) [] ltac:(lia))) n) as Q.
        cbn [length] in Q. lia.
    - pose proof (buf_cost buf n). lia.
  Qed.

  Lemma block_cost m blk : blk <> [] -> ccost (r_block num H D m blk) (length blk * (3 * M + 6)).
  Proof.
    intros NE n. assert (1 <= length blk) by (destruct blk; [congruence|cbn; lia]).
    unfold r_block, rd_gen. destruct (dag_cost blk n) as [A B].
    destruct (r_get_DAG D blk n) as [[dag|e] n1] eqn:ED; cbn [fst snd] in *; [|nia].
    specialize (B dag eq_refl). pose proof (calc_cost blk dag n1 B) as C. apply r_get_DAG_ok in ED.
    destruct m.
    - cbn [cpure snd]. nia.
    - destruct (r_calc num D blk dag n1) as [[route|e] n2] eqn:EC; cbn [fst snd cpure] in *; [|nia].
      apply r_calc_ok in EC.
      pose proof (loop_cost blk route (S (length blk)) 0 [] (route_is_fine num D _ _ _ ED EC) ltac:(lia) n2) as Q.
      cbn [length] in Q. nia.
    - destruct (r_calc num D blk dag n1) as [[route|e] n2] eqn:EC; cbn [fst snd cpure] in *; nia.
  Qed.

  Lemma cut_cost m s : ccost (r_cut num H D m s) (length s * (3 * M + 6)).
  Proof.
    intros n. unfold r_cut.
    match goal with |- snd (cfor ?l ?f n) <= _ =>
      pose proof (cfor_cost l f (fun x => length x * (3 * M + 6))) as Q end.
    cbv beta in Q. rewrite sum_lengths, re_split_concat in Q. apply Q. intros blk _.
    destruct blk as [|c b]; [apply pure_cost|]. destruct (re_matches re_han_default (c :: b)); [|apply pure_cost].
    apply block_cost. discriminate.
  Qed.
End Cost.

(** In every mode, and whatever the lookups find: if no key of the dictionary is longer
    than [M], cutting [s] reads the shared data at most [|s| * (3 M + 6)] times. *)
Theorem C90_lookups :
  forall num (H : hmm num) (D : nat -> moment) (M : nat) (m : mode) (s : str) (n : nat),
    (forall k w, sget (mo_freq (D k)) w <> None -> length w <= M) ->
    snd (r_cut num H D m s n) <= n + length s * (3 * M + 6).
Proof.
  intros num H D M m s n K. apply cut_cost. intros k w S. apply (K k). rewrite smem_sget in S.
  destruct (sget (mo_freq (D k)) w); [discriminate|discriminate S].
Qed.

Lemma cfor_nonempty {B} (f : str -> cgen B) l n :
  (forall k, f [] k = (gnil, k)) -> cfor l f n = cfor (filter nonempty l) f n.
Proof.
  intros F0. revert n. induction l as [|x l IH]; intros n; [reflexivity|]. cbn [cfor filter].
  destruct x as [|c x]; cbn [nonempty].
  - unfold capp. rewrite F0. cbn. rewrite IH. destruct (cfor _ f n) as [[ws e] n']. reflexivity.
  - cbn [cfor]. unfold capp. destruct (f (c :: x) n) as [[ws [e|]] n1]; [reflexivity|]. now rewrite IH.
Qed.

(** The number cannot be bounded by the length of the text alone: with a dictionary of
    long words it grows with the square. *)
Lemma repeat_slice (c : char) L k i : k <= i -> i < L -> slice (repeat c L) k (i + 1) = repeat c (i + 1 - k).
Proof.
  intros A B. unfold slice. replace L with (k + ((i + 1 - k) + (L - (i + 1)))) at 1 by lia.
  rewrite !repeat_app. rewrite skipn_app, skipn_all2 by (rewrite repeat_length; lia). rewrite repeat_length, Nat.sub_diag.
  cbn [skipn app]. rewrite firstn_app, firstn_all2 by (rewrite repeat_length; lia).
  rewrite repeat_length, Nat.sub_diag. cbn. now rewrite app_nil_r.
Qed.

Definition long_words (L : nat) : freqs := map (fun i => (repeat c_da (S i), 1%Z)) (seq 0 L).
Lemma long_words_get L j : 0 < j <= L -> sget (long_words L) (repeat c_da j) = Some 1%Z.
Proof.
  intros B. unfold long_words. assert (I : In (j - 1) (seq 0 L)) by (apply in_seq; lia). revert I.
  generalize (seq 0 L) as l. induction l as [|x l IH]; intros I; [destruct I|]. cbn [map sget dget].
  unfold sget. cbn [dget].
  destruct (str_eqb (repeat c_da j) (repeat c_da (S x))) eqn:E; [reflexivity|]. apply IH. destruct I as [->|I]; auto. exfalso. replace (S (j - 1)) with j in E by lia.
  rewrite str_eqb_refl in E. discriminate.
Qed.

Section Square.
  Variable L : nat.
  Let D : nat -> moment := fun _ => mkMoment None (long_words L) (Z.of_nat L) [].
  Let s := repeat c_da L.
  Lemma scan_square fuel k i tmp n :
    k <= i -> L - i < fuel -> i <= L ->
    exists t, r_dag_scan D fuel s k i (slice s k (i + 1)) tmp n = (Ok t, n + 2 * (L - i)).
  Proof.
    assert (LS : length s = L) by apply repeat_length.
    revert i tmp n. induction fuel as [|fuel IH]; intros i tmp n A B C; [lia|]. cbn [r_dag_scan]. rewrite LS.
    destruct (i <? L) eqn:E.
    - apply Nat.ltb_lt in E. unfold rd_bind, rd_read, D. cbn [mo_freq]. rewrite smem_sget. unfold s.
      rewrite repeat_slice by auto. rewrite long_words_get by lia. fold s. fold D.
      destruct (IH (i + 1) (if negb (1 =? 0)%Z then tmp ++ [i] else tmp) (S (S n))) as [t ET]; try lia.
      rewrite ET. exists t. f_equal. lia.
    - apply Nat.ltb_ge in E. exists tmp. unfold rd_ret. f_equal. lia.
  Qed.
  Lemma loop_square : forall m k n, k + m = L ->
    exists Ls, r_dag_loop D s (seq k m) n = (Ok Ls, n + m * (m + 1)).
  Proof.
    induction m as [|m IH]; intros k n E; cbn [seq r_dag_loop]; [exists []; unfold rd_ret; f_equal; lia|].
    unfold r_dag_at, rd_bind, rd_ret.
    destruct (scan_square (S (length s)) k k [] n) as [t ->]; try lia; [unfold s; rewrite repeat_length; lia|].
    destruct (IH (S k) (n + 2 * (L - k))) as [Ls ->]; [lia|]. eexists. f_equal. nia.
  Qed.
  Lemma cut_square num (H : hmm num) n : 0 < L -> snd (r_cut num H D Full s n) = n + 1 + L * (L + 1).
  Proof.
    intros P. assert (R : runs is_word_char s = [(true, s)]).
    { unfold s. destruct L as [|l]; [lia|]. clear. induction l as [|l IH]; [reflexivity|].
      change (repeat c_da (S (S l))) with (c_da :: repeat c_da (S l)). cbn [runs]. rewrite IH. reflexivity. }
    unfold r_cut. rewrite cfor_nonempty by reflexivity. unfold re_han_default. rewrite split_runs, R. cbn [map snd cfor].
    rewrite re_matches_plus. assert (SH : exists t, s = c_da :: t).
    { unfold s. destruct L as [|l]; [lia|]. eexists. reflexivity. }
    assert (BL : snd (r_block num H D Full s n) = n + 1 + L * (L + 1) /\ snd (fst (r_block num H D Full s n)) = None).
    { unfold r_block, rd_gen, r_get_DAG, rd_bind, rd_read. replace (mo_check (D n)) with (@None exn) by reflexivity.
      replace (length s) with L by (symmetry; apply repeat_length).
      destruct (loop_square L 0 (S n)) as [Ls ->]; [lia|]. split; [cbn [cpure snd]; lia|reflexivity]. }
    clearbody s. destruct SH as [t ->]. replace (is_word_char c_da) with true by reflexivity. unfold capp.
    destruct (r_block num H D Full (c_da :: t) n) as [[ws e] n1]. cbn [fst snd] in BL. destruct BL as [-> ->]. reflexivity.
  Qed.
End Square.

Theorem C90_linear_refuted :
  forall num (H : hmm num),
    ~ exists c, forall (D : nat -> moment) (m : mode) (s : str) (n : nat),
        snd (r_cut num H D m s n) <= n + length s * c.
Proof.
  intros num H [c A]. specialize (A (fun _ => mkMoment None (long_words (S c)) (Z.of_nat (S c)) []) Full (repeat c_da (S c)) 0).
  rewrite cut_square, repeat_length in A by lia. nia.
Qed.

(** 来到北京大学, with the HMM; the words of the dictionary have at most four characters *)
Definition cost_s : str := [c_lai; c_dao; c_bei; c_jing; c_da; c_xue].
Definition cost_D (n : nat) : moment := mkMoment None (d_freq demo) (d_total demo) (d_force demo).
Example C90_nonvacuous :
  (forall k w, sget (mo_freq (cost_D k)) w <> None -> length w <= 4) /\
  r_cut numQ demo_hmm cost_D WithHMM cost_s 0 = (gof [[c_lai; c_dao]; [c_bei; c_jing; c_da; c_xue]], 32).
Proof.
  split.
  - intros k w N. cbn [cost_D mo_freq] in N. destruct (sget (d_freq demo) w) as [z|] eqn:E; [|congruence].
    apply sget_In in E. assert (F : forallb (fun kv => length (fst kv) <=? 4) (d_freq demo) = true) by reflexivity.
    rewrite forallb_forall in F. specialize (F _ E). apply Nat.leb_le in F. exact F.
  - vm_compute. reflexivity.
Qed.

Print Assumptions C90_lookups.
Print Assumptions C90_linear_refuted.
