(** * C128: cut_for_search in one thread while other threads change the tokenizer *)
From Coq Require Import Lia.
From Verif Require Import PyBase PyRegex PyNum InstQ ModelFinalseg ModelSeg ModelTimed ModelRace ModelSearchRace SpecBase SpecSeg Demo
  ProofsBase ProofsRegex ProofsSplit ProofsDag ProofsFinalseg ProofsSeg ProofsRace ProofsDemo PropsRace PropsSearchTimed.

(** ** What is given out for the words [ws] *)

(** of the parts in [cs] those are given out that are words of the dictionary at their own
    read; the parts are looked up one after another, beginning with read [k] *)
Inductive looked_up (D : nat -> moment) : nat -> list str -> list str -> Prop :=
| looked_end k : looked_up D k [] []
| looked_yes k g cs out : is_word (sget (mo_freq (D k))) g -> looked_up D (S k) cs out ->
    looked_up D k (g :: cs) (g :: out)
| looked_no k g cs out : ~ is_word (sget (mo_freq (D k))) g -> looked_up D (S k) cs out ->
    looked_up D k (g :: cs) out.

(** what is given out for one word whose turn begins at read [k] and ends before read [k'] *)
Definition for_word (D : nat -> moment) (k k' : nat) (w : str) (out : list str) : Prop :=
  exists g2 g3, out = g2 ++ g3 ++ [w] /\
    looked_up D k (map fst (parts 2 w)) g2 /\
    looked_up D (k + length (parts 2 w)) (map fst (parts 3 w)) g3 /\
    k' = k + length (parts 2 w) + length (parts 3 w).

(** [scheduled D f len c n tws out n']: [tws] has the words of [cut], each with the number of
    reads that [cut] has made before it, [len] is the number of all of them and read [i] of
    [cut] is read [f i] of the call; [c] reads of [cut] and [n] reads of the call have been
    made.  Then [cut] makes its reads directly one after another until the next word, the
    parts of this word are looked up before [cut] goes on, and so on; [out] is given out. *)
Inductive scheduled (D : nat -> moment) (f : nat -> nat) (len : nat)
  : nat -> nat -> list (str * nat) -> list str -> nat -> Prop :=
| scheduled_end c n : c <= len -> (forall i, c <= i < len -> f i = n + (i - c)) ->
    scheduled D f len c n [] [] (n + (len - c))
| scheduled_word c n w c' k' tws o out n' :
    c <= c' -> (forall i, c <= i < c' -> f i = n + (i - c)) ->
    for_word D (n + (c' - c)) k' w o -> scheduled D f len c' k' tws out n' ->
    scheduled D f len c n ((w, c') :: tws) (o ++ out) n'.

Lemma for_word_le D k k' w o : for_word D k k' w o -> k <= k'.
Proof. intros (g2 & g3 & _ & _ & _ & ->). lia. Qed.
Lemma sched_len D f len c n tws out n' : scheduled D f len c n tws out n' -> c <= len.
Proof. induction 1; lia. Qed.
Lemma sched_ext D f f' len c n tws out n' :
  (forall i, c <= i < len -> f' i = f i) -> scheduled D f len c n tws out n' -> scheduled D f' len c n tws out n'.
Proof.
  intros E S. induction S as [c n L F|c n w c' k' tws o out n' L F W S IH].
  - constructor; auto. intros i I. rewrite E; auto.
  - pose proof (sched_len _ _ _ _ _ _ _ _ S). econstructor; eauto.
    + intros i I. rewrite E by lia. auto.
    + apply IH. intros i I. apply E. lia.
Qed.
(** reads of [cut] before *)
Lemma sched_reads D f len c0 n0 c tws out n' :
  c0 <= c -> (forall i, c0 <= i < c -> f i = n0 + (i - c0)) ->
  scheduled D f len c (n0 + (c - c0)) tws out n' -> scheduled D f len c0 n0 tws out n'.
Proof.
  intros L F S. remember (n0 + (c - c0)) as n eqn:EN. destruct S as [c n L' F'|c n w c' k' tws o out n' L' F' W S]; subst n.
  - replace (n0 + (c - c0) + (len - c)) with (n0 + (len - c0)) by lia. constructor; [lia|].
    intros i I. destruct (Nat.lt_ge_cases i c); [apply F; lia|]. rewrite F' by lia. lia.
  - econstructor; [lia| | |exact S].
    + intros i I. destruct (Nat.lt_ge_cases i c); [apply F; lia|]. rewrite F' by lia. lia.
    + replace (n0 + (c' - c0)) with (n0 + (c - c0) + (c' - c)) by lia. exact W.
Qed.
Lemma sched_app D f l1 l2 c n tws out n1 tws' out' n2 :
  scheduled D f l1 c n tws out n1 -> scheduled D f l2 l1 n1 tws' out' n2 ->
  scheduled D f l2 c n (tws ++ tws') (out ++ out') n2.
Proof.
  intros S. induction S as [c n L F|c n w c' k' tws o out n' L F W S IH]; intros S'; cbn.
  - eapply sched_reads; eauto.
  - rewrite <- app_assoc. econstructor; eauto.
Qed.
Lemma sched_first D f len c n tws out n' :
  scheduled D f len c n tws out n' -> n <= n' /\ forall i, c <= i < len -> n <= f i < n' /\ (S i < len -> f i <= f (S i)).
Proof.
  induction 1 as [c n L F|c n w c' k' tws o out n' L F W SC [IH1 IH2]].
  - split; [lia|]. intros i I. rewrite (F i I). split; [lia|]. intros I'. rewrite F by lia. lia.
  - apply for_word_le in W. split; [lia|]. intros i I. destruct (Nat.lt_ge_cases i c') as [LT|GE].
    + rewrite F by lia. split; [lia|]. intros I'. destruct (Nat.eq_dec (S i) c') as [EQ|NE].
      * destruct (IH2 (S i)) as [X _]; [lia|]. lia.
      * rewrite F by lia. lia.
    + destruct (IH2 i) as [X Y]; [lia|]. split; [lia|exact Y].
Qed.

(** ** Computations that read depend only on what the reads find *)
Definition shift {A} (a : (nat -> moment) -> rd A) : Prop :=
  forall D n, exists len, snd (a D n) = n + len /\
    forall D' k, (forall i, i < len -> D' (k + i) = D (n + i)) -> a D' k = (fst (a D n), k + len).

Lemma shift_lift {A} (r : res A) : shift (fun _ => rd_lift r).
Proof. intros D n. exists 0. split; [cbn; lia|]. intros D' k _. unfold rd_lift. cbn. now rewrite Nat.add_0_r. Qed.
Lemma shift_read {A} (f : moment -> A) : shift (fun D => rd_read D f).
Proof.
  intros D n. exists 1. split; [cbn; lia|]. intros D' k E. unfold rd_read. cbn.
  rewrite <- (Nat.add_0_r k) at 1. rewrite (E 0) by lia. rewrite !Nat.add_0_r, Nat.add_1_r. reflexivity.
Qed.
Lemma shift_bind {A B} (a : (nat -> moment) -> rd A) (f : A -> (nat -> moment) -> rd B) :
  shift a -> (forall x, shift (f x)) -> shift (fun D => rd_bind (a D) (fun x => f x D)).
Proof.
  intros SA SF D n. destruct (SA D n) as [l1 [E1 S1]]. unfold rd_bind.
  destruct (a D n) as [[x|e] n1] eqn:EA; cbn [fst snd] in *; subst n1.
  - destruct (SF x D (n + l1)) as [l2 [E2 S2]]. exists (l1 + l2). split; [lia|]. intros D' k E.
    rewrite S1 by (intros i I; apply E; lia). rewrite S2; [f_equal; lia|].
    intros i I. rewrite <- !Nat.add_assoc. apply E. lia.
  - exists l1. split; [auto|]. intros D' k E. now rewrite S1.
Qed.

Lemma shift_scan fuel s k i frag tmp : shift (fun D => r_dag_scan D fuel s k i frag tmp).
Proof.
  revert i frag tmp. induction fuel as [|fuel IH]; intros i frag tmp; cbn [r_dag_scan]; [apply (shift_lift (Ok tmp))|].
  destruct (i <? length s); [|apply (shift_lift (Ok tmp))].
  apply (shift_bind (fun D => rd_read D (fun d => smem (mo_freq d) frag))
    (fun there D => if there then _ else _)); [apply shift_read|].
  intros []; [|apply (shift_lift (Ok tmp))].
  apply (shift_bind (fun D => rd_read D (fun d => sget (mo_freq d) frag))
    (fun v D => match v with None => _ | Some z => r_dag_scan D fuel s k (i + 1) (slice s k (i + 1 + 1)) (if negb (z =? 0)%Z then tmp ++ [i] else tmp) end));
    [apply shift_read|].
  intros [z|]; [apply IH|apply (shift_lift (Err KeyError))].
Qed.
Lemma shift_loop s ks : shift (fun D => r_dag_loop D s ks).
Proof.
  induction ks as [|k ks IH]; cbn [r_dag_loop]; [apply (shift_lift (Ok []))|].
  apply (shift_bind (fun D => r_dag_at D s k) (fun L D => rd_bind (r_dag_loop D s ks) (fun Ls => rd_ret (L :: Ls)))).
  - unfold r_dag_at. apply (shift_bind (fun D => r_dag_scan D (S (length s)) s k k (slice s k (k + 1)) [])
      (fun t _ => rd_ret (match t with [] => [k] | _ => t end))); [apply shift_scan|]. intros t. apply (shift_lift (Ok _)).
  - intros L. apply (shift_bind (fun D => r_dag_loop D s ks) (fun Ls _ => rd_ret (L :: Ls))); [exact IH|].
    intros Ls. apply (shift_lift (Ok _)).
Qed.
Lemma shift_DAG s : shift (fun D => r_get_DAG D s).
Proof.
  unfold r_get_DAG. apply (shift_bind (fun D => rd_read D mo_check)
    (fun c D => match c with Some x => rd_err x | None => r_dag_loop D s (seq 0 (length s)) end)); [apply shift_read|].
  intros [x|]; [apply (shift_lift (Err x))|apply shift_loop].
Qed.
Lemma shift_cands num lt s idx route xs : shift (fun D => r_calc_cands num D lt s idx route xs).
Proof.
  induction xs as [|x xs IH]; cbn [r_calc_cands]; [apply (shift_lift (Ok []))|].
  apply (shift_bind (fun D => rd_read D (fun d => freq_or1 (mo_freq d) (slice s idx (x + 1))))
    (fun z D => rd_bind (rd_lift (py_log num z)) (fun lw => match nth_error route (x - idx) with
       | None => rd_err KeyError
       | Some r => rd_bind (r_calc_cands num D lt s idx route xs)
                     (fun cs => rd_ret ((f_add num (f_sub num lw lt) (fst r), x) :: cs)) end))); [apply shift_read|].
  intros z. apply (shift_bind (fun _ => rd_lift (py_log num z)) (fun lw D => match nth_error route (x - idx) with
       | None => rd_err KeyError
       | Some r => rd_bind (r_calc_cands num D lt s idx route xs)
                     (fun cs => rd_ret ((f_add num (f_sub num lw lt) (fst r), x) :: cs)) end)); [apply shift_lift|].
  intros lw. destruct (nth_error route (x - idx)) as [r|]; [|apply (shift_lift (Err KeyError))].
  apply (shift_bind (fun D => r_calc_cands num D lt s idx route xs)
    (fun cs _ => rd_ret ((f_add num (f_sub num lw lt) (fst r), x) :: cs))); [exact IH|]. intros cs. apply (shift_lift (Ok _)).
Qed.
Lemma shift_calc num s dag : shift (fun D => r_calc num D s dag).
Proof.
  unfold r_calc. apply (shift_bind (fun D => rd_read D mo_total)
    (fun total D => rd_bind (rd_lift (py_log num total)) (fun lt => r_calc_loop num D lt s dag (length s) [(f_zero num, 0)])));
    [apply shift_read|].
  intros total. apply (shift_bind (fun _ => rd_lift (py_log num total))
    (fun lt D => r_calc_loop num D lt s dag (length s) [(f_zero num, 0)])); [apply shift_lift|].
  intros lt. generalize (length s) at 1, [(f_zero num, 0)]. intros m.
  induction m as [|idx IH]; intros route; cbn [r_calc_loop]; [apply (shift_lift (Ok route))|].
  destruct (nth_error dag idx) as [xs|]; [|apply (shift_lift (Err KeyError))].
  apply (shift_bind (fun D => r_calc_cands num D lt s idx route xs)
    (fun cs D => rd_bind (rd_lift (py_max (route_gt num) cs)) (fun r => r_calc_loop num D lt s dag idx (r :: route))));
    [apply shift_cands|].
  intros cs. apply (shift_bind (fun _ => rd_lift (py_max (route_gt num) cs))
    (fun r D => r_calc_loop num D lt s dag idx (r :: route))); [apply shift_lift|]. intros r. apply IH.
Qed.

(** ** The generator of [cut] with the number of its reads noted at each word *)
Definition stamp (w : str) : cgen (str * nat) := fun n => (gone (w, n), n).
Definition stamped (num : Num) (H : hmm num) (D : nat -> moment) (m : mode) (s : str) : cgen (str * nat) :=
  e_cut num H D (str * nat) stamp m s.

Section Stamp.
  Variable num : Num.
  Variable H : hmm num.
  Variable D : nat -> moment.
  Definition unst (G : cgen (str * nat)) (R : cgen str) : Prop :=
    forall n, R n = ((map fst (fst (fst (G n))), snd (fst (G n))), snd (G n)).
  Lemma unst_end e : unst (cpure ([], e)) (cpure ([], e)).
  Proof. intros n. reflexivity. Qed.
  Lemma unst_emit w : unst (stamp w) (cpure (gone w)).
  Proof. intros n. reflexivity. Qed.
  Lemma unst_app G1 G2 R1 R2 : unst G1 R1 -> unst G2 R2 -> unst (capp G1 G2) (capp R1 R2).
  Proof.
    intros U1 U2 n. unfold capp. rewrite U1. destruct (G1 n) as [[ws [e|]] n1]; cbn [fst snd]; [reflexivity|].
    rewrite U2. destruct (G2 n1) as [[ws2 e2] n2]. cbn [fst snd]. now rewrite map_app.
  Qed.
  Lemma unst_for {A} (l : list A) f g : (forall x, unst (f x) (g x)) -> unst (cfor l f) (cfor l g).
  Proof. intros U. induction l as [|x l IH]; cbn [cfor]; [apply (unst_end None)|]. now apply unst_app. Qed.
  Lemma unst_list g : unst (e_list (str * nat) stamp g) (cpure g).
  Proof.
    destruct g as [ws e]. unfold e_list. cbn [fst snd]. intros n. unfold capp, cpure.
    assert (X : forall n, cfor ws stamp n = (gof (map (fun w => (w, n)) ws), n)).
    { induction ws as [|w ws IH]; intros k; [reflexivity|]. cbn [cfor]. unfold capp, stamp at 1. cbn. rewrite IH. reflexivity. }
    rewrite X. cbn. rewrite app_nil_r, map_map. cbn. now rewrite map_id.
  Qed.
  Lemma unst_rd {A} (a : rd A) G R : (forall x, unst (G x) (R x)) -> unst (rd_gen a G) (rd_gen a R).
  Proof. intros U n. unfold rd_gen. destruct (a n) as [[x|e] n1]; [apply U|reflexivity]. Qed.
  Lemma unst_flush buf :
    unst (match buf with [] => cpure gnil | _ => e_cut_buf num H D (str * nat) stamp buf end)
         (match buf with [] => cpure gnil | _ => r_cut_buf num H D buf end).
  Proof.
    destruct buf as [|c buf]; [apply (unst_end None)|]. generalize (c :: buf). clear. intros buf n.
    unfold e_cut_buf, r_cut_buf. destruct (length buf =? 1); [reflexivity|].
    destruct (negb _); [|apply unst_list]. unfold r_fs_cut, e_fs_cut. apply unst_for. intros blk.
    unfold e_fs_block, r_fs_block. destruct (re_matches _ _); [|apply unst_list].
    apply unst_app; [|apply unst_end]. apply unst_for. intros w k. unfold e_word, r_word.
    destruct (negb _); [reflexivity|]. rewrite <- (unst_list (gof (map (fun c => [c]) w)) (S k)). reflexivity.
  Qed.
  Lemma unst_hmm fuel s route x buf :
    unst (e_hmm_loop num H D (str * nat) stamp fuel s route x buf) (r_hmm_loop num H D fuel s route x buf).
  Proof.
    revert x buf. induction fuel as [|fuel IH]; intros x buf; cbn [e_hmm_loop r_hmm_loop]; [apply (unst_end (Some OutOfFuel))|].
    destruct (x <? length s); [|apply unst_flush].
    destruct (nth_error route x) as [r|]; [|apply (unst_end (Some KeyError))].
    cbv zeta. destruct (_ =? 1); [apply IH|]. apply unst_app; [apply unst_flush|].
    intros n. pose proof (IH (snd r + 1) [] n) as E. unfold ccons, capp. rewrite E. change (stamp (slice s x (snd r + 1)) n) with (gone (slice s x (snd r + 1), n), n). cbn [gone gof].
    destruct (e_hmm_loop num H D (str * nat) stamp fuel s route (snd r + 1) [] n) as [[a b] c]. reflexivity.
  Qed.
  Lemma unst_cut m s : unst (stamped num H D m s) (r_cut num H D m s).
  Proof.
    unfold stamped, e_cut, r_cut. apply unst_for. intros [|c blk]; [apply (unst_end None)|].
    destruct (re_matches _ _); [|apply unst_list]. unfold e_block, r_block. apply unst_rd. intros dag.
    destruct m; [apply unst_list| |]; apply unst_rd; intros route; [apply unst_hmm|apply unst_list].
  Qed.
End Stamp.

(** ** The body of the loop *)
Lemma freq_true_word fr g : freq_true fr g = true <-> is_word (sget fr) g.
Proof.
  unfold freq_true, is_word. destruct (sget fr g) as [z|].
  - destruct (z =? 0)%Z eqn:E; cbn.
    + apply Z.eqb_eq in E. subst. split; [discriminate|]. intros [y [Q N]]. inversion Q; subst. now elim N.
    + apply Z.eqb_neq in E. split; eauto.
  - split; [discriminate|]. intros [y [Q _]]. discriminate.
Qed.

Lemma grams_looked_up D w n l k :
  exists out, cfor l (fun i k => ((if freq_true (mo_freq (D k)) (slice w i (i + n)) then gone (slice w i (i + n)) else gnil), S k)) k
              = (gof out, k + length l) /\ looked_up D k (map (fun i => sub w i n) l) out.
Proof.
  revert k. induction l as [|i l IH]; intros k.
  - exists []. split; [cbn; now rewrite Nat.add_0_r|constructor].
  - destruct (IH (S k)) as [out [E L]]. cbn [cfor map length]. unfold capp. rewrite slice_sub.
    destruct (freq_true (mo_freq (D k)) (sub w i n)) eqn:F; cbn [gone gnil gof]; rewrite E; cbn [fst snd gof];
      rewrite Nat.add_succ_r.
    + exists (sub w i n :: out). split; [reflexivity|]. apply looked_yes; auto. now apply freq_true_word.
    + exists out. split; [reflexivity|]. apply looked_no; auto. intros Q. apply freq_true_word in Q. congruence.
Qed.

Lemma r_grams_looked_up D n w k : 1 <= n ->
  exists out, r_grams D n w k = (gof out, k + length (parts n w)) /\ looked_up D k (map fst (parts n w)) out.
Proof.
  intros N. unfold r_grams, parts. destruct (n <? length w) eqn:E.
  - apply Nat.ltb_lt in E. replace (length w - (n - 1)) with (length w - n + 1) by lia.
    destruct (grams_looked_up D w n (seq 0 (length w - n + 1)) k) as [out [EQ L]].
    exists out. rewrite map_length, map_map. cbn [fst]. split; [exact EQ|exact L].
  - exists []. cbn. rewrite Nat.add_0_r. split; [reflexivity|constructor].
Qed.

Lemma body_for_word D w n :
  exists o n', r_search_body D w n = (gof o, n') /\ n <= n' /\ for_word D n n' w o.
Proof.
  unfold r_search_body. destruct (r_grams_looked_up D 2 w n) as [g2 [E2 L2]]; [lia|].
  destruct (r_grams_looked_up D 3 w (n + length (parts 2 w))) as [g3 [E3 L3]]; [lia|].
  exists (g2 ++ g3 ++ [w]), (n + length (parts 2 w) + length (parts 3 w)). split.
  - unfold capp. rewrite E2. cbn [gof]. rewrite E3. reflexivity.
  - split; [lia|]. exists g2, g3. auto.
Qed.

(** ** The call does what [cut] does at those reads that are those of [cut] *)
Section Sim.
  Variable num : Num.
  Variable H : hmm num.
  Variable D : nat -> moment.
  Let emit := r_search_body D.

  Definition sim (G : cgen str) (R : (nat -> moment) -> cgen (str * nat)) : Prop :=
    forall n k, exists f len tws out e n', G n = ((out, e), n') /\ k <= len /\ scheduled D f len k n tws out n' /\
      forall D', (forall i, k <= i < len -> D' i = D (f i)) -> R D' k = ((tws, e), len).

  Lemma sim_end e : sim (cpure ([], e)) (fun _ => cpure ([], e)).
  Proof.
    intros n k. exists (fun _ => 0), k, [], [], e, (n + (k - k)). split; [unfold cpure; f_equal; lia|].
    split; [auto|]. split; [constructor; auto; lia|]. reflexivity.
  Qed.
  Lemma sim_emit w : sim (emit w) (fun _ => stamp w).
  Proof.
    intros n k. destruct (body_for_word D w n) as (o & n' & E & L & W).
    exists (fun _ => 0), k, [(w, k)], o, None, (n' + (k - k)). split; [unfold emit; rewrite E; f_equal; lia|]. split; [auto|].
    split; [|reflexivity]. rewrite <- (app_nil_r o). econstructor; [apply le_n|lia| |constructor; auto; lia].
    replace (n + (k - k)) with n by lia. exact W.
  Qed.
  Lemma sim_app G1 G2 R1 R2 : sim G1 R1 -> sim G2 R2 -> sim (capp G1 G2) (fun D' => capp (R1 D') (R2 D')).
  Proof.
    intros S1 S2 n k. destruct (S1 n k) as (f & l & ws & out & e & n1 & A & L & B & F). unfold capp. rewrite A.
    destruct e as [x|].
    - exists f, l, ws, out, (Some x), n1. repeat (split; auto). intros D' Q. now rewrite F.
    - destruct (S2 n1 l) as (f2 & l2 & ws2 & out2 & e2 & n2 & A2 & L2 & B2 & F2). rewrite A2. cbn [fst snd].
      set (h i := if i <? l then f i else f2 i).
      assert (H1 : forall i, i < l -> h i = f i).
      { intros i I. unfold h. apply Nat.ltb_lt in I. now rewrite I. }
      assert (H2 : forall i, l <= i -> h i = f2 i).
      { intros i I. unfold h. apply Nat.ltb_ge in I. now rewrite I. }
      exists h, l2, (ws ++ ws2), (out ++ out2), e2, n2. split; [reflexivity|]. split; [lia|]. split.
      + eapply sched_app; (eapply sched_ext; [|eassumption]); intros i I; [apply H1|apply H2]; lia.
      + intros D' Q. rewrite F by (intros i I; rewrite <- H1 by lia; apply Q; lia).
        rewrite F2 by (intros i I; rewrite <- H2 by lia; apply Q; lia). reflexivity.
  Qed.
  Lemma sim_for {A} (l : list A) (f : A -> cgen str) (g : A -> (nat -> moment) -> cgen (str * nat)) :
    (forall x, sim (f x) (g x)) -> sim (cfor l f) (fun D' => cfor l (fun x => g x D')).
  Proof.
    intros S. induction l as [|x l IH]; cbn [cfor]; [apply (sim_end None)|].
    apply (sim_app (f x) (cfor l f) (g x) (fun D' => cfor l (fun x => g x D'))); auto.
  Qed.
  Lemma sim_list g : sim (e_list str emit g) (fun _ => e_list (str * nat) stamp g).
  Proof.
    unfold e_list. apply (sim_app (cfor (fst g) emit) (cpure ([], snd g)) (fun _ => cfor (fst g) stamp) (fun _ => cpure ([], snd g)));
      [|apply sim_end]. apply (sim_for (fst g) emit (fun w _ => stamp w)). apply sim_emit.
  Qed.
  Lemma sim_rd {A} (a : (nat -> moment) -> rd A) (G : A -> cgen str) (R : A -> (nat -> moment) -> cgen (str * nat)) :
    shift a -> (forall x, sim (G x) (R x)) -> sim (rd_gen (a D) G) (fun D' => rd_gen (a D') (fun x => R x D')).
  Proof.
    intros SA SG n k. destruct (SA D n) as (len & EL & SH). unfold rd_gen.
    destruct (a D n) as [[x|e] n1]; cbn [fst snd] in *; subst n1.
    - destruct (SG x (n + len) (k + len)) as (f & l & ws & out & e & n' & X & L & B & F).
      set (h i := if i <? k + len then n + (i - k) else f i).
      assert (H1 : forall i, i < k + len -> h i = n + (i - k)).
      { intros i I. unfold h. apply Nat.ltb_lt in I. now rewrite I. }
      assert (H2 : forall i, k + len <= i -> h i = f i).
      { intros i I. unfold h. apply Nat.ltb_ge in I. now rewrite I. }
      exists h, l, ws, out, e, n'. split; [exact X|]. split; [lia|]. split.
      + apply (sched_reads D h l k n (k + len)); [lia|intros i I; apply H1; lia|].
        replace (n + (k + len - k)) with (n + len) by lia. eapply sched_ext; [|exact B]. intros i I. apply H2. lia.
      + intros D' Q. rewrite (SH D' k).
        * apply F. intros i I. rewrite <- H2 by lia. apply Q. lia.
        * intros i I. rewrite Q by lia. rewrite H1 by lia. f_equal. lia.
    - exists (fun i => n + (i - k)), (k + len), [], [], (Some e), (n + (k + len - k)). split; [unfold gerr; f_equal; lia|].
      split; [lia|]. split; [constructor; auto; lia|]. intros D' Q. rewrite (SH D' k); [reflexivity|].
      intros i I. rewrite Q by lia. f_equal. lia.
  Qed.
  Lemma sim_test (p : moment -> bool) G1 G2 R1 R2 :
    sim G1 R1 -> sim G2 R2 ->
    sim (fun n => if p (D n) then G1 (S n) else G2 (S n)) (fun D' n => if p (D' n) then R1 D' (S n) else R2 D' (S n)).
  Proof.
    intros S1 S2 n k.
    destruct (sim_rd (fun D => rd_read D p) (fun b : bool => if b then G1 else G2) (fun b : bool => if b then R1 else R2)
                (shift_read p) ltac:(intros []; assumption) n k) as (f & l & ws & out & e & n' & A & L & B & F).
    exists f, l, ws, out, e, n'. split; [rewrite <- A; unfold rd_gen, rd_read; now destruct (p (D n))|].
    split; [exact L|]. split; [exact B|]. intros D' Q. rewrite <- (F D' Q). unfold rd_gen, rd_read. now destruct (p (D' k)).
  Qed.

  Lemma sim_fs_cut buf : sim (e_fs_cut num H D str emit buf) (fun D' => e_fs_cut num H D' (str * nat) stamp buf).
  Proof.
    apply (sim_for _ (e_fs_block num H D str emit) (fun blk D' => e_fs_block num H D' (str * nat) stamp blk)). intros blk.
    unfold e_fs_block. destruct (re_matches _ _); [|apply sim_list].
    apply (sim_app _ _ (fun D' => cfor (fst (fs_cut_han H blk)) (e_word D' (str * nat) stamp)) (fun _ => cpure ([], snd (fs_cut_han H blk))));
      [|apply sim_end].
    apply (sim_for _ (e_word D str emit) (fun w D' => e_word D' (str * nat) stamp w)). intros w. unfold e_word.
    apply (sim_test (fun d => negb (str_in w (mo_force d))) (emit w) (e_list str emit (gof (map (fun c => [c]) w)))
      (fun _ => stamp w) (fun _ => e_list (str * nat) stamp (gof (map (fun c => [c]) w)))); [apply sim_emit|apply sim_list].
  Qed.
  Lemma sim_flush buf :
    sim (match buf with [] => cpure gnil | _ => e_cut_buf num H D str emit buf end)
        (fun D' => match buf with [] => cpure gnil | _ => e_cut_buf num H D' (str * nat) stamp buf end).
  Proof.
    destruct buf as [|c buf]; [apply (sim_end None)|]. generalize (c :: buf). clear buf. intros buf.
    unfold e_cut_buf. destruct (length buf =? 1); [apply (sim_emit buf)|].
    apply (sim_test (fun d => negb (freq_true (mo_freq d) buf)) (e_fs_cut num H D str emit buf)
      (e_list str emit (gof (map (fun c => [c]) buf)))
      (fun D' => e_fs_cut num H D' (str * nat) stamp buf) (fun _ => e_list (str * nat) stamp (gof (map (fun c => [c]) buf))));
      [apply sim_fs_cut|apply sim_list].
  Qed.
  Lemma sim_hmm_loop fuel s route x buf :
    sim (e_hmm_loop num H D str emit fuel s route x buf) (fun D' => e_hmm_loop num H D' (str * nat) stamp fuel s route x buf).
  Proof.
    revert x buf. induction fuel as [|fuel IH]; intros x buf; cbn [e_hmm_loop]; [apply (sim_end (Some OutOfFuel))|].
    destruct (x <? length s); [|apply sim_flush].
    destruct (nth_error route x) as [r|]; [|apply (sim_end (Some KeyError))].
    cbv zeta. destruct (_ =? 1); [apply IH|].
    apply (sim_app _ _ (fun D' => match buf with [] => cpure gnil | _ => e_cut_buf num H D' (str * nat) stamp buf end)
      (fun D' => capp (stamp (slice s x (snd r + 1))) (e_hmm_loop num H D' (str * nat) stamp fuel s route (snd r + 1) [])));
      [apply sim_flush|].
    apply (sim_app _ _ (fun _ => stamp (slice s x (snd r + 1))) (fun D' => e_hmm_loop num H D' (str * nat) stamp fuel s route (snd r + 1) []));
      [apply sim_emit|apply IH].
  Qed.
  Lemma sim_block m blk : sim (e_block num H D str emit m blk) (fun D' => e_block num H D' (str * nat) stamp m blk).
  Proof.
    unfold e_block.
    apply (sim_rd (fun D => r_get_DAG D blk) _ (fun dag D' =>
      match m with
      | Full => e_list (str * nat) stamp (gof (cut_all_loop blk 0 dag (-1) false []))
      | NoHMM => rd_gen (r_calc num D' blk dag) (fun route => e_list (str * nat) stamp (cut_nohmm_loop num (S (length blk)) blk route 0 []))
      | WithHMM => rd_gen (r_calc num D' blk dag) (fun route => e_hmm_loop num H D' (str * nat) stamp (S (length blk)) blk route 0 [])
      end)); [apply shift_DAG|].
    intros dag. destruct m; [apply sim_list| |].
    - apply (sim_rd (fun D => r_calc num D blk dag) _ (fun route D' => e_hmm_loop num H D' (str * nat) stamp (S (length blk)) blk route 0 []));
        [apply shift_calc|]. intros route. apply sim_hmm_loop.
    - apply (sim_rd (fun D => r_calc num D blk dag) _ (fun route _ => e_list (str * nat) stamp (cut_nohmm_loop num (S (length blk)) blk route 0 [])));
        [apply shift_calc|]. intros route. apply sim_list.
  Qed.
  Lemma sim_cut m s : sim (e_cut num H D str emit m s) (fun D' => stamped num H D' m s).
  Proof.
    unfold stamped, e_cut. apply (sim_for _ _ (fun blk D' =>
      match blk with
      | [] => cpure gnil
      | _ => if re_matches re_han_default blk then e_block num H D' (str * nat) stamp m blk
             else e_list (str * nat) stamp (cut_other (is_full m) blk)
      end)).
    intros [|c blk]; [apply (sim_end None)|]. destruct (re_matches _ _); [apply sim_block|apply sim_list].
  Qed.
End Sim.

(** ** C128 *)

(** [stamped] is [cut] of ModelRace, with the number of its reads noted at each word. *)
Theorem C128_stamped_is_cut :
  forall num (H : hmm num) (D : nat -> moment) (m : mode) (s : str) (n : nat),
    let g := stamped num H D m s n in
    r_cut num H D m s n = ((map fst (fst (fst g)), snd (fst g)), snd g).
Proof. intros num H D m s n. apply unst_cut. Qed.

(** Whatever every single read finds: the words are those of [cut] when its read [i] is read
    [f i] of the call, and [cut] is interrupted just after each word, where the pairs and the
    triples of its characters are looked up, each with one read; those that are there are given
    out, and then the word. *)
Theorem C128_search :
  forall num (H : hmm num) (D : nat -> moment) (HMM : bool) (s : str) (n : nat),
    let r := r_cut_for_search num H D HMM s n in
    exists (tws : list (str * nat)) (f : nat -> nat) (len : nat),
      scheduled D f len 0 n tws (fst (fst r)) (snd r) /\
      (forall i, f i <= f (S i)) /\
      stamped num H (fun i => D (f i)) (mode_of false HMM) s 0 = ((tws, snd (fst r)), len).
Proof.
  intros num H D HMM s n r.
  destruct (sim_cut num H D (mode_of false HMM) s n 0) as (f & len & tws & out & e & n' & E & L & B & F).
  assert (ER : r = ((out, e), n')) by exact E. rewrite ER. cbn [fst snd].
  set (h i := if i <? len then f i else n').
  assert (H1 : forall i, i < len -> h i = f i).
  { intros i I. unfold h. apply Nat.ltb_lt in I. now rewrite I. }
  exists tws, h, len. split; [|split].
  - eapply sched_ext; [|exact B]. intros i I. apply H1. lia.
  - intros i. unfold h. destruct (sched_first _ _ _ _ _ _ _ _ B) as [_ X].
    destruct (i <? len) eqn:A, (S i <? len) eqn:C; try lia;
      rewrite ?Nat.ltb_lt, ?Nat.ltb_ge in *; try (destruct (X i) as [Y Z]; lia); lia.
  - apply F. intros i I. rewrite H1 by lia. reflexivity.
Qed.

(** what is given out for each word *)
Inductive turns (D : nat -> moment) : list str -> list str -> Prop :=
| turns_end : turns D [] []
| turns_word k k' w ws o out : for_word D k k' w o -> turns D ws out -> turns D (w :: ws) (o ++ out).
Lemma sched_turns D f len c n tws out n' : scheduled D f len c n tws out n' -> turns D (map fst tws) out.
Proof. induction 1; cbn; econstructor; eauto. Qed.

(** The words around which the parts are given out are not empty, and joined they are the
    text, or the beginning of it if there is an exception. *)
Theorem C128_lossless :
  forall num (H : hmm num) (D : nat -> moment) (HMM : bool) (s : str) (n : nat),
    let r := r_cut_for_search num H D HMM s n in
    exists ws : list str,
      turns D ws (fst (fst r)) /\
      ~ In [] ws /\ prefix_of (concat ws) s /\ (snd (fst r) = None -> concat ws = s).
Proof.
  intros num H D HMM s n r. destruct (C128_search num H D HMM s n) as (tws & f & len & S & _ & C). fold r in S, C.
  exists (map fst tws). split; [eapply sched_turns; eauto|].
  pose proof (C85_lossless num H (fun i => D (f i)) HMM s 0) as L. cbv zeta in L.
  rewrite C128_stamped_is_cut in L. rewrite C in L. exact L.
Qed.

(** If the total is positive and no frequency negative at every read, and no key is lost
    from one read to the next, then there is no exception. *)
Theorem C128_no_exception :
  forall num (H : hmm num) (D : nat -> moment) (HMM : bool) (s : str) (n : nat),
    (forall k, mo_check (D k) = None /\ sane (sget (mo_freq (D k))) (mo_total (D k))) ->
    (forall k w, sget (mo_freq (D k)) w <> None -> sget (mo_freq (D (S k))) w <> None) ->
    snd (fst (r_cut_for_search num H D HMM s n)) = None.
Proof.
  intros num H D HMM s n OK KEEP. destruct (C128_search num H D HMM s n) as (tws & f & len & S & M & C).
  pose proof (C85_no_exception num H (fun i => D (f i)) (mode_of false HMM) s 0 (fun k => OK _)) as X.
  rewrite C128_stamped_is_cut in X. rewrite C in X. apply X. intros k w. specialize (M k).
  revert M. generalize (f k), (f (Datatypes.S k)). intros a b L. induction L as [|b L IH]; auto.
Qed.

Lemma looked_up_still fr total force k cs out :
  looked_up (fun _ => mkMoment None fr total force) k cs out -> out = filter (freq_true fr) cs.
Proof.
  induction 1 as [|k g cs out W L IH|k g cs out W L IH]; cbn [filter mo_freq] in *; [reflexivity| |].
  - apply freq_true_word in W. now rewrite W, IH.
  - destruct (freq_true fr g) eqn:E; [apply freq_true_word in E; contradiction|exact IH].
Qed.

Lemma filter_fst fr (l : list (str * nat)) :
  filter (freq_true fr) (map fst l) = map fst (filter (fun p => freq_true fr (fst p)) l).
Proof. induction l as [|p l IH]; cbn; [reflexivity|]. destruct (freq_true fr (fst p)); cbn; now rewrite IH. Qed.

(** If nothing changes it is the ordinary cut_for_search. *)
Theorem C128_no_updates :
  forall num (H : hmm num) (HMM : bool) fr total force s n,
    fst (r_cut_for_search num H (fun _ => mkMoment None fr total force) HMM s n) = cut_for_search num H HMM fr total force s.
Proof.
  intros num H HMM fr total force s n. set (M := mkMoment None fr total force).
  destruct (C128_search num H (fun _ => M) HMM s n) as (tws & f & len & S & _ & C).
  set (r := r_cut_for_search num H (fun _ => M) HMM s n) in *. apply sched_turns in S.
  pose proof (C85_no_updates num H (mode_of false HMM) fr total force s 0) as U. fold M in U.
  rewrite C128_stamped_is_cut, C in U. cbn [fst snd] in U. symmetry in U. clear C. rename U into C.
  revert S C. generalize (map fst tws). intros ws T C.
  unfold cut_for_search. rewrite C. unfold gbind, gapp. cbn [fst snd].
  assert (G : gfor ws (fun w => gof (map fst (dict_grams fr 2 w) ++ map fst (dict_grams fr 3 w) ++ [w])) = gof (fst (fst r))).
  { clear C. revert T. generalize (fst (fst r)). intros out T.
    induction T as [|k k' w ws o out W T IH]; [reflexivity|]. cbn [gfor]. rewrite IH. unfold gapp. cbn [gof fst snd].
    unfold gof. f_equal. f_equal. destruct W as (g2 & g3 & -> & G2 & G3 & _). unfold M in G2, G3.
    apply looked_up_still in G2, G3. rewrite G2, G3, !filter_fst, !parts_dict by lia. reflexivity. }
  rewrite G. cbn [gof fst snd]. rewrite app_nil_r. now destruct (fst r).
Qed.

(** ** A case: 大学生 while another thread adds 学生 *)
Definition sr_D (n : nat) : moment := mkMoment None (if n <? 16 then st_fr else st_new) 20 [].

(** 大学 is looked up with read 15 and 学生, which is new, with read 16 *)
Example C128_nonvacuous :
  (forall k, mo_check (sr_D k) = None /\ sane (sget (mo_freq (sr_D k))) (mo_total (sr_D k))) /\
  (forall k w, sget (mo_freq (sr_D k)) w <> None -> sget (mo_freq (sr_D (S k))) w <> None) /\
  r_cut_for_search numQ demo_hmm sr_D false [c_da; c_xue; c_sheng] 0
    = (gof [[c_da; c_xue]; [c_xue; c_sheng]; [c_da; c_xue; c_sheng]], 17) /\
  cut_for_search numQ demo_hmm false st_fr 20 [] [c_da; c_xue; c_sheng] = gof [[c_da; c_xue]; [c_da; c_xue; c_sheng]].
Proof.
  split; [|split; [|split]].
  - intros k. split; [reflexivity|]. unfold sr_D. cbn [mo_freq mo_total]. destruct (k <? 16); apply saneb_ok; reflexivity.
  - intros k w. unfold sr_D. cbn [mo_freq]. destruct (k <? 16) eqn:A, (S k <? 16) eqn:B; auto.
    + unfold st_new, st_fr. unfold sget. cbn [app dget]. repeat (destruct (str_eqb _ _); [discriminate|]). intros N. destruct N. reflexivity.
    + apply Nat.ltb_ge in A. apply Nat.ltb_lt in B. lia.
  - match goal with |- _ = ?r => vm_cast_no_check (eq_refl r) end.
  - match goal with |- _ = ?r => vm_cast_no_check (eq_refl r) end.
Qed.

(** "What is given out is what cut_for_search gives out with the dictionary of some moment"
    does not hold: 大学 is struck and 学生 added between the reads 15 and 16, and both come out. *)
Definition sr_other : freqs :=
  [([c_da], 1%Z); ([c_da; c_xue], 0%Z); ([c_da; c_xue; c_sheng], 9%Z); ([c_xue], 0%Z); ([c_xue; c_sheng], 5%Z)].
Theorem C128_some_moment_refuted :
  let D n := mkMoment None (if n <? 16 then st_fr else sr_other) 20 [] in
  let text := [c_da; c_xue; c_sheng] in
  (forall k, sane (sget (mo_freq (D k))) (mo_total (D k))) /\
  fst (r_cut_for_search numQ demo_hmm D false text 0) = gof [[c_da; c_xue]; [c_xue; c_sheng]; [c_da; c_xue; c_sheng]] /\
  forall k, cut_for_search numQ demo_hmm false (mo_freq (D k)) (mo_total (D k)) (mo_force (D k)) text
            <> gof [[c_da; c_xue]; [c_xue; c_sheng]; [c_da; c_xue; c_sheng]].
Proof.
  intros D text. split; [|split].
  - intros k. unfold D. cbn [mo_freq mo_total]. destruct (k <? 16); apply saneb_ok; reflexivity.
  - match goal with |- _ = ?r => vm_cast_no_check (eq_refl r) end.
  - intros k. unfold D. cbn [mo_freq mo_total mo_force].
    assert (A : cut_for_search numQ demo_hmm false st_fr 20 [] text = gof [[c_da; c_xue]; [c_da; c_xue; c_sheng]])
      by (match goal with |- _ = ?r => vm_cast_no_check (eq_refl r) end).
    assert (B : cut_for_search numQ demo_hmm false sr_other 20 [] text = gof [[c_xue; c_sheng]; [c_da; c_xue; c_sheng]])
      by (match goal with |- _ = ?r => vm_cast_no_check (eq_refl r) end).
    destruct (k <? 16); [rewrite A|rewrite B]; discriminate.
Qed.

Print Assumptions C128_stamped_is_cut.
Print Assumptions C128_search.
Print Assumptions C128_lossless.
Print Assumptions C128_no_exception.
Print Assumptions C128_no_updates.
Print Assumptions C128_some_moment_refuted.
