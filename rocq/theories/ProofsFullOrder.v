(** * The pieces of full mode, in order *)
From Coq Require Import Lia.
From Verif Require Import PyBase PyRegex PyNum ModelFinalseg ModelSeg SpecBase SpecSeg SpecFull SpecFullOrder
  ProofsBase ProofsRegex ProofsSplit ProofsDag ProofsSeg ProofsFull ProofsLocal PropsCut.

Section Block.
  Variable fr : freqs.
  Variable s : str.
  Hypothesis PC : prefix_closed (sget fr).
  Variable clear : nat -> bool.
  Hypothesis CL : forall k, clear k = true <-> clear_at (sget fr) s k.

  Notation ends := (ends (sget fr) s).
  Notation long := (long_ends (sget fr) s).
  Notation sole := (sole (sget fr) s clear).
  Notation others := (others (sget fr) s clear).

  Lemma dag_ends k : k < length s -> dag_at fr s k = ends k.
  Proof. intros L. pose proof (get_DAG_nth fr s k L) as G.
    destruct (C06_word_graph_exact fr s PC) as [_ E]. specialize (E k L). cbv zeta in E. rewrite G in E. injection E as E. rewrite E.
    unfold SpecFullOrder.ends. destruct (filter _ _); reflexivity.
  Qed.

  Lemma ends_from k i : In i (ends k) -> k <= i.
  Proof.
    unfold SpecFullOrder.ends.
    destruct (filter _ _) as [|e es] eqn:E; [intros [<-|[]]; auto|]. intros I. rewrite <- E in I.
    apply filter_In in I. destruct I as [I _]. apply in_seq in I. lia.
  Qed.
  Lemma ends_some k : exists e es, ends k = e :: es.
  Proof. unfold SpecFullOrder.ends. destruct (filter _ _) as [|e es]; eauto. Qed.

  Lemma words_eq k L o :
    cut_all_words s k L o =
    (map (word_at s k) (filter (fun i => k <? i) L),
     match filter (fun i => k <? i) L with [] => o | l => Z.of_nat (last l 0) end).
  Proof.
    revert o. induction L as [|j L IH]; intros o; cbn [cut_all_words filter]; [reflexivity|].
    destruct (k <? j) eqn:E; [|apply IH]. rewrite IH. cbn [map]. f_equal.
    destruct (filter (fun i => k <? i) L) as [|x l]; reflexivity.
  Qed.

  (** [old_j] on arrival at [k] tells whether the positions up to the next word are clear *)
  Definition tells (k : nat) (o : Z) : Prop :=
    forall x, k <= x -> (forall i, k <= i < x -> long i = []) -> ((o < Z.of_nat x)%Z <-> clear_at (sget fr) s x).

  Lemma tells_start : tells 0 (-1).
  Proof.
    intros x _ NO. split; [|lia]. intros _ k' LT NE _. exfalso. apply NE. apply NO. lia.
  Qed.
  Lemma tells_word k : long k <> [] -> tells (S k) (Z.of_nat (last (long k) 0)) .
  Proof.
    intros NE x LE NO. split.
    - intros LT k' L1 N1 NO1. destruct (Nat.lt_trichotomy k' k) as [A|[->|A]]; [|lia|].
      + exfalso. apply NE. apply NO1. lia.
      + exfalso. apply N1. apply NO. lia.
    - intros C. specialize (C k). enough (last (long k) 0 < x) by lia. apply C; auto; try lia.
  Qed.
  Lemma tells_skip k o : long k = [] -> tells k o -> tells (S k) o.
  Proof.
    intros E T x LE NO. apply T; [lia|]. intros i A. destruct (Nat.eq_dec i k) as [->|N]; auto. apply NO. lia.
  Qed.
  Lemma tells_char k o : long k = [] -> (o < Z.of_nat k)%Z -> tells k o -> tells (S k) (Z.of_nat k).
  Proof.
    intros E LT T x LE NO. split; [|lia]. intros _. apply T; [lia| |lia].
    intros i A. destruct (Nat.eq_dec i k) as [->|N]; auto. apply NO. lia.
  Qed.

  (** the loop, position by position *)
  Definition flushed (eng : bool) (buf : str) : list str := if eng then [buf] else [].
  Fixpoint from (fuel k : nat) (eng : bool) (buf : str) : list str :=
    match fuel with
    | O => flushed eng buf
    | S fuel' =>
        if eng_match (slice s k (k + 1)) then
          others k ++
          match sole k with
          | [] => from fuel' (S k) eng buf
          | w :: _ => from fuel' (S k) true (if eng then buf ++ w else w)
          end
        else flushed eng buf ++ sole k ++ others k ++ from fuel' (S k) false buf
    end.

  Lemma from_off fuel k buf buf' : from fuel k false buf = from fuel k false buf'.
  Proof.
    revert k buf buf'. induction fuel as [|fuel IH]; intros; [reflexivity|]. cbn [from].
    destruct (eng_match _).
    - destruct (sole k); [f_equal; apply IH|reflexivity].
    - cbn [flushed]. now rewrite (IH (S k) buf buf').
  Qed.

  Lemma loop_from k old_j eng buf :
    k <= length s -> tells k old_j ->
    cut_all_loop s k (dag_from fr s k) old_j eng buf = from (length s - k) k eng buf.
  Proof.
    intros LE T. remember (length s - k) as n eqn:N. revert k old_j eng buf LE T N.
    induction n as [|n IH]; intros k old_j eng buf LE T N.
    - rewrite dag_from_end by lia. reflexivity.
    - rewrite dag_from_cons by lia. rewrite dag_ends by lia. cbn [cut_all_loop from].
      assert (IH' : forall o e b, tells (S k) o ->
        cut_all_loop s (S k) (dag_from fr s (S k)) o e b = from n (S k) e b) by (intros; apply IH; auto; lia).
      clear IH.
      assert (TK : (old_j <? Z.of_nat k)%Z = clear k).
      { destruct (T k) as [A B]; [lia|intros; lia|]. destruct (clear k) eqn:C.
        - apply Z.ltb_lt. apply B. apply CL. auto.
        - apply Z.ltb_ge. apply Z.nlt_ge. intros LT. apply A in LT. apply CL in LT. congruence. }
      rewrite TK.
      set (m := eng_match (slice s k (k + 1))).
      destruct (ends_some k) as (e & es & EE).
      assert (GE : k <= e) by (apply ends_from; rewrite EE; left; auto).
      destruct es as [|e2 es]; [destruct (clear k) eqn:C|].
      + (* one end, clear *)
        assert (SO : sole k = [word_at s k e]) by (unfold SpecFullOrder.sole; rewrite EE, C; reflexivity).
        assert (OT : others k = []) by (unfold SpecFullOrder.others; rewrite SO; reflexivity).
        assert (TE : tells (S k) (Z.of_nat e)).
        { destruct (Nat.eq_dec e k) as [->|NE].
          - apply tells_char with old_j; auto; [|apply Z.ltb_lt; auto].
            unfold SpecFullOrder.long_ends. rewrite EE. cbn [filter]. rewrite Nat.ltb_irrefl. reflexivity.
          - assert (EL : long k = [e]).
            { unfold SpecFullOrder.long_ends. rewrite EE. cbn [filter]. replace (k <? e) with true; auto. symmetry. apply Nat.ltb_lt. lia. }
            replace e with (last (long k) 0) by (rewrite EL; reflexivity). apply tells_word. rewrite EL. discriminate. }
        rewrite EE, SO, OT. assert (EW : slice s k (e + 1) = word_at s k e) by (unfold word_at; rewrite sub_slice; auto).
        rewrite (@eng_match_slice s k e) by lia. fold m. rewrite EW. destruct m, eng; cbn [andb negb app flushed];
          rewrite IH' by auto; reflexivity.
      + (* one end, not clear *)
        assert (SO : sole k = []) by (unfold SpecFullOrder.sole; rewrite EE, C; reflexivity).
        assert (LO : long k = filter (fun i => k <? i) [e]) by (unfold SpecFullOrder.long_ends; rewrite EE; reflexivity).
        assert (OT : others k = map (word_at s k) (long k)) by (unfold SpecFullOrder.others; rewrite SO; reflexivity).
        rewrite EE, words_eq, <- LO, SO, OT.
        rewrite IH' by (destruct (long k) as [|x l] eqn:EL; [apply tells_skip; auto|rewrite <- EL; apply tells_word; rewrite EL; discriminate]).
        destruct m, eng; cbn [andb negb app flushed]; try reflexivity; f_equal; apply from_off.
      + (* two ends or more *)
        assert (SO : sole k = []) by (unfold SpecFullOrder.sole; rewrite EE; reflexivity).
        assert (LO : long k = filter (fun i => k <? i) (e :: e2 :: es)) by (unfold SpecFullOrder.long_ends; rewrite EE; reflexivity).
        assert (OT : others k = map (word_at s k) (long k)) by (unfold SpecFullOrder.others; rewrite SO; reflexivity).
        rewrite EE, words_eq, <- LO, SO, OT.
        rewrite IH' by (destruct (long k) as [|x l] eqn:EL; [apply tells_skip; auto|rewrite <- EL; apply tells_word; rewrite EL; discriminate]).
        destruct m, eng; cbn [andb negb app flushed]; try reflexivity; f_equal; apply from_off.
  Qed.

  (** ** Stretch by stretch *)
  Lemma sole_one k : sole k = [] \/ exists w, sole k = [w].
  Proof.
    unfold SpecFullOrder.sole. destruct (ends k) as [|e [|e2 es]]; auto. destruct (clear k); eauto.
  Qed.

  Notation pieces := (pieces (sget fr) s clear).
  Lemma from_pieces t : forall k, skipn k s = t ->
    (forall buf, from (length t) k false buf = pieces k (runs is_alnum t)) /\
    (forall buf, from (length t) k true buf =
       match runs is_alnum t with
       | (true, g) :: l =>
           flat_map others (seq k (length g)) ++ [buf ++ concat (flat_map sole (seq k (length g)))] ++ pieces (k + length g) l
       | l => buf :: pieces k l
       end).
  Proof.
    induction t as [|c t IH]; intros k SK; [split; reflexivity|].
    assert (SK' : skipn (S k) s = t) by (change (S k) with (1 + k); rewrite <- skipn_skipn, SK; reflexivity).
    assert (EM : eng_match (slice s k (k + 1)) = is_alnum c).
    { rewrite eng_match_eq. unfold slice. rewrite SK. replace (k + 1 - k) with 1 by lia. reflexivity. }
    destruct (IH (S k) SK') as [OFF ON]. clear IH. cbn [length from]. rewrite EM.
    cbn [runs]. destruct (is_alnum c) eqn:AL.
    - destruct (runs is_alnum t) as [|[[|] g] l] eqn:ER.
      + cbn [Bool.eqb pieces length seq flat_map]. rewrite !app_nil_r.
        destruct (sole_one k) as [S0|[w S0]]; rewrite S0; split; intros buf.
        * rewrite OFF. reflexivity.
        * rewrite ON. cbn. now rewrite app_nil_r.
        * rewrite ON. cbn. now rewrite app_nil_r.
        * rewrite ON. cbn. now rewrite app_nil_r.
      + cbn [Bool.eqb pieces length seq flat_map]. rewrite Nat.add_succ_r, <- Nat.add_succ_l.
        destruct (sole_one k) as [S0|[w S0]]; rewrite S0; split; intros buf; rewrite <- ?app_assoc; f_equal;
          rewrite ?OFF, ?ON; cbn [pieces app]; rewrite <- ?app_assoc; try reflexivity.
      + cbn [Bool.eqb]. cbn [SpecFullOrder.pieces]. cbn [length seq flat_map]. rewrite Nat.add_1_r, !app_nil_r.
        destruct (sole_one k) as [S0|[w S0]]; rewrite S0; split; intros buf; rewrite <- ?app_assoc; f_equal;
          rewrite ?OFF, ?ON; cbn [SpecFullOrder.pieces concat app]; rewrite ?app_nil_r; reflexivity.
    - destruct (runs is_alnum t) as [|[[|] g] l] eqn:ER.
      + cbn [Bool.eqb SpecFullOrder.pieces length seq flat_map flushed app]. rewrite !app_nil_r.
        split; intros buf; rewrite OFF; cbn; rewrite !app_nil_r; reflexivity.
      + cbn [Bool.eqb]. cbn [SpecFullOrder.pieces flushed]. cbn [length seq flat_map]. rewrite Nat.add_1_r, !app_nil_r.
        split; intros buf; rewrite OFF; cbn [SpecFullOrder.pieces app]; rewrite <- ?app_assoc; reflexivity.
      + cbn [Bool.eqb]. cbn [SpecFullOrder.pieces flushed]. cbn [length seq flat_map]. rewrite Nat.add_succ_r, <- Nat.add_succ_l.
        split; intros buf; rewrite OFF; cbn [SpecFullOrder.pieces app]; rewrite <- ?app_assoc; reflexivity.
  Qed.

  Lemma block_pieces_in_order : cut_all_block fr s = gof (pieces 0 (runs is_alnum s)).
  Proof.
    unfold cut_all_block. rewrite get_DAG_from, loop_from by (try apply tells_start; lia).
    rewrite Nat.sub_0_r. destruct (from_pieces s 0 eq_refl) as [E _]. rewrite E. reflexivity.
  Qed.
End Block.

(** which positions are clear can be decided *)
Lemma clear_exists D : exists clear : str -> nat -> bool, forall s k, clear s k = true <-> clear_at D s k.
Proof.
  exists (fun s k =>
    match find (fun k' => negb (match long_ends D s k' with [] => true | _ => false end)) (rev (seq 0 k)) with
    | None => true | Some k' => last (long_ends D s k') 0 <? k end).
  intros s k. unfold clear_at. set (long := long_ends D s).
  assert (NE : forall k', negb (match long k' with [] => true | _ => false end) = true <-> long k' <> []).
  { intros k'. destruct (long k'); cbn; split; congruence. }
  assert (F : forall n, match find (fun k' => negb (match long k' with [] => true | _ => false end)) (rev (seq 0 n)) with
                        | None => forall i, i < n -> long i = []
                        | Some k' => k' < n /\ long k' <> [] /\ forall i, k' < i < n -> long i = [] end).
  { induction n as [|n IHn]; [cbn; intros; lia|]. rewrite seq_S, rev_app_distr. cbn [rev app find Nat.add].
    destruct (negb (match long n with [] => true | _ => false end)) eqn:E.
    - apply NE in E. split; [lia|]. split; auto. intros; lia.
    - assert (EN : long n = []) by (destruct (long n); [auto|discriminate]).
      destruct (find _ _) as [k'|].
      + destruct IHn as (A & B & C). split; [lia|]. split; auto. intros i I. destruct (Nat.eq_dec i n) as [->|]; auto. apply C. lia.
      + intros i I. destruct (Nat.eq_dec i n) as [->|]; auto. apply IHn. lia. }
  specialize (F k). destruct (find _ _) as [k0|].
  - destruct F as (A & B & C). rewrite Nat.ltb_lt. split.
    + intros LT k' L1 N1 NO. destruct (Nat.lt_trichotomy k' k0) as [X|[->|X]]; auto.
      * exfalso. apply B. apply NO. lia.
      * exfalso. apply N1. apply C. lia.
    + intros Q. apply Q; auto.
  - split; auto. intros _ k' L1 N1. exfalso. apply N1. apply F. auto.
Qed.

(** text without word characters *)
Lemma split_at_blanks n0 fuel acc s :
  length s < fuel -> re_split_go fuel n0 re_skip_default acc s = at_blanks (rev acc) s.
Proof.
  revert acc s. induction fuel as [|fuel IH]; intros acc s L; [lia|].
  cbn [re_split_go]. destruct s as [|c s]; [reflexivity|]. rewrite skip_hd. simpl in L.
  destruct s as [|d s].
  - cbn [at_blanks]. destruct (is_space c) eqn:SP.
    + cbn [length Nat.ltb Nat.leb Nat.sub firstn]. rewrite IH by (simpl; lia). reflexivity.
    + rewrite IH by (simpl; lia). reflexivity.
  - cbn [at_blanks]. simpl in L. destruct ((c =? 13) && (d =? 10))%N eqn:E.
    + replace (length s <? length (c :: d :: s)) with true by (symmetry; apply Nat.ltb_lt; simpl; lia).
      rewrite (@firstn_minus_app _ (c :: d :: s) [c; d] s) by reflexivity.
      pose proof E as E'. apply andb_true_iff in E'. destruct E' as [E1 E2]. apply N.eqb_eq in E1. subst c.
      rewrite IH by lia. replace (is_space 13%N) with true by reflexivity. reflexivity.
    + destruct (is_space c) eqn:SP.
      * replace (length (d :: s) <? length (c :: d :: s)) with true by (symmetry; apply Nat.ltb_lt; simpl; lia).
        rewrite (@firstn_minus_app _ (c :: d :: s) [c] (d :: s)) by reflexivity.
        rewrite IH by (simpl; lia). reflexivity.
      * rewrite IH by (simpl; lia). reflexivity.
Qed.

Lemma cut_other_full blk : cut_other true blk = gof (at_blanks [] blk).
Proof.
  unfold cut_other, re_split. cbn [negb].
  rewrite (@gfor_ext _ _ _ _ gone) by (intros x _; destruct (re_matches re_skip_default x); reflexivity).
  rewrite split_at_blanks by auto. cbn [rev]. generalize (at_blanks [] blk) as l.
  induction l as [|x l IHl]; [reflexivity|]. cbn [gfor]. now rewrite IHl.
Qed.

Lemma cut_full_exact num (H : hmm num) fr total force s (clear : str -> nat -> bool) :
  prefix_closed (sget fr) -> (forall r k, clear r k = true <-> clear_at (sget fr) r k) ->
  cut num H Full fr total force s =
  gof (flat_map (fun br : bool * str =>
    if fst br then pieces (sget fr) (snd br) (clear (snd br)) 0 (runs is_alnum (snd br))
    else at_blanks [] (snd br)) (runs word_char s)).
Proof.
  intros PC CL. rewrite cut_runs. generalize (runs word_char s) as l.
  induction l as [|[b r] l IHl]; [reflexivity|]. cbn [gfor flat_map fst snd]. rewrite IHl. destruct b.
  - cbn [cut_block]. rewrite (block_pieces_in_order fr r PC (clear r)) by auto. apply gapp_gof.
  - cbn [is_full]. rewrite cut_other_full. apply gapp_gof.
Qed.

(** one position of a stretch without letters and digits *)
Lemma long_none D s k : long_ends D s k = [] -> ends D s k = [k].
Proof.
  intros E.
  assert (A : forall i, In i (ends D s k) -> i = k).
  { intros i I. destruct (Nat.eq_dec i k) as [|N]; auto. exfalso.
    assert (k <= i).
    { unfold ends in I. destruct (filter _ _) as [|x l] eqn:F; [destruct I as [<-|[]]; auto|].
      rewrite <- F in I. apply filter_In in I. destruct I as [I _]. apply in_seq in I. lia. }
    assert (I' : In i (long_ends D s k)) by (apply filter_In; split; auto; apply Nat.ltb_lt; lia).
    rewrite E in I'. destruct I'. }
  assert (ND : NoDup (ends D s k)).
  { unfold ends. destruct (filter _ _) as [|x l] eqn:F; [repeat constructor; intros []|].
    rewrite <- F. apply NoDup_filter. apply seq_NoDup. }
  assert (NE : ends D s k <> []) by (unfold ends; destruct (filter _ _); discriminate).
  destruct (ends D s k) as [|x [|y l]]; [congruence| |].
  - rewrite (A x); auto. left; auto.
  - exfalso. rewrite (A x), (A y) in ND by (cbn; auto). inversion ND as [|? ? NI _]. apply NI. left; auto.
Qed.

Lemma at_position D s clear k :
  sole D s clear k ++ others D s clear k =
  if match long_ends D s k with [] => clear k | _ => false end then [sub s k 1] else map (word_at s k) (long_ends D s k).
Proof.
  unfold others, sole. destruct (long_ends D s k) as [|x l] eqn:EL.
  - rewrite (@long_none D s k EL). destruct (clear k); [|reflexivity]. unfold word_at. replace (k + 1 - k) with 1 by lia. reflexivity.
  - destruct (ends D s k) as [|e [|e2 es]] eqn:EE; try reflexivity. destruct (clear k); [|reflexivity].
    unfold long_ends in EL. rewrite EE in EL. cbn [filter] in EL. destruct (k <? e); [|discriminate]. injection EL as <- <-. reflexivity.
Qed.
