(** * Lemmas about the HMM stage *)
From Verif Require Import PyBase PyRegex PyNum ModelFinalseg SpecBase SpecSeg SpecHmm
  ProofsBase ProofsRegex ProofsDag.
Set Implicit Arguments.

(** ** Shape of the Viterbi path *)

Section Path.
  Variable num : Num.
  Variable H : hmm num.

  Definition path_ok (n : nat) (y : label) (p : list label) : Prop :=
    length p = n /\ chain p /\ exists p', p = p' ++ [y].

  Definition col_ok (n : nat) (v : column num) : Prop :=
    forall y, path_ok n y (snd (col_get v y)).

  Lemma col_get_make f y : col_get (@col_make num f) y = f y.
  Proof. destruct y; reflexivity. Qed.

  Lemma chain_snoc p a y : chain (p ++ [a]) -> follows a y -> chain ((p ++ [a]) ++ [y]).
  Proof.
    intros C FO. induction p as [|b p IH]; simpl in *; auto.
    destruct C as [C1 C2]. split; auto.
    destruct p; simpl in *; auto.
  Qed.

  Lemma prev_status_follows y : follows (fst (prev_status y)) y /\ follows (snd (prev_status y)) y.
  Proof. destruct y; simpl; auto. Qed.

  Lemma vit_cell_eq v c y :
    exists y0, (y0 = fst (prev_status y) \/ y0 = snd (prev_status y)) /\
               vit_cell H v c y =
               (f_add num (f_add num (fst (col_get v y0)) (get_or num (h_trans H y0 y)))
                      (get_or num (h_emit H y c)), snd (col_get v y0) ++ [y]).
  Proof.
    unfold vit_cell. destruct (prev_status y) as [a b]. unfold max_from. simpl.
    destruct (tup_gt num label_gt _ _); eauto.
  Qed.

  Lemma vit_cell_ok n v c y : col_ok n v -> path_ok (S n) y (snd (vit_cell H v c y)).
  Proof.
    intros CO. destruct (vit_cell_eq v c y) as [y0 [HY ->]]. simpl.
    assert (FO : follows y0 y).
    { pose proof (prev_status_follows y). destruct HY as [-> | ->]; tauto. }
    destruct (CO y0) as [L [C [p' EP]]]. split; [|split].
    - rewrite app_length. simpl. lia.
    - rewrite EP in *. apply chain_snoc; auto.
    - eauto.
  Qed.

  Lemma vit_fold_ok obs n v : col_ok n v -> col_ok (n + length obs) (fold_left (vit_step H) obs v).
  Proof.
    revert n v. induction obs as [|c obs IH]; intros n v CO; simpl.
    - rewrite Nat.add_0_r. auto.
    - replace (n + S (length obs)) with (S n + length obs) by lia. apply IH.
      intros y. unfold vit_step. rewrite col_get_make. apply vit_cell_ok; auto.
  Qed.

  Lemma vit_init_ok c : col_ok 1 (vit_init H c).
  Proof.
    intros y. unfold vit_init. rewrite col_get_make. simpl. split; [|split]; auto.
    - simpl; auto.
    - exists []; auto.
  Qed.

  Lemma viterbi_path c obs :
    let p := snd (viterbi H c obs) in
    length p = S (length obs) /\ chain p /\ final p.
  Proof.
    unfold viterbi. pose proof (vit_fold_ok obs (vit_init_ok c)) as CO.
    set (v := fold_left _ _ _) in *.
    unfold max_from. simpl.
    destruct (tup_gt num label_gt _ _); simpl.
    - destruct (CO LS) as [L [C [p' E]]]. split; [|split]; auto. exists p', LS. auto.
    - destruct (CO LE) as [L [C [p' E]]]. split; [|split]; auto. exists p', LE. auto.
  Qed.
End Path.

(** ** Decoding *)

(** the words spelled by labels, with a pending word [cur] *)
Fixpoint decode (cur : str) (rest : str) (poss : list label) : list str :=
  match rest, poss with
  | c :: rest', LB :: poss' => decode [c] rest' poss'
  | c :: rest', LM :: poss' => decode (cur ++ [c]) rest' poss'
  | c :: rest', LE :: poss' => (cur ++ [c]) :: decode [] rest' poss'
  | c :: rest', LS :: poss' => [c] :: decode [] rest' poss'
  | _, _ => []
  end.

(** what a label that may come next says about the pending word *)
Definition pending (prev : option label) (cur : str) : Prop :=
  match prev with
  | Some LE | Some LS | None => cur = []
  | Some LB | Some LM => cur <> []
  end.

Definition chain_from (prev : option label) (poss : list label) : Prop :=
  match prev with Some y => chain (y :: poss) | None => chain poss end.

Definition final_from (prev : option label) (poss : list label) : Prop :=
  match poss with
  | [] => match prev with Some LE | Some LS => True | _ => False end
  | _ => final poss
  end.

Lemma chain_from_step prev y poss : chain_from prev (y :: poss) -> chain_from (Some y) poss.
Proof. destruct prev; simpl; tauto. Qed.

Lemma final_from_step prev y poss : final_from prev (y :: poss) -> final_from (Some y) poss.
Proof.
  simpl. intros [ls' [z [E HZ]]]. destruct poss as [|b poss]; simpl.
  - destruct ls' as [|a [|a' ls']]; simpl in E; inversion E; subst; auto.
    destruct HZ as [-> | ->]; auto.
  - destruct ls' as [|a ls']; simpl in E; inversion E; subst. exists ls', z. auto.
Qed.

Lemma skipn_S {A} (s : list A) i c r : skipn i s = c :: r -> skipn (S i) s = r /\ i < length s
  /\ slice s i (i + 1) = [c].
Proof.
  intros E. assert (L : i < length s).
  { destruct (Nat.lt_ge_cases i (length s)); auto. rewrite skipn_all2 in E by lia. discriminate. }
  split; [|split]; auto.
  - replace (S i) with (1 + i) by lia. rewrite <- skipn_skipn, E. reflexivity.
  - unfold slice. rewrite E. replace (i + 1 - i) with 1 by lia. reflexivity.
Qed.

Lemma fs_cut_loop_decode s i rest poss begin nexti prev :
  skipn i s = rest -> length poss = length rest -> i <= length s ->
  nexti <= i ->
  pending prev (slice s nexti i) ->
  (prev = Some LB \/ prev = Some LM \/ prev = None -> begin = nexti) ->
  (prev = None -> begin = i) ->
  chain_from prev poss -> final_from prev poss ->
  fs_cut_loop s i rest poss begin nexti = gof (decode (slice s nexti i) rest poss).
Proof.
  revert i poss begin nexti prev. induction rest as [|c rest IH]; intros i poss begin nexti prev
    ES LP LI LN PE BE BN CH FI.
  - destruct poss; [|discriminate]. simpl.
    assert (LS' : length s <= i).
    { apply (f_equal (@length _)) in ES. rewrite skipn_length in ES. simpl in ES. lia. }
    destruct (nexti <? length s) eqn:E; [|reflexivity].
    apply Nat.ltb_lt in E. simpl in FI.
    destruct prev as [[]|]; try contradiction; simpl in PE.
    + exfalso. revert PE. apply slice_nonempty; lia.
    + exfalso. revert PE. apply slice_nonempty; lia.
  - destruct poss as [|y poss]; [discriminate|]. simpl in LP.
    destruct (skipn_S _ _ ES) as [ES' [LI' EC]].
    assert (CH' : chain_from (Some y) poss) by (eapply chain_from_step; eauto).
    assert (FI' : final_from (Some y) poss) by (eapply final_from_step; eauto).
    assert (SNOC : slice s nexti i ++ [c] = slice s nexti (i + 1)).
    { rewrite <- EC. apply slice_slice_firstn; lia. }
    assert (NE : nexti < i + 1 -> slice s nexti (i + 1) <> []).
    { intros; apply slice_nonempty; lia. }
    assert (EMP : slice s nexti i = [] -> nexti = i).
    { intros E0. destruct (Nat.eq_dec nexti i); auto. exfalso. revert E0. apply slice_nonempty; lia. }
    assert (EMP2 : slice s (i + 1) (S i) = []).
    { unfold slice. replace (S i - (i + 1)) with 0 by lia. reflexivity. }
    assert (FOL : match prev with Some a => follows a y | None => True end).
    { destruct prev; simpl in CH; tauto. }
    destruct y; simpl.
    + (* B *)
      assert (E : nexti = i).
      { destruct prev as [[]|]; simpl in FOL; try contradiction; auto. }
      subst nexti. rewrite (IH (S i) poss i i (Some LB)); auto; try lia.
      * replace (slice s i (S i)) with [c]; auto. rewrite <- EC. f_equal; lia.
      * simpl. apply slice_nonempty; lia.
      * discriminate.
    + (* M *)
      rewrite (IH (S i) poss begin nexti (Some LM)); auto; try lia.
      * rewrite SNOC. do 2 f_equal. f_equal. lia.
      * simpl. apply slice_nonempty; lia.
      * intros _. apply BE. destruct prev as [[]|]; simpl in FOL; try contradiction; auto.
      * discriminate.
    + (* E *)
      rewrite (IH (S i) poss begin (i + 1) (Some LE)); auto; try lia.
      * rewrite EMP2. unfold gcons, gof. simpl. do 2 f_equal. rewrite SNOC.
        destruct prev as [[]|]; simpl in FOL; try contradiction;
          (rewrite BE by auto; reflexivity).
      * intros [A|[A|A]]; discriminate.
      * discriminate.
    + (* S *)
      rewrite (IH (S i) poss begin (i + 1) (Some LS)); auto; try lia.
      * rewrite EMP2. reflexivity.
      * intros [A|[A|A]]; discriminate.
      * discriminate.
Qed.

Lemma decode_concat prev cur rest poss :
  length poss = length rest -> pending prev cur -> chain_from prev poss -> final_from prev poss ->
  concat (decode cur rest poss) = cur ++ rest /\ Forall (fun w => w <> []) (decode cur rest poss).
Proof.
  revert prev cur poss. induction rest as [|c rest IH]; intros prev cur poss LP PE CH FI.
  - destruct poss; [|discriminate]. simpl in *.
    destruct prev as [[]|]; try contradiction; simpl in PE; subst; auto.
  - destruct poss as [|y poss]; [discriminate|]. simpl in LP.
    assert (CH' : chain_from (Some y) poss) by (eapply chain_from_step; eauto).
    assert (FI' : final_from (Some y) poss) by (eapply final_from_step; eauto).
    assert (FOL : match prev with Some a => follows a y | None => True end).
    { destruct prev; simpl in CH; tauto. }
    assert (LP' : length poss = length rest) by lia.
    destruct y; simpl.
    + assert (cur = []) as -> by (destruct prev as [[]|]; simpl in *; try contradiction; auto).
      destruct (IH (Some LB) [c] poss) as [I1 I2]; auto. simpl; discriminate.
    + destruct (IH (Some LM) (cur ++ [c]) poss) as [I1 I2]; auto.
      { simpl. intros E. apply app_eq_nil in E. destruct E; discriminate. }
      rewrite I1, <- app_assoc. auto.
    + destruct (IH (Some LE) [] poss) as [I1 I2]; auto. { simpl; auto. }
      rewrite I1, <- app_assoc. split; auto. constructor; auto.
      intros E. apply app_eq_nil in E. destruct E; discriminate.
    + assert (cur = []) as -> by (destruct prev as [[]|]; simpl in *; try contradiction; auto).
      destruct (IH (Some LS) [] poss) as [I1 I2]; auto. { simpl; auto. }
      rewrite I1. split; auto. constructor; auto. discriminate.
Qed.

(** label block of the pending word *)
Definition pend_labels (first : bool) (prev : option label) (pl : list label) : Prop :=
  match prev with
  | Some LE | Some LS | None => pl = []
  | Some LB => pl = [LB]
  | Some LM => (exists n, pl = LB :: repeat LM (S n)) \/ (first = true /\ exists n, pl = repeat LM (S n))
  end.

Lemma repeat_snoc {A} (x : A) n : repeat x n ++ [x] = repeat x (S n).
Proof. induction n as [|n IH]; simpl; auto. rewrite IH. reflexivity. Qed.

Lemma decode_spelled first prev cur pl rest poss :
  length poss = length rest -> length pl = length cur -> pend_labels first prev pl ->
  (prev = None -> first = true) ->
  chain_from prev poss -> final_from prev poss ->
  exists blocks, concat blocks = pl ++ poss
    /\ map (@length label) blocks = map (@length char) (decode cur rest poss)
    /\ match blocks with
       | [] => True
       | b :: bs => (word_labels b \/ (first = true /\ tail_labels b)) /\ Forall word_labels bs
       end.
Proof.
  revert first prev cur pl poss. induction rest as [|c rest IH]; intros first prev cur pl poss LP LL PE PF CH FI.
  - destruct poss; [|discriminate]. simpl in *.
    destruct prev as [[]|]; try contradiction; simpl in PE; subst; exists []; simpl; repeat split; auto.
  - destruct poss as [|y poss]; [discriminate|]. simpl in LP.
    assert (CH' : chain_from (Some y) poss) by (eapply chain_from_step; eauto).
    assert (FI' : final_from (Some y) poss) by (eapply final_from_step; eauto).
    assert (FOL : match prev with Some a => follows a y | None => True end).
    { destruct prev; simpl in CH; tauto. }
    assert (LP' : length poss = length rest) by lia.
    destruct y; simpl.
    + assert (pl = []) as -> by (destruct prev as [[]|]; simpl in *; try contradiction; auto).
      destruct (IH first (Some LB) [c] [LB] poss) as [bl B]; simpl; auto. discriminate.
      simpl in B. eauto.
    + destruct (IH first (Some LM) (cur ++ [c]) (pl ++ [LM]) poss) as [bl [B1 [B2 B3]]]; auto.
      * rewrite !app_length. simpl. lia.
      * simpl. destruct prev as [[]|]; simpl in *; try contradiction.
        -- subst pl. left. exists 0. reflexivity.
        -- destruct PE as [[n ->]|[? [n ->]]].
           ++ left. exists (S n). cbn [app]. f_equal. apply (repeat_snoc LM (S n)).
           ++ right. split; auto. exists (S n). apply (repeat_snoc LM (S n)).
        -- subst pl. right. split; auto. exists 0. reflexivity.
      * discriminate.
      * exists bl. rewrite B1, <- app_assoc. auto.
    + destruct (IH false (Some LE) [] [] poss) as [bl [B1 [B2 B3]]]; simpl; auto. discriminate.
      exists ((pl ++ [LE]) :: bl). simpl. rewrite B1, B2, !app_length, <- app_assoc, LL.
      split; [reflexivity|]. split; [reflexivity|]. split.
      * destruct prev as [[]|]; simpl in *; try contradiction.
        -- subst pl. left. right. exists 0. reflexivity.
        -- destruct PE as [[n ->]|[? [n ->]]].
           ++ left. right. exists (S n). reflexivity.
           ++ right. split; auto. exists (S n). reflexivity.
        -- subst pl. right. split; auto. exists 0. reflexivity.
      * destruct bl as [|b bs]; auto. destruct B3 as [[B|[B _]] B']; [|discriminate]. constructor; auto.
    + destruct (IH false (Some LS) [] [] poss) as [bl [B1 [B2 B3]]]; simpl; auto. discriminate.
      assert (pl = []) as -> by (destruct prev as [[]|]; simpl in *; try contradiction; auto).
      exists ([LS] :: bl). simpl. rewrite B1, B2.
      split; [reflexivity|]. split; [reflexivity|]. split.
      * left. left. reflexivity.
      * destruct bl as [|b bs]; auto. destruct B3 as [[B|[B _]] B']; [|discriminate]. constructor; auto.
Qed.

Section Cut.
  Variable num : Num.
  Variable H : hmm num.

  Lemma fs_cut_han_eq c obs :
    fs_cut_han H (c :: obs) = gof (decode [] (c :: obs) (snd (viterbi H c obs))).
  Proof.
    unfold fs_cut_han. destruct (viterbi_path H c obs) as [L [C FI]].
    rewrite (@fs_cut_loop_decode _ _ _ _ _ _ None); auto; simpl; try lia; auto.
    - unfold final_from. destruct (snd (viterbi H c obs)); auto. discriminate.
  Qed.

  Lemma fs_cut_han_ok s :
    s <> [] ->
    exists ls ws, fs_cut_han H s = gof ws /\ partition s ws
      /\ length ls = length s /\ chain ls /\ final ls /\ spelled_by ls ws.
  Proof.
    destruct s as [|c obs]; [congruence|]. intros _.
    exists (snd (viterbi H c obs)), (decode [] (c :: obs) (snd (viterbi H c obs))).
    destruct (viterbi_path H c obs) as [L [C FI]].
    assert (FF : final_from None (snd (viterbi H c obs))).
    { unfold final_from. destruct (snd (viterbi H c obs)); auto. discriminate. }
    split; [apply fs_cut_han_eq|]. split; [|split; [|split; [|split]]]; auto.
    - apply (@decode_concat None); simpl; auto.
    - destruct (@decode_spelled true None [] [] (c :: obs) (snd (viterbi H c obs))) as [bl [B1 [B2 B3]]];
        simpl; auto.
      exists bl. split; auto. split; auto. destruct bl; auto. tauto.
  Qed.

  Lemma partition_app a b wa wb : partition a wa -> partition b wb -> partition (a ++ b) (wa ++ wb).
  Proof.
    intros [A1 A2] [B1 B2]. split.
    - rewrite concat_app. congruence.
    - apply Forall_app. auto.
  Qed.

  Lemma partition_nil : partition [] [].
  Proof. split; auto. Qed.

  Lemma partition_chars s : partition s (map (fun c => [c]) s).
  Proof. split; [apply map_singleton_concat | apply map_singleton_nonempty]. Qed.

  Lemma partition_gfor {A} (l : list A) (h : A -> str) (f : A -> gen str) :
    (forall x, In x l -> exists ws, f x = gof ws /\ partition (h x) ws) ->
    exists ws, gfor l f = gof ws /\ partition (concat (map h l)) ws.
  Proof.
    induction l as [|x l IH]; intros HF; simpl.
    - exists []. split; auto using partition_nil.
    - destruct (HF x) as [ws [E P]]; [left; auto|].
      destruct IH as [ws' [E' P']]; [intros; apply HF; right; auto|].
      exists (ws ++ ws'). rewrite E, E'. split; auto. apply partition_app; auto.
  Qed.

  Lemma fs_cut_block_ok force blk :
    exists ws, fs_cut_block H force blk = gof ws /\ partition blk ws.
  Proof.
    unfold fs_cut_block, fs_re_han. rewrite re_matches_plus.
    destruct (match blk with [] => false | c :: _ => is_han c end) eqn:E.
    - destruct (@fs_cut_han_ok blk) as [ls [ws [EW [P _]]]].
      { destruct blk; [discriminate|congruence]. }
      rewrite EW. unfold gbind. cbn [fst snd gof].
      destruct (@partition_gfor _ ws (fun w => w)
        (fun word => if negb (str_in word force) then gone word else gof (map (fun c => [c]) word)))
        as [ws' [E' P']].
      { intros w HW. destruct (negb (str_in w force)).
        - exists [w]. split; auto. split; simpl; [apply app_nil_r|].
          destruct P as [_ P]. rewrite Forall_forall in P. auto.
        - exists (map (fun c => [c]) w). split; auto. apply partition_chars. }
      rewrite E'. exists ws'. unfold gapp; simpl. rewrite app_nil_r. split; auto.
      rewrite map_id in P'. destruct P as [P _]. rewrite P in P'. auto.
    - destruct (@partition_gfor _ (re_split fs_re_skip blk) (fun x => x)
        (fun x => match x with [] => gnil | _ => gone x end)) as [ws [E' P']].
      { intros [|c x] _.
        - exists []. split; auto using partition_nil.
        - exists [c :: x]. split; auto. split; simpl; [rewrite app_nil_r; auto|].
          constructor; auto. discriminate. }
      exists ws. rewrite map_id, re_split_concat in P'. auto.
  Qed.

  Lemma fs_cut_ok force s :
    exists ws, fs_cut num H force s = gof ws /\ partition s ws.
  Proof.
    unfold fs_cut.
    destruct (@partition_gfor _ (re_split fs_re_han s) (fun x => x) (fs_cut_block H force)) as [ws [E P]].
    { intros x _. apply fs_cut_block_ok. }
    exists ws. rewrite map_id, re_split_concat in P. auto.
  Qed.
End Cut.
