(** * C108: what full mode gives, in order *)
From Coq Require Import Lia.
From Verif Require Import PyBase PyRegex PyNum ModelFinalseg ModelSeg ModelDict
  SpecBase SpecSeg SpecFull SpecFullOrder InstQ ProofsBase ProofsRegex ProofsSplit ProofsFull ProofsFullOrder Demo ProofsDemo PropsFull.

(** ** C108: the pieces of full mode, all of them and in order

    [clear] says which positions of a run of word characters are clear; there is such a
    function, and [pieces] depends on it only there *)
Theorem C108_full_mode_exact :
  forall (num : Num) (H : hmm num) (HMM : bool) (fr : freqs) (total : Z) (force : list str) (s : str)
         (clear : str -> nat -> bool),
    prefix_closed (sget fr) ->
    (forall r k, clear r k = true <-> clear_at (sget fr) r k) ->
    cut num H (mode_of true HMM) fr total force s =
    gof (flat_map (fun br : bool * str =>
           if fst br then pieces (sget fr) (snd br) (clear (snd br)) 0 (runs is_alnum (snd br))
           else at_blanks [] (snd br)) (runs word_char s)).
Proof. intros num H HMM fr total force s clear PC CL. apply cut_full_exact; auto. Qed.

Theorem C108_clear_decided :
  forall D : dictionary, exists clear : str -> nat -> bool, forall s k, clear s k = true <-> clear_at D s k.
Proof. apply clear_exists. Qed.

Lemma one_run p b (s : str) : s <> [] -> Forall (fun c => p c = b) s -> runs p s = [(b, s)].
Proof. intros NE FA. rewrite <- (app_nil_r s). rewrite (@runs_app_run p b s []); [now rewrite app_nil_r|auto|auto|exact I]. Qed.

(** in a run without letters and digits the pieces are the words of two or more characters,
    by position and then by length, and the characters that start no such word and are clear *)
Theorem C108_without_letters :
  forall (num : Num) (H : hmm num) (HMM : bool) (fr : freqs) (total : Z) (force : list str) (r : str),
    prefix_closed (sget fr) ->
    Forall (fun c => word_char c = true /\ is_alnum c = false) r ->
    exists single : nat -> bool,
      (forall k, single k = true <-> long_ends (sget fr) r k = [] /\ clear_at (sget fr) r k) /\
      cut num H (mode_of true HMM) fr total force r =
      gof (flat_map (fun k => if single k then [sub r k 1] else map (word_at r k) (long_ends (sget fr) r k))
                    (seq 0 (length r))).
Proof.
  intros num H HMM fr total force r PC FA.
  destruct (clear_exists (sget fr)) as [clear0 CL0]. set (clear := clear0 r). assert (CL := CL0 r). fold clear in CL.
  exists (fun k => match long_ends (sget fr) r k with [] => clear k | _ => false end). split.
  { intros k. rewrite <- CL. destruct (long_ends (sget fr) r k) as [|x l].
    - split; [auto|intros [_ ?]; auto].
    - split; [intros X; discriminate X|intros [X _]; discriminate X]. }
  destruct r as [|c r]; [reflexivity|].
  cbn [mode_of]. rewrite cut_runs.
  rewrite (one_run word_char true (c :: r)) by (try discriminate; apply (Forall_impl _ (fun a X => proj1 X) FA)).
  cbn [gfor fst snd cut_block]. rewrite gapp_nil_r.
  rewrite (block_pieces_in_order fr (c :: r) PC clear CL). f_equal.
  rewrite (one_run is_alnum false (c :: r)) by (try discriminate; apply (Forall_impl _ (fun a X => proj2 X) FA)).
  cbn [pieces]. rewrite app_nil_r. apply flat_map_ext. intros k. apply at_position.
Qed.

(** words "abcde", "bc": the last word that starts before a position decides, not the longest
    word over it; so a character inside a word can come out on its own too *)
Definition nest_fr : freqs :=
  d_freq (build [([c_bei; c_jing; c_da; c_xue; c_sheng]%N, 5%Z); ([c_jing; c_da]%N, 5%Z)]).
Definition nest_text : str := [c_bei; c_jing; c_da; c_xue; c_sheng].

Theorem C108_single_outside_words_refuted :
  exists fr s k j, prefix_closed (sget fr) /\ k < 3 /\ 3 <= j /\ In j (long_ends (sget fr) s k) /\
    In (sub s 3 1) (fst (cut numQ demo_hmm (mode_of true false) fr 10 [] s)) /\ NoDup s.
Proof.
  exists nest_fr, nest_text, 0, 4. split; [apply prefix_closedb_ok; vm_compute; reflexivity|].
  split; [lia|]. split; [lia|]. split; [vm_compute; auto|]. split; [vm_compute; tauto|].
  repeat constructor; cbn; intuition discriminate.
Qed.

Example C108_nonvacuous :
  prefix_closed (sget nest_fr) /\ Forall (fun c => word_char c = true /\ is_alnum c = false) nest_text /\
  cut numQ demo_hmm (mode_of true false) nest_fr 10 [] nest_text =
    gof [nest_text; [c_jing; c_da]; [c_xue]; [c_sheng]] /\
  map (long_ends (sget nest_fr) nest_text) [0; 1; 2; 3; 4] = [[4]; [2]; []; []; []] /\
  ~ clear_at (sget nest_fr) nest_text 2 /\ clear_at (sget nest_fr) nest_text 3 /\
  prefix_closed (sget ab_fr) /\
  cut numQ demo_hmm (mode_of true false) ab_fr 10 [] ([120; 97; 98; 32; 32]%N ++ [c_bei]) =
    gof [[120; 97; 98]%N; []; [32]%N; []; [32]%N; []; [c_bei]].
Proof.
  split; [apply prefix_closedb_ok; vm_compute; reflexivity|].
  split; [repeat constructor|]. split; [vm_compute; reflexivity|]. split; [vm_compute; reflexivity|].
  assert (E : forall i, long_ends (sget nest_fr) nest_text i = nth i [[4]; [2]] []).
  { intros [|[|[|[|[|i]]]]]; try (vm_compute; reflexivity).
    unfold long_ends, ends. replace (length nest_text - S (S (S (S (S i))))) with 0 by (cbn; lia).
    cbn [seq filter]. rewrite Nat.ltb_irrefl. destruct i; reflexivity. }
  split.
  { intros C. specialize (C 1). rewrite E in C. cbn in C.
    assert (2 < 2); [|lia]. apply C; [lia|discriminate|intros; lia]. }
  split.
  { intros k L NE NO. destruct k as [|[|[|k]]].
    - exfalso. specialize (NO 1). rewrite E in NO. cbn in NO. discriminate NO; lia.
    - rewrite E. cbn. lia.
    - exfalso. apply NE. rewrite E. reflexivity.
    - lia. }
  split; [apply prefix_closedb_ok; vm_compute; reflexivity|]. vm_compute. reflexivity.
Qed.

Print Assumptions C108_full_mode_exact.
Print Assumptions C108_clear_decided.
Print Assumptions C108_without_letters.
Print Assumptions C108_single_outside_words_refuted.
