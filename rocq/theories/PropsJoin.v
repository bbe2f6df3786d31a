(** * C95: segmenting a segmented text again *)
From Coq Require QArith_base.
From Coq Require Import Reals Lia.
From Verif Require Import PyBase PyRegex PyNum ModelFinalseg ModelSeg ModelDict SpecBase SpecSeg SpecHealth InstR InstQ Demo
  ProofsBase ProofsDemo ProofsHealth ProofsSeg ProofsStable ProofsSuggest PropsCut PropsFull PropsSuggest ProofsPick.

(** [w1, sep, w2, sep, ..., wn] *)
Fixpoint between (sep : str) (ws : list str) : list str :=
  match ws with
  | [] => []
  | [w] => [w]
  | w :: ws' => w :: sep :: between sep ws'
  end.

(** Joining the words of [cut(s, HMM=False)] with a separator and segmenting the
    result yields the same words, with the separator between them.  The separator is a
    character that is never part of a word, for example a space or a slash. *)
Theorem C95_joined_words :
  forall (H : hmm numR) (fr : freqs) (total : Z) (force : list str) (s : str) (c : char),
    healthy fr total -> word_char c = false -> c <> 13%N -> c <> 10%N ->
    let ws := fst (cut numR H (mode_of false false) fr total force s) in
    cut numR H (mode_of false false) fr total force (join_with [c] ws) = gof (between [c] ws).
Proof.
  intros H fr total force s c HE NW N13 N10 ws.
  assert (F : forall w, In w ws -> cut numR H (mode_of false false) fr total force w = gof [w]).
  { intros w I. apply (C52_stable_words H fr total force s w HE I). }
  clearbody ws. induction ws as [|w ws IH]; [reflexivity|]. destruct ws as [|x ws].
  - cbn [join_with between]. apply F. left. reflexivity.
  - change (join_with [c] (w :: x :: ws)) with (w ++ c :: join_with [c] (x :: ws)).
    rewrite (C45_separator numR H false fr total force w _ c NW N13 N10).
    rewrite (F w (or_introl eq_refl)), IH by (intros y Y; apply F; right; auto). reflexivity.
Qed.

(** Leaving out the separators gives the words back, if the text had none. *)
Theorem C95_words_back :
  forall (H : hmm numR) (fr : freqs) (total : Z) (force : list str) (s : str) (c : char),
    healthy fr total -> word_char c = false -> c <> 13%N -> c <> 10%N -> ~ In c s ->
    let ws := fst (cut numR H (mode_of false false) fr total force s) in
    filter (fun w => negb (str_eqb w [c])) (fst (cut numR H (mode_of false false) fr total force (join_with [c] ws))) = ws.
Proof.
  intros H fr total force s c HE NW N13 N10 NI ws.
  pose proof (C95_joined_words H fr total force s c HE NW N13 N10) as J. cbv zeta in J. fold ws in J. rewrite J.
  assert (K : forall w, In w ws -> str_eqb w [c] = false).
  { intros w I. apply not_true_iff_false. intros E. apply str_eqb_eq in E. subst w. apply NI.
    destruct (C01_accurate_lossless numR H false fr total force s (healthy_sane HE)) as [ws' [E P]].
    unfold ws in I. rewrite E in I. cbn in I. rewrite <- P. apply in_concat. exists [c]. split; auto. left. auto. }
  clearbody ws. clear J. cbn [fst gof]. induction ws as [|w ws IH]; [reflexivity|]. destruct ws as [|x ws].
  - cbn. rewrite (K w) by (left; auto). reflexivity.
  - change (between [c] (w :: x :: ws)) with (w :: [c] :: between [c] (x :: ws)). cbn [filter].
    rewrite (K w) by (left; auto). rewrite str_eqb_refl. cbn [negb]. f_equal. apply IH. intros y Y. apply K. right. auto.
Qed.

(** With HMM it is false: what the HMM groups in a longer text it need not group in a
    shorter one.  北京大 is 北京/大, but 北京 alone is 北/京. *)
Definition jn_hmm : hmm numQ :=
  mkHmm numQ
    (fun y => QArith_base.inject_Z (match y with LB | LS => 0 | _ => -1000 end)%Z : F numQ)
    (fun a b => Some (QArith_base.inject_Z (match a, b with LS, LS => -2 | LB, LE => -3 | LE, LS => 0 | _, _ => -10 end)%Z : F numQ))
    (fun _ _ => Some (QArith_base.inject_Z 0 : F numQ)).

Theorem C95_hmm_refuted :
  exists (H : hmm numQ) (d : dstate) (s : str) (c : char),
    healthy (d_freq d) (d_total d) /\ word_char c = false /\ c <> 13%N /\ c <> 10%N /\
    let ws := fst (cut numQ H (mode_of false true) (d_freq d) (d_total d) (d_force d) s) in
    cut numQ H (mode_of false true) (d_freq d) (d_total d) (d_force d) (join_with [c] ws) <> gof (between [c] ws).
Proof.
  exists jn_hmm, (build [([c_lai; c_dao], 10%Z)]), [c_bei; c_jing; c_da], 32%N.
  split; [apply healthyb_ok; vm_compute; reflexivity|]. split; [reflexivity|]. split; [discriminate|]. split; [discriminate|].
  vm_compute. discriminate.
Qed.

(** 来到北京大学 joined with slashes *)
Definition jn : dstate := build [([c_bei; c_jing], 30%Z); ([c_da; c_xue], 20%Z); ([c_lai; c_dao], 15%Z)].
Example C95_example :
  let ws := [[c_lai; c_dao]; [c_bei; c_jing]; [c_da; c_xue]] in
  healthy (d_freq jn) (d_total jn) /\ word_char 47%N = false /\
  (forall H, cut numR H (mode_of false false) (d_freq jn) (d_total jn) (d_force jn) (concat ws) = gof ws) /\
  join_with [47%N] ws = [c_lai; c_dao; 47%N; c_bei; c_jing; 47%N; c_da; c_xue] /\
  between [47%N] ws = [[c_lai; c_dao]; [47%N]; [c_bei; c_jing]; [47%N]; [c_da; c_xue]].
Proof.
  cbv zeta. split; [apply healthyb_ok; vm_compute; reflexivity|]. split; [reflexivity|]. split; [|split; reflexivity].
  intros H. apply (@pick_cut H _ _ _ _ [[c_lai; c_dao]; [c_bei; c_jing]; [c_da; c_xue]]); [|discriminate| | |]; try (vm_compute; reflexivity).
  - apply healthyb_ok. vm_compute. reflexivity.
  - repeat constructor.
Qed.

Print Assumptions C95_joined_words.
Print Assumptions C95_words_back.
Print Assumptions C95_hmm_refuted.
