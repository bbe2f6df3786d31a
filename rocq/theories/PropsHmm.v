(** * The HMM stage decodes a best label sequence *)
From Coq Require Import Reals.
From Verif Require Import PyBase PyNum ModelFinalseg ModelSeg SpecBase SpecSeg SpecHmm SpecNum InstR InstQ InstB64
  ProofsBase ProofsFinalseg ProofsVit Demo.

(** ** C14

    The words of the HMM stage are spelled by a label sequence that follows the
    BMES grammar and ends in E or S, and whose score is at least that of every
    other such sequence.  [O] orders the scores: see [SpecNum]. *)
Theorem C14_best_labels :
  forall (num : Num) (O : NumOrder num) (H : hmm num) (s : str),
    hmm_finite O H -> s <> [] ->
    exists labels ws,
      fs_cut_han H s = gof ws /\ concat ws = s /\ spelled_by labels ws /\
      length labels = length s /\ chain labels /\ final labels /\
      forall other, length other = length s -> chain other -> final other ->
        (o_val O (label_score H s other) <= o_val O (label_score H s labels))%R.
Proof.
  intros num O H [|c obs] FIN NE; [congruence|].
  exists (snd (viterbi H c obs)), (decode [] (c :: obs) (snd (viterbi H c obs))).
  destruct (viterbi_path H c obs) as [L [C FI]].
  destruct (viterbi_best FIN c obs) as [V1 V2].
  assert (FF : final_from None (snd (viterbi H c obs))).
  { unfold final_from. destruct (snd (viterbi H c obs)); auto. discriminate. }
  split; [apply fs_cut_han_eq|]. split; [|split; [|split; [|split; [|split]]]]; auto.
  - apply (@decode_concat None); simpl; auto.
  - destruct (@decode_spelled true None [] [] (c :: obs) (snd (viterbi H c obs))) as [bl [B1 [B2 B3]]];
      simpl; auto.
    exists bl. split; auto. split; auto. destruct bl; auto. tauto.
  - intros other LO CO FO. rewrite <- V1. apply V2; auto.
Qed.

(** in binary64 arithmetic, for every table of finite numbers *)
Theorem C14_best_labels_binary64 :
  forall (lg : Z -> b64) (LO : log_ok lg) (H : hmm (numB lg)) (s : str),
    hmm_finite (orderB lg LO) H -> s <> [] ->
    exists labels ws,
      fs_cut_han H s = gof ws /\ concat ws = s /\ spelled_by labels ws /\
      length labels = length s /\ chain labels /\ final labels /\
      forall other, length other = length s -> chain other -> final other ->
        (bval (label_score H s other) <= bval (label_score H s labels))%R.
Proof. intros lg LO H s FIN NE. apply (C14_best_labels _ (orderB lg LO) H s FIN NE). Qed.

Example C14_nonvacuous :
  hmm_finite orderQ demo_hmm /\
  fs_cut_han demo_hmm [c_bei; c_jing; c_da; c_xue] = gof [[c_bei; c_jing; c_da; c_xue]].
Proof. split; [|vm_compute; reflexivity]. repeat split. Qed.

Print Assumptions C14_best_labels.
Print Assumptions C14_best_labels_binary64.
