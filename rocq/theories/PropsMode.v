(** * Properties of the accurate mode with HMM *)
From Coq Require Import Reals.
From Verif Require Import PyBase PyRegex PyNum ModelFinalseg ModelSeg ModelDict
  SpecBase SpecSeg SpecHmm SpecNum SpecScore SpecMode InstR InstQ InstB64
  ProofsBase ProofsFinalseg ProofsNoHmm ProofsMode PropsCut Demo ProofsDemo.

(** ** C57

    With the HMM, the text is divided into the same best segmentation as without
    it; only the maximal groups of one-character words that are not a dictionary
    word are handed to the HMM stage. *)
Theorem C57_hmm_only_for_unknown_groups :
  forall (num : Num) (O : NumOrder num) (H : hmm num) (fr : freqs) (total : Z) (force : list str) (s : str),
    sane (sget fr) total -> prefix_closed (sget fr) ->
    exists choice plain tagged : str -> list str,
      cut num H (mode_of false false) fr total force s =
        gof (flat_map (fun br : bool * str => if fst br then plain (snd br) else chars_crlf (snd br))
                      (runs word_char s)) /\
      cut num H (mode_of false true) fr total force s =
        gof (flat_map (fun br : bool * str => if fst br then tagged (snd br) else chars_crlf (snd br))
                      (runs word_char s)) /\
      forall r, best_for num O (sget fr) total r (choice r) /\ merged (choice r) (plain r) /\
        hmm_grouped (fun x ps => fs_cut num H force x = gof ps) (sget fr) (choice r) (tagged r).
Proof.
  intros num O H fr total force s SA PC.
  destruct (@cut_hmm_text num H fr total force s SA) as [out [HG E]].
  exists (chosen num fr total), (fun r => ProofsSeg.merge_eng [] (chosen num fr total r)), out.
  split; [apply cut_nohmm_text; auto|]. split; [exact E|].
  intros r. split; [split|split].
  - apply chosen_candidate; auto.
  - intros ws' C. apply chosen_best; auto.
  - apply ProofsOpt.merge_eng_merged.
  - apply HG.
Qed.

(** the group 来 大 学 is handed to the HMM, which finds one word; 来 大 together
    being a dictionary word, it would be kept apart *)
Example C57_nonvacuous :
  let d := build [([c_bei; c_jing], 90%Z); ([c_lai], 50%Z); ([c_da], 50%Z); ([c_xue], 50%Z)] in
  let s := [c_bei; c_jing; c_lai; c_da; c_xue; c_bei; c_jing; 97]%N in
  sane (sget (d_freq d)) (d_total d) /\ prefix_closed (sget (d_freq d)) /\
  cut numQ demo_hmm (mode_of false false) (d_freq d) (d_total d) [] s =
    gof [[c_bei; c_jing]; [c_lai]; [c_da]; [c_xue]; [c_bei; c_jing]; [97]]%N /\
  cut numQ demo_hmm (mode_of false true) (d_freq d) (d_total d) [] s =
    gof [[c_bei; c_jing]; [c_lai; c_da; c_xue]; [c_bei; c_jing]; [97]]%N.
Proof.
  split; [|split; [|split]]; [apply saneb_ok| apply prefix_closedb_ok| |]; vm_compute; reflexivity.
Qed.

(** ** C58

    The HMM stage on a text: in a Han run the words found by the HMM, except
    that words marked for splitting come out as single characters; in the text
    between Han runs, numbers such as "3.14%" are kept together. *)
Theorem C58_hmm_stage_text :
  forall (num : Num) (H : hmm num) (force : list str) (s : str),
    exists out, fs_cut num H force s = gof out /\
      stage_text (fun r ws => fs_cut_han H r = gof ws) force (runs han_char s) out.
Proof. intros. apply stage_ok. Qed.

(** the pieces of text without Han characters are determined by the text *)
Theorem C58_pieces_unique :
  forall s ws ws', token_pieces s ws -> token_pieces s ws' -> ws = ws'.
Proof.
  intros s ws ws' T. revert ws'. induction T as [|u s ws NE FA HD T IH|c s t r ws EC ET T IH]; intros ws' T'.
  - remember [] as z eqn:EZ. destruct T' as [|u' s' ws1 NE' FA' HD' T1|]; auto; [|discriminate].
    apply app_eq_nil in EZ. destruct EZ; congruence.
  - remember (u ++ s) as z eqn:EZ. destruct T' as [|u' s' ws1 NE' FA' HD' T1|c' s' t' r' ws1 EC' ET' T1].
    + symmetry in EZ. apply app_eq_nil in EZ. destruct EZ; congruence.
    + assert (U : u = u' /\ s = s').
      { clear - EZ FA FA' HD HD'. revert u' EZ FA'. induction FA as [|c u EC FA IH]; intros u' EZ FA'.
        - destruct u' as [|d u']; [auto|]. simpl in EZ. subst s. inversion FA'; subst. congruence.
        - destruct u' as [|d u'].
          + simpl in EZ. subst s'. congruence.
          + simpl in EZ. injection EZ as -> EZ. inversion FA'; subst.
            destruct (IH u') as [-> ->]; auto. }
      destruct U as [-> ->]. f_equal. auto.
    + destruct u as [|x u]; [congruence|]. simpl in EZ. injection EZ as -> _. inversion FA; subst. congruence.
  - remember (c :: s) as z eqn:EZ. destruct T' as [|u' s' ws1 NE' FA' HD' T1|c' s' t' r' ws1 EC' ET' T1].
    + discriminate.
    + destruct u' as [|x u']; [congruence|]. simpl in EZ. injection EZ as -> _. inversion FA'; subst. congruence.
    + rewrite ET in ET'. injection ET' as <- <-. f_equal. auto.
Qed.

(** "北3.14%x." in the HMM stage; and a word marked for splitting *)
Example C58_nonvacuous :
  fs_cut numQ demo_hmm [] [c_bei; 51; 46; 49; 52; 37; 120; 46]%N =
    gof [[c_bei]; [51; 46; 49; 52; 37]; [120]; [46]]%N /\
  fs_cut numQ demo_hmm [[c_bei; c_jing; c_da]] [c_bei; c_jing; c_da] = gof [[c_bei]; [c_jing]; [c_da]].
Proof. vm_compute. auto. Qed.

Print Assumptions C57_hmm_only_for_unknown_groups.
Print Assumptions C58_hmm_stage_text.
Print Assumptions C58_pieces_unique.
