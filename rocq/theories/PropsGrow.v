(** * C112: full mode and a larger dictionary *)
From Coq Require Import Lia.
From Verif Require Import PyBase PyRegex PyNum ModelFinalseg ModelSeg ModelDict
  SpecBase SpecSeg SpecFull InstQ ProofsBase ProofsRegex ProofsSearch Demo ProofsDemo PropsFull.

(** ** C112: with more words in the dictionary, no word of two or more characters is lost

    [w] has no letters and digits *)
Theorem C112_words_stay :
  forall (num : Num) (H : hmm num) (HMM : bool) (fr fr' : freqs) (total total' : Z) (force force' : list str) (s w : str),
    prefix_closed (sget fr') -> (forall u, is_word (sget fr) u -> is_word (sget fr') u) ->
    In w (fst (cut num H (mode_of true HMM) fr total force s)) ->
    2 <= length w -> Forall (fun c => word_char c = true /\ is_alnum c = false) w ->
    In w (fst (cut num H (mode_of true HMM) fr' total' force' s)).
Proof.
  intros num H HMM fr fr' total total' force force' s w PC SUB I L FA.
  destruct w as [|c t]; [cbn in L; lia|]. inversion FA as [|? ? [WC AL] _]; subst.
  destruct (C05_full_mode_sound num H HMM fr total force s _ I) as [(r & IR & FP)|(r & IR & (k & a & b & ER & _) & _)].
  - inversion FP as [w W (k & a & b & ER & _)|d _ E|ws NE F E]; subst.
    + assert (X : exists x y, s = x ++ (c :: t) ++ y).
      { apply in_split in IR. destruct IR as (l1 & l2 & EL). pose proof (runs_concat word_char s) as RC. rewrite EL, map_app, concat_app in RC.
        cbn [map concat snd] in RC. rewrite <- RC. exists (concat (map snd l1) ++ a), (b ++ concat (map snd l2)).
        now rewrite <- !app_assoc. }
      destruct X as (x & y & ->). apply C04_full_mode_complete; auto.
      * cbn. congruence.
      * eapply Forall_impl; [|exact FA]. cbn. tauto.
    + cbn in L. lia.
    + exfalso. destruct ws as [|u ws]; [congruence|]. inversion F as [|? ? (SA & _ & _) _]; subst.
      destruct u as [|d u]; [destruct SA|]. cbn [concat app] in E. injection E as -> _. cbn in SA. congruence.
  - exfalso. pose proof (runs_class word_char s) as RC. rewrite Forall_forall in RC. destruct (RC _ IR) as [_ CL]. cbn [fst snd] in CL.
    rewrite ER in CL. apply Forall_app in CL. destruct CL as [_ CL]. inversion CL; subst. congruence.
Qed.

(** not so for single characters: they can go, and they can come, inside a longer word *)
Definition one_word : freqs := d_freq (build [([c_bei; c_jing; c_da; c_xue; c_sheng], 5%Z)]).
Definition two_words : freqs := d_freq (build [([c_bei; c_jing; c_da; c_xue; c_sheng], 5%Z); ([c_jing; c_da], 5%Z)]).

Theorem C112_single_characters_refuted :
  exists fr fr' s, prefix_closed (sget fr) /\ prefix_closed (sget fr') /\
    (forall u, is_word (sget fr) u -> is_word (sget fr') u) /\
    (exists w, In w (fst (cut numQ demo_hmm (mode_of true false) fr 10 [] s)) /\
               ~ In w (fst (cut numQ demo_hmm (mode_of true false) fr' 10 [] s))).
Proof.
  exists [], one_word, [c_bei; c_jing; c_da; c_xue; c_sheng].
  split; [apply prefix_closedb_ok; vm_compute; reflexivity|]. split; [apply prefix_closedb_ok; vm_compute; reflexivity|].
  split; [intros u (n & E & _); discriminate E|]. exists [c_bei]. split; [vm_compute; auto|].
  vm_compute. intros [E|[]]. discriminate E.
Qed.

(** the word 京大 is added and 学 comes, which neither contains it nor touches a boundary of the text *)
Theorem C112_only_the_new_word_refuted :
  exists fr fr' s v, prefix_closed (sget fr) /\ prefix_closed (sget fr') /\
    (forall u, is_word (sget fr') u <-> is_word (sget fr) u \/ u = v) /\
    (exists w, ~ In w (fst (cut numQ demo_hmm (mode_of true false) fr 10 [] s)) /\
               In w (fst (cut numQ demo_hmm (mode_of true false) fr' 10 [] s)) /\ Forall (fun c => ~ In c v) w).
Proof.
  exists one_word, two_words, [c_bei; c_jing; c_da; c_xue; c_sheng], [c_jing; c_da].
  split; [apply prefix_closedb_ok; vm_compute; reflexivity|]. split; [apply prefix_closedb_ok; vm_compute; reflexivity|].
  split.
  { intros u. split.
    - intros (n & E & NZ). apply sget_In in E. revert E. vm_compute two_words. intros E. cbn [In] in E.
      repeat (destruct E as [E|E]; [injection E as <- <-; first [congruence | right; reflexivity
                | left; apply wordb_is_word; vm_compute; reflexivity]|]). destruct E.
    - intros [(n & E & NZ)| ->].
      + apply sget_In in E. revert E. vm_compute one_word. intros E. cbn [In] in E.
        repeat (destruct E as [E|E]; [injection E as <- <-; first [congruence | apply wordb_is_word; vm_compute; reflexivity]|]). destruct E.
      + apply wordb_is_word. vm_compute. reflexivity. }
  exists [c_xue]. split; [vm_compute; intros [E|[]]; discriminate E|]. split; [vm_compute; auto|].
  repeat constructor. intros [E|[E|[]]]; discriminate E.
Qed.

Example C112_nonvacuous :
  prefix_closed (sget two_words) /\ (forall u, is_word (sget one_word) u -> is_word (sget two_words) u) /\
  cut numQ demo_hmm (mode_of true false) one_word 5 [] [c_bei; c_jing; c_da; c_xue; c_sheng] =
    gof [[c_bei; c_jing; c_da; c_xue; c_sheng]] /\
  cut numQ demo_hmm (mode_of true false) two_words 10 [] [c_bei; c_jing; c_da; c_xue; c_sheng] =
    gof [[c_bei; c_jing; c_da; c_xue; c_sheng]; [c_jing; c_da]; [c_xue]; [c_sheng]].
Proof.
  split; [apply prefix_closedb_ok; vm_compute; reflexivity|]. split.
  { intros u (n & E & NZ). apply sget_In in E. revert E. vm_compute one_word. intros E. cbn [In] in E.
    repeat (destruct E as [E|E]; [injection E as <- <-; first [congruence | apply wordb_is_word; vm_compute; reflexivity]|]). destruct E. }
  split; vm_compute; reflexivity.
Qed.

Print Assumptions C112_words_stay.
Print Assumptions C112_single_characters_refuted.
Print Assumptions C112_only_the_new_word_refuted.
