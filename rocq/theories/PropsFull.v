(** * Properties of full mode, and locality *)
From Verif Require Import PyBase PyRegex PyNum ModelFinalseg ModelSeg ModelDict
  SpecBase SpecSeg SpecFull InstQ ProofsBase ProofsFull ProofsLocal Demo ProofsDemo.

(** ** C03: every position of the text is used by some piece

    for every dictionary; full mode never raises *)
Theorem C03_full_mode_covers :
  forall (num : Num) (H : hmm num) (HMM : bool) (fr : freqs) (total : Z) (force : list str) (s : str),
    exists ps, cut num H (mode_of true HMM) fr total force s = gof ps /\ covers s ps.
Proof. intros. apply cut_full_covers. Qed.

(** words "abcde", "bc" *)
Definition dup_fr : freqs := d_freq (build [([97; 98; 99; 100; 101]%N, 5%Z); ([98; 99]%N, 5%Z)]).

(** a piece can repeat characters: it can be longer than the whole text *)
Theorem C03_pieces_repeat_characters_refuted :
  exists fr s p, prefix_closed (sget fr) /\
    In p (fst (cut numQ demo_hmm (mode_of true false) fr 10 [] s)) /\ length s < length p.
Proof.
  exists dup_fr, [97; 98; 99; 100; 101]%N, [97; 98; 99; 100; 101; 100; 101]%N.
  split; [apply prefix_closedb_ok; vm_compute; reflexivity|]. split; [|vm_compute; lia].
  vm_compute. auto.
Qed.

Example C03_nonvacuous :
  cut numQ demo_hmm (mode_of true false) demo_fr demo_total [] demo_text =
  gof [[c_lai; c_dao]; [c_bei; c_jing]; [c_bei; c_jing; c_da; c_xue]; [c_da; c_xue]; [c_da; c_xue; c_sheng];
       [c_comma]; [97; 98; 99]%N; []; [32]%N; []; [49; 50]%N; []; [13; 10]%N; []].
Proof. vm_compute. reflexivity. Qed.

(** ** C04: every dictionary word is reported *)
Theorem C04_full_mode_complete :
  forall (num : Num) (H : hmm num) (HMM : bool) (fr : freqs) (total : Z) (force : list str) (x w y : str),
    prefix_closed (sget fr) ->
    is_word (sget fr) w -> 2 <= length w -> ~ starts_alnum w ->
    Forall (fun c => word_char c = true) w ->
    In w (fst (cut num H (mode_of true HMM) fr total force (x ++ w ++ y))).
Proof. intros. eapply cut_full_complete; eauto. Qed.

(** a word starting with a letter can be swallowed: "xab" with the word "ab" *)
Definition ab_fr : freqs := d_freq (build [([97; 98]%N, 5%Z)]).
Theorem C04_alnum_word_refuted :
  exists fr s w, prefix_closed (sget fr) /\ is_word (sget fr) w /\ 2 <= length w /\
    substring w s /\ Forall (fun c => word_char c = true) s /\
    ~ In w (fst (cut numQ demo_hmm (mode_of true false) fr 10 [] s)).
Proof.
  exists ab_fr, [120; 97; 98]%N, [97; 98]%N.
  split; [apply prefix_closedb_ok; vm_compute; reflexivity|].
  split; [exists 5%Z; split; [vm_compute; reflexivity|lia]|]. split; [simpl; lia|].
  split; [exists 1, [120%N], []; auto|].
  split; [repeat constructor|]. vm_compute. intros [E|[]]. discriminate.
Qed.

Example C04_nonvacuous :
  let w := [c_bei; c_jing; c_da; c_xue] in
  is_word (sget demo_fr) w /\ 2 <= length w /\ ~ starts_alnum w /\
  Forall (fun c => word_char c = true) w /\ prefix_closed (sget demo_fr).
Proof.
  split; [exists 10%Z; split; [vm_compute; reflexivity|lia]|]. split; [simpl; lia|].
  split; [vm_compute; discriminate|]. split; [repeat constructor|apply demo_prefix_closed].
Qed.

(** ** C05: nothing else is reported *)
Theorem C05_full_mode_sound :
  forall (num : Num) (H : hmm num) (HMM : bool) (fr : freqs) (total : Z) (force : list str) (s p : str),
    In p (fst (cut num H (mode_of true HMM) fr total force s)) ->
    (exists r, In (true, r) (runs word_char s) /\ full_piece (sget fr) r p) \/
    (exists r, In (false, r) (runs word_char s) /\ other_piece r p).
Proof. intros. eapply cut_full_sound; eauto. Qed.

(** up to empty strings, the text outside the word characters is reported as its
    blanks one by one (CR LF together) and the stretches between them *)
Theorem C05_full_mode_other :
  forall (num : Num) (H : hmm num) (HMM : bool) (fr : freqs) (total : Z) (force : list str) (s : str),
    Forall (fun c => word_char c = false) s ->
    exists ps, cut num H (mode_of true HMM) fr total force s = gof ps /\
      filter (fun p => match p with [] => false | _ => true end) ps =
      flat_map (fun br : bool * str => if fst br then chars_crlf (snd br) else [snd br]) (runs is_space s).
Proof.
  intros num H HMM fr total force s FA. destruct (@cut_full_nonempty num H fr total force s) as [ps [P1 P2]].
  exists ps. split; auto. change (filter nonempty ps = blank_pieces s). rewrite P2. unfold full_nonempty.
  destruct s as [|c s]; [reflexivity|].
  pose proof (@ProofsRegex.runs_app_run word_char false (c :: s) []) as R. rewrite app_nil_r in R.
  rewrite R; auto; [|discriminate|exact I]. simpl. apply app_nil_r.
Qed.

(** words "ab", "abc" in the text "xabcy": the piece "xy" is no substring *)
Definition xy_fr : freqs := d_freq (build [([97; 98]%N, 5%Z); ([97; 98; 99]%N, 5%Z)]).
Theorem C05_not_a_substring_refuted :
  exists fr s p, prefix_closed (sget fr) /\
    In p (fst (cut numQ demo_hmm (mode_of true false) fr 10 [] s)) /\ ~ substring p s.
Proof.
  exists xy_fr, [120; 97; 98; 99; 121]%N, [120; 121]%N.
  split; [apply prefix_closedb_ok; vm_compute; reflexivity|]. split; [vm_compute; auto|].
  intros [k [a [b [E _]]]].
  destruct a as [|x1 a]; [discriminate|]. inversion E; subst.
  destruct a as [|x2 a]; [discriminate|]. inversion E; subst.
  destruct a as [|x3 a]; [discriminate|]. inversion E; subst.
  destruct a as [|x4 a]; [discriminate|]. inversion E; subst.
  destruct a as [|x5 a]; [discriminate|]. inversion E; subst. destruct a; discriminate.
Qed.

(** ** C45: segmentation is local *)

(** more generally: at any place next to a character that is no word character, and
    not between CR and LF, a text can be divided before segmenting it; [gapp] runs
    one generator after the other *)
Theorem C45_local_boundary :
  forall (num : Num) (H : hmm num) (HMM : bool) (fr : freqs) (total : Z) (force : list str) (u v : str),
    ~ (exists u0 v0, u = u0 ++ [13%N] /\ v = 10%N :: v0) ->
    (exists u0 c, u = u0 ++ [c] /\ word_char c = false) \/ (exists c v0, v = c :: v0 /\ word_char c = false) ->
    cut num H (mode_of false HMM) fr total force (u ++ v) =
    gapp (cut num H (mode_of false HMM) fr total force u) (cut num H (mode_of false HMM) fr total force v).
Proof. intros num H HMM fr total force u v NC SP. apply cut_local; [destruct HMM; reflexivity|split; auto]. Qed.

Theorem C45_separator :
  forall (num : Num) (H : hmm num) (HMM : bool) (fr : freqs) (total : Z) (force : list str) (a b : str) (c : char),
    word_char c = false -> c <> 13%N -> c <> 10%N ->
    cut num H (mode_of false HMM) fr total force (a ++ c :: b) =
    gapp (cut num H (mode_of false HMM) fr total force a)
         (gapp (gone [c]) (cut num H (mode_of false HMM) fr total force b)).
Proof.
  intros num H HMM fr total force a b c NW N13 N10.
  rewrite C45_local_boundary.
  - f_equal. change (c :: b) with ([c] ++ b). rewrite C45_local_boundary.
    + f_equal. rewrite ProofsSplit.cut_runs_accurate by (destruct HMM; reflexivity).
      simpl. rewrite NW. reflexivity.
    + intros [u0 [v0 [E _]]]. destruct u0 as [|? [|]]; inversion E; congruence.
    + left. exists [], c. auto.
  - intros [u0 [v0 [_ E]]]. inversion E; congruence.
  - right. exists c, b. auto.
Qed.

(** CR LF is one word, so the exclusion is needed *)
Example C45_crlf :
  cut numQ demo_hmm (mode_of false false) demo_fr demo_total [] [c_lai; 13; 10; c_dao]%N =
  gof [[c_lai]; [13; 10]%N; [c_dao]].
Proof. vm_compute. reflexivity. Qed.

(** in full mode the claim fails: two signs stay together *)
Theorem C45_full_mode_refuted :
  exists a c b, word_char c = false /\ c <> 13%N /\ c <> 10%N /\
    cut numQ demo_hmm (mode_of true false) demo_fr demo_total [] (a ++ c :: b) <>
    gapp (cut numQ demo_hmm (mode_of true false) demo_fr demo_total [] a)
         (gapp (gone [c]) (cut numQ demo_hmm (mode_of true false) demo_fr demo_total [] b)).
Proof.
  exists [c_comma], c_comma, []. split; [reflexivity|]. split; [discriminate|]. split; [discriminate|].
  vm_compute. discriminate.
Qed.

Example C45_nonvacuous :
  word_char c_comma = false /\
  cut numQ demo_hmm (mode_of false true) demo_fr demo_total [] ([c_lai; c_dao] ++ c_comma :: [c_bei; c_jing]) =
  gof [[c_lai; c_dao]; [c_comma]; [c_bei; c_jing]].
Proof. split; vm_compute; reflexivity. Qed.

Print Assumptions C03_full_mode_covers.
Print Assumptions C03_pieces_repeat_characters_refuted.
Print Assumptions C04_full_mode_complete.
Print Assumptions C04_alnum_word_refuted.
Print Assumptions C05_full_mode_sound.
Print Assumptions C05_full_mode_other.
Print Assumptions C05_not_a_substring_refuted.
Print Assumptions C45_local_boundary.
Print Assumptions C45_separator.
Print Assumptions C45_full_mode_refuted.
