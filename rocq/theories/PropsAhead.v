(** * C110: no bounded look-ahead *)
From Coq Require Import Reals Lra Lia.
From Verif Require Import PyBase PyRegex PyNum ModelFinalseg ModelSeg ModelDict
  SpecBase SpecSeg SpecNum SpecScore SpecHealth SpecMode SpecLog SpecRoundErr InstR InstQ InstB64
  ProofsBase ProofsRegex ProofsSplit ProofsSeg ProofsNoHmm ProofsMode ProofsSuggest ProofsHealth
  Demo ProofsDemo PropsRoundErr PropsFullOrder.

(** five words of a few characters: "d", "da", "ab", "ba", "bc" *)
Definition a_d : char := c_bei.
Definition a_a : char := c_jing.
Definition a_b : char := c_da.
Definition a_c : char := c_xue.
Definition ahead : dstate :=
  build [([a_d], 10%Z); ([a_d; a_a], 100%Z); ([a_a; a_b], 100%Z); ([a_b; a_a], 100%Z); ([a_b; a_c], 100%Z)].

(** "d" and then [m] times "ab" *)
Fixpoint abs (m : nat) : str := match m with O => [] | S m' => a_a :: a_b :: abs m' end.
Definition text_of_abs (m : nat) : str := a_d :: abs m.

Definition even_words (m : nat) : list str := [a_d] :: repeat [a_a; a_b] m.
Definition odd_words (m : nat) : list str := [a_d; a_a] :: repeat [a_b; a_a] (m - 1) ++ [[a_b; a_c]].

Notation D := (sget (d_freq ahead)).
Notation T := (d_total ahead).

Lemma ahead_healthy : healthy (d_freq ahead) T.
Proof. apply healthyb_ok; vm_compute; reflexivity. Qed.

Lemma ahead_words w : is_word D w -> In w [[a_d]; [a_d; a_a]; [a_a; a_b]; [a_b; a_a]; [a_b; a_c]].
Proof.
  intros (n & E & NZ). apply sget_In in E. revert E. vm_compute (d_freq ahead). intros E. cbn [In] in E.
  repeat (destruct E as [E|E]; [injection E as <- <-; first [congruence | vm_compute; tauto]|]). destruct E.
Qed.

Lemma is_w w : wordb D w = true -> is_word D w.
Proof. unfold wordb, is_word. destruct (D w) as [n|]; [|discriminate]. intros E. exists n. split; auto. intros ->. discriminate. Qed.

(** the first word of a candidate at a place where a word starts *)
Lemma first_word s w ws u :
  candidate D s (w :: ws) -> is_word D u -> u <> [] -> prefix_of u s ->
  In w [[a_d]; [a_d; a_a]; [a_a; a_b]; [a_b; a_a]; [a_b; a_c]] /\ exists s', s = w ++ s' /\ candidate D s' ws.
Proof.
  intros (s' & E & NE & [W|[_ N]] & C) IU NU PU.
  - split; [apply ahead_words; auto|]. eauto.
  - exfalso. apply (N u); auto.
Qed.

Lemma cand_abs m : forall t ws, candidate D (abs m ++ t) ws -> exists ws', ws = repeat [a_a; a_b] m ++ ws' /\ candidate D t ws'.
Proof.
  induction m as [|m IH]; intros t ws C; [exists ws; auto|].
  destruct ws as [|w ws]; [discriminate C|]. cbn [abs app] in C.
  destruct (first_word _ _ _ [a_a; a_b] C) as (I & s' & E & C').
  { apply is_w. vm_compute. reflexivity. } { discriminate. } { exists (abs m ++ t). reflexivity. }
  repeat (destruct I as [<-|I]; [try discriminate E|]); [|destruct I].
  cbn [app] in E. injection E as <-. destruct (IH t ws C') as (ws' & -> & C2). exists ws'. auto.
Qed.

Lemma cand_bas m : forall t ws, candidate D (a_b :: abs m ++ t) ws ->
  exists ws', ws = repeat [a_b; a_a] m ++ ws' /\ candidate D (a_b :: t) ws'.
Proof.
  induction m as [|m IH]; intros t ws C; [exists ws; auto|].
  destruct ws as [|w ws]; [discriminate C|]. cbn [abs app] in C.
  destruct (first_word _ _ _ [a_b; a_a] C) as (I & s' & E & C').
  { apply is_w. vm_compute. reflexivity. } { discriminate. } { exists (a_b :: abs m ++ t). reflexivity. }
  repeat (destruct I as [<-|I]; [try discriminate E|]); [|destruct I].
  cbn [app] in E. injection E as <-. destruct (IH t ws C') as (ws' & -> & C2). exists ws'. auto.
Qed.

Lemma cand_nil ws : candidate D [] ws -> ws = [].
Proof. destruct ws as [|w ws]; auto. intros (s' & E & NE & _). destruct w; [congruence|discriminate]. Qed.

Lemma cand_one x ws : candidate D [x] ws -> ws = [[x]].
Proof.
  destruct ws as [|w ws]; [discriminate|]. intros (s' & E & NE & _ & C). destruct w as [|y [|z w]]; [congruence| |discriminate E].
  cbn [app] in E. injection E as <- <-. apply cand_nil in C. now subst ws.
Qed.

Lemma cand_bc ws : candidate D [a_b; a_c] ws -> ws = [[a_b; a_c]].
Proof.
  destruct ws as [|w ws]; [discriminate|]. intros C.
  destruct (first_word _ _ _ [a_b; a_c] C) as (I & s' & E & C').
  { apply is_w. vm_compute. reflexivity. } { discriminate. } { exists []. reflexivity. }
  repeat (destruct I as [<-|I]; [try discriminate E|]); [|destruct I].
  cbn [app] in E. injection E as <-. apply cand_nil in C'. now subst ws.
Qed.

(** there are two segmentations of each text *)
Lemma cand_even m ws : 1 <= m -> candidate D (text_of_abs m) ws ->
  ws = even_words m \/ ws = [a_d; a_a] :: repeat [a_b; a_a] (m - 1) ++ [[a_b]].
Proof.
  intros L C. destruct ws as [|w ws]; [discriminate C|]. destruct m as [|m]; [lia|]. unfold text_of_abs in C. cbn [abs] in C.
  destruct (first_word _ _ _ [a_d] C) as (I & s' & E & C').
  { apply is_w. vm_compute. reflexivity. } { discriminate. } { eexists. reflexivity. }
  repeat (destruct I as [<-|I]; [try discriminate E|]); [| |destruct I].
  - left. cbn [app] in E. injection E as <-. change (a_a :: a_b :: abs m) with (abs (S m)) in C'.
    rewrite <- (app_nil_r (abs (S m))) in C'. destruct (cand_abs (S m) [] ws C') as (ws' & -> & C2).
    apply cand_nil in C2. subst ws'. rewrite app_nil_r. reflexivity.
  - right. cbn [app] in E. injection E as <-. rewrite <- (app_nil_r (abs m)) in C'.
    destruct (cand_bas m [] ws C') as (ws' & -> & C2). apply cand_one in C2. subst ws'.
    replace (S m - 1) with m by lia. reflexivity.
Qed.

Lemma cand_odd m ws : 1 <= m -> candidate D (text_of_abs m ++ [a_c]) ws ->
  ws = odd_words m \/ ws = even_words m ++ [[a_c]].
Proof.
  intros L C. destruct ws as [|w ws]; [discriminate C|]. destruct m as [|m]; [lia|]. unfold text_of_abs in C. cbn [abs app] in C.
  destruct (first_word _ _ _ [a_d] C) as (I & s' & E & C').
  { apply is_w. vm_compute. reflexivity. } { discriminate. } { eexists. reflexivity. }
  repeat (destruct I as [<-|I]; [try discriminate E|]); [| |destruct I].
  - right. cbn [app] in E. injection E as <-. change (a_a :: a_b :: abs m ++ [a_c]) with (abs (S m) ++ [a_c]) in C'.
    destruct (cand_abs (S m) [a_c] ws C') as (ws' & -> & C2). apply cand_one in C2. subst ws'. reflexivity.
  - left. cbn [app] in E. injection E as <-.
    destruct (cand_bas m [a_c] ws C') as (ws' & -> & C2). apply cand_bc in C2. subst ws'.
    unfold odd_words. replace (S m - 1) with m by lia. reflexivity.
Qed.

Lemma abs_cand m : forall t ws, candidate D t ws -> candidate D (abs m ++ t) (repeat [a_a; a_b] m ++ ws).
Proof.
  induction m as [|m IH]; intros t ws C; [exact C|]. cbn [repeat app abs candidate]. exists (abs m ++ t).
  split; [reflexivity|]. split; [discriminate|]. split; [left; apply is_w; vm_compute; reflexivity|auto].
Qed.
Lemma bas_cand m : forall t ws, candidate D (a_b :: t) ws -> candidate D (a_b :: abs m ++ t) (repeat [a_b; a_a] m ++ ws).
Proof.
  induction m as [|m IH]; intros t ws C; [exact C|]. cbn [repeat app abs candidate]. exists (a_b :: abs m ++ t).
  split; [reflexivity|]. split; [discriminate|]. split; [left; apply is_w; vm_compute; reflexivity|auto].
Qed.
Lemma even_cand m : candidate D (text_of_abs m) (even_words m).
Proof.
  exists (abs m). split; [reflexivity|]. split; [discriminate|]. split; [left; apply is_w; vm_compute; reflexivity|].
  rewrite <- (app_nil_r (abs m)), <- (app_nil_r (repeat _ _)). apply abs_cand. reflexivity.
Qed.
Lemma odd_cand m : 1 <= m -> candidate D (text_of_abs m ++ [a_c]) (odd_words m).
Proof.
  intros L. destruct m as [|m]; [lia|]. exists (a_b :: abs m ++ [a_c]). split; [reflexivity|]. split; [discriminate|].
  split; [left; apply is_w; vm_compute; reflexivity|]. replace (S m - 1) with m by lia. apply bas_cand.
  exists []. split; [reflexivity|]. split; [discriminate|]. split; [left; apply is_w; vm_compute; reflexivity|reflexivity].
Qed.

Local Open Scope R_scope.
Lemma prob_repeat w m ws : prob D T (repeat w m ++ ws) = (IZR (weight_of D w) / IZR T) ^ m * prob D T ws.
Proof.
  induction m as [|m IH]; [cbn [repeat app pow]; ring|]. change (repeat w (S m) ++ ws) with (w :: (repeat w m ++ ws)).
  unfold prob at 1. cbn [fold_right]. fold (prob D T (repeat w m ++ ws)). rewrite IH. cbn [pow]. ring.
Qed.
Lemma prob_cons w ws : prob D T (w :: ws) = IZR (weight_of D w) / IZR T * prob D T ws.
Proof. reflexivity. Qed.

Definition x100 : R := 100 / 410.
Lemma wt_T : IZR T = 410. Proof. vm_compute (d_total ahead). reflexivity. Qed.
Lemma wt_100 w : In w [[a_d; a_a]; [a_a; a_b]; [a_b; a_a]; [a_b; a_c]] -> IZR (weight_of D w) / IZR T = x100.
Proof.
  rewrite wt_T. intros I. unfold x100.
  assert (weight_of D w = 100%Z) as -> by (repeat (destruct I as [<-|I]; [vm_compute; reflexivity|]); destruct I). reflexivity.
Qed.
Lemma prob_even m ws : prob D T (even_words m ++ ws) = 10 / 410 * (x100 ^ m * prob D T ws).
Proof.
  unfold even_words. cbn [app]. rewrite prob_cons, prob_repeat, (wt_100 [a_a; a_b]) by (cbn; tauto).
  replace (weight_of D [a_d]) with 10%Z by (vm_compute; reflexivity). rewrite wt_T. reflexivity.
Qed.
Lemma prob_bas m w : (1 <= m)%nat ->
  prob D T ([a_d; a_a] :: repeat [a_b; a_a] (m - 1) ++ [w]) = x100 ^ m * (IZR (weight_of D w) / 410).
Proof.
  intros L. rewrite prob_cons, prob_repeat, prob_cons, (wt_100 [a_d; a_a]), (wt_100 [a_b; a_a]), wt_T by (cbn; tauto).
  destruct m as [|m]; [lia|]. replace (S m - 1)%nat with m by lia. cbn [pow]. change (prob D T []) with 1. field.
Qed.
Lemma x100_pos m : 0 < x100 ^ m.
Proof. apply pow_lt. unfold x100. lra. Qed.

Lemma even_wins m ws : (1 <= m)%nat -> candidate D (text_of_abs m) ws -> ws <> even_words m ->
  prob D T ws * 2 < prob D T (even_words m).
Proof.
  intros L C N. destruct (cand_even m ws L C) as [-> | ->]; [congruence|]. rewrite prob_bas by auto.
  replace (weight_of D [a_b]) with 1%Z by (vm_compute; reflexivity).
  rewrite <- (app_nil_r (even_words m)), prob_even. pose proof (x100_pos m). change (prob D T []) with 1. lra.
Qed.
Lemma odd_wins m ws : (1 <= m)%nat -> candidate D (text_of_abs m ++ [a_c]) ws -> ws <> odd_words m ->
  prob D T ws * 2 < prob D T (odd_words m).
Proof.
  intros L C N. destruct (cand_odd m ws L C) as [-> | ->]; [congruence|]. unfold odd_words. rewrite prob_bas by auto.
  replace (weight_of D [a_b; a_c]) with 100%Z by (vm_compute; reflexivity).
  rewrite prob_even, prob_cons. replace (weight_of D [a_c]) with 1%Z by (vm_compute; reflexivity). rewrite wt_T.
  pose proof (x100_pos m). change (prob D T []) with 1. lra.
Qed.

(** what is printed when no two single characters are next to each other *)
Lemma grouped_lone st DD ws out : hmm_grouped st DD ws out ->
  (forall x u v y, ws = x ++ u :: v :: y -> length u = 1%nat -> length v <> 1%nat) -> out = ws.
Proof.
  induction 1 as [|w ws out NW HG IH|g ws ps out NG FG HB LONE ST HG IH]; intros NA; auto.
  - f_equal. apply IH. intros x u v y E. apply (NA (w :: x) u v y). rewrite E. reflexivity.
  - assert (L : length g = 1%nat).
    { destruct g as [|u [|v g]]; [congruence|reflexivity|]. exfalso. inversion FG as [|? ? U FG']; subst. inversion FG' as [|? ? V _]; subst.
      apply (NA [] u v (g ++ ws)); auto. }
    rewrite LONE by auto. f_equal. apply IH. intros x u v y E. apply (NA (g ++ x) u v y). rewrite E, app_assoc. reflexivity.
Qed.

Lemma merge_plain ws : Forall (fun w => eng1 w = false) ws -> merge_eng [] ws = ws.
Proof.
  induction 1 as [|w ws E _ IH]; [reflexivity|]. cbn [merge_eng]. rewrite E. cbn [flush app]. now rewrite IH.
Qed.

(** a text of word characters only, the segmentation of which is [ws] *)
Lemma cut_chosen num (H : hmm num) HMM force r ws :
  r <> [] -> Forall (fun c => word_char c = true) r -> chosen num (d_freq ahead) T r = ws ->
  Forall (fun w => eng1 w = false) ws ->
  (forall x u v y, ws = x ++ u :: v :: y -> length u = 1%nat -> length v <> 1%nat) ->
  cut num H (mode_of false HMM) (d_freq ahead) T force r = gof ws.
Proof.
  intros NE FA CH NA LO. destruct HMM; cbn [mode_of].
  - destruct (@cut_hmm_text num H (d_freq ahead) T force r (healthy_sane ahead_healthy)) as [out [G E]].
    rewrite E, (one_run word_char true r NE FA). cbn [flat_map fst snd]. rewrite app_nil_r. f_equal.
    specialize (G r). rewrite CH in G. eapply grouped_lone; eauto.
  - rewrite cut_nohmm_text by (apply healthy_sane, ahead_healthy). rewrite (one_run word_char true r NE FA).
    cbn [flat_map fst snd]. rewrite app_nil_r, CH, merge_plain; auto.
Qed.

Lemma abs_word m : Forall (fun c => word_char c = true) (abs m).
Proof. induction m as [|m IH]; cbn [abs]; repeat constructor; auto. Qed.
Lemma abs_len m : length (abs m) = (2 * m)%nat.
Proof. induction m as [|m IH]; cbn [abs length]; lia. Qed.
Lemma even_text m : Forall (fun c => word_char c = true) (text_of_abs m).
Proof. constructor; [reflexivity|apply abs_word]. Qed.
Lemma odd_text m : Forall (fun c => word_char c = true) (text_of_abs m ++ [a_c]).
Proof. apply Forall_app. split; [apply even_text|repeat constructor]. Qed.
Lemma even_plain m : Forall (fun w => eng1 w = false) (even_words m).
Proof. constructor; [reflexivity|]. apply Forall_forall. intros w I. apply repeat_spec in I. now subst w. Qed.
Lemma odd_plain m : Forall (fun w => eng1 w = false) (odd_words m).
Proof.
  constructor; [reflexivity|]. apply Forall_app. split; [|repeat constructor].
  apply Forall_forall. intros w I. apply repeat_spec in I. now subst w.
Qed.
Lemma even_lone m x u v y : even_words m = x ++ u :: v :: y -> length u = 1%nat -> length v <> 1%nat.
Proof.
  intros E _ LV. assert (I : In v (repeat [a_a; a_b] m)).
  { destruct x as [|x0 x]; cbn [app] in E; injection E as _ E; rewrite E; [left; auto|]. apply in_or_app. right. right. left. auto. }
  apply repeat_spec in I. subst v. discriminate LV.
Qed.
Lemma odd_lone m x u v y : odd_words m = x ++ u :: v :: y -> length u = 1%nat -> length v <> 1%nat.
Proof.
  intros E LU _. assert (I : In u (odd_words m)) by (rewrite E; apply in_or_app; right; left; auto).
  destruct I as [<-|I]; [discriminate LU|]. apply in_app_or in I. destruct I as [I|[<-|[]]]; [|discriminate LU].
  apply repeat_spec in I. subst u. discriminate LU.
Qed.

(** ** C110: one more character at the end changes every word

    exact arithmetic, texts of any length, with or without HMM *)
Theorem C110_exact :
  forall (H : hmm numR) (HMM : bool) (force : list str) (m : nat), (1 <= m)%nat ->
    cut numR H (mode_of false HMM) (d_freq ahead) T force (text_of_abs m) = gof (even_words m) /\
    cut numR H (mode_of false HMM) (d_freq ahead) T force (text_of_abs m ++ [a_c]) = gof (odd_words m).
Proof.
  intros H HMM force m L. pose proof ahead_healthy as HE. pose proof HE as [PC _].
  assert (W : forall r win, candidate D r win ->
    (forall ws, candidate D r ws -> ws <> win -> prob D T ws * 2 < prob D T win) -> chosen numR (d_freq ahead) T r = win).
  { intros r win CW B. destruct (list_eq_dec (list_eq_dec N.eq_dec) (chosen numR (d_freq ahead) T r) win) as [E|NE]; auto. exfalso.
    pose proof (chosen_candidate numR r (healthy_sane HE) PC) as CC. specialize (B _ CC NE).
    pose proof (@chosen_prob (d_freq ahead) T r win (healthy_sane HE) PC CW) as LE.
    destruct (healthy_sane HE) as [P N]. pose proof (@prob_pos D T (chosen numR (d_freq ahead) T r) P N). lra. }
  split; apply cut_chosen.
  - discriminate.
  - apply even_text.
  - apply W; [apply even_cand|]. intros ws. apply even_wins; auto.
  - apply even_plain.
  - apply even_lone.
  - discriminate.
  - apply odd_text.
  - apply W; [apply odd_cand; auto|]. intros ws. apply odd_wins; auto.
  - apply odd_plain.
  - apply odd_lone.
Qed.

(** binary64, texts of up to 2^21 characters *)
Theorem C110_binary64 :
  forall (lg : Z -> b64), log_ok lg -> log_close lg ->
  forall (H : hmm (numB lg)) (HMM : bool) (force : list str) (m : nat),
    (1 <= m)%nat -> (Z.of_nat (2 * m + 2) <= 2 ^ 21)%Z ->
    cut (numB lg) H (mode_of false HMM) (d_freq ahead) T force (text_of_abs m) = gof (even_words m) /\
    cut (numB lg) H (mode_of false HMM) (d_freq ahead) T force (text_of_abs m ++ [a_c]) = gof (odd_words m).
Proof.
  intros lg LO LC H HMM force m L LM. pose proof ahead_healthy as HE. pose proof HE as [PC _].
  assert (W : forall r win, (length r <= 2 * m + 2)%nat -> candidate D r win ->
    (forall ws, candidate D r ws -> ws <> win -> prob D T ws * 2 < prob D T win) -> chosen (numB lg) (d_freq ahead) T r = win).
  { intros r win LR CW B. destruct (list_eq_dec (list_eq_dec N.eq_dec) (chosen (numB lg) (d_freq ahead) T r) win) as [E|NE]; auto. exfalso.
    pose proof (chosen_candidate (numB lg) r (healthy_sane HE) PC) as CC. specialize (B _ CC NE).
    assert (LZ : (Z.of_nat (length r) <= 2 ^ 21)%Z) by lia.
    assert (LN : (length r <= 2 ^ 21)%nat).
    { apply Nat2Z.inj_le. rewrite Nat2Z.inj_pow. exact LZ. }
    pose proof (chosen_near lg LO LC (d_freq ahead) T r win HE) as NB.
    assert (LE : prob D T win <= prob D T (chosen (numB lg) (d_freq ahead) T r) * slack (length r)).
    { apply NB; auto. vm_compute. discriminate. }
    destruct (healthy_sane HE) as [P N]. pose proof (@prob_pos D T (chosen (numB lg) (d_freq ahead) T r) P N) as PP.
    assert (SL : slack (length r) <= 2).
    { unfold slack. assert (B1 : 0 <= INR (length r) <= 2097152).
      { split; [apply pos_INR|]. rewrite INR_IZR_INZ. apply IZR_le. exact LZ. }
      assert (INR (length r) * INR (length r) <= 2097152 * 2097152) by (apply Rmult_le_compat; lra). lra. }
    assert (prob D T (chosen (numB lg) (d_freq ahead) T r) * slack (length r) <= prob D T (chosen (numB lg) (d_freq ahead) T r) * 2)
      by (apply Rmult_le_compat_l; lra).
    lra. }
  assert (LEN : length (text_of_abs m) = (2 * m + 1)%nat) by (unfold text_of_abs; cbn [length]; rewrite abs_len; lia).
  split; apply cut_chosen.
  - discriminate.
  - apply even_text.
  - apply W; [rewrite LEN; lia|apply even_cand|]. intros ws. apply even_wins; auto.
  - apply even_plain.
  - apply even_lone.
  - discriminate.
  - apply odd_text.
  - apply W; [rewrite app_length, LEN; cbn [length]; lia|apply odd_cand; auto|]. intros ws. apply odd_wins; auto.
  - apply odd_plain.
  - apply odd_lone.
Qed.

(** the two segmentations have no word in common *)
Theorem C110_every_word_changes :
  forall m w, In w (even_words m) -> ~ In w (odd_words m).
Proof.
  intros m w I J. destruct I as [<-|I].
  - destruct J as [J|J]; [discriminate J|]. apply in_app_or in J. destruct J as [J|[J|[]]]; [|discriminate J].
    apply repeat_spec in J. discriminate J.
  - apply repeat_spec in I. subst w. destruct J as [J|J]; [discriminate J|].
    apply in_app_or in J. destruct J as [J|[J|[]]]; [|discriminate J]. apply repeat_spec in J. discriminate J.
Qed.

(** so no number of characters decides about the first word *)
Theorem C110_no_look_ahead :
  forall (H : hmm numR) (HMM : bool) (force : list str),
    exists d : dstate, healthy (d_freq d) (d_total d) /\
      ~ exists k, forall u v v', (k <= length u)%nat ->
          hd_error (fst (cut numR H (mode_of false HMM) (d_freq d) (d_total d) force (u ++ v))) =
          hd_error (fst (cut numR H (mode_of false HMM) (d_freq d) (d_total d) force (u ++ v'))).
Proof.
  intros H HMM force. exists ahead. split; [apply ahead_healthy|]. intros [k B].
  specialize (B (text_of_abs (S k)) [] [a_c]). rewrite app_nil_r in B.
  destruct (C110_exact H HMM force (S k)) as [E1 E2]; [lia|]. rewrite E1, E2 in B. cbn in B.
  assert (X : Some [a_d] = Some [a_d; a_a]); [|discriminate X]. apply B. rewrite abs_len. lia.
Qed.

Example C110_nonvacuous :
  text_of_abs 2 = [a_d; a_a; a_b; a_a; a_b] /\ even_words 2 = [[a_d]; [a_a; a_b]; [a_a; a_b]] /\
  odd_words 2 = [[a_d; a_a]; [a_b; a_a]; [a_b; a_c]] /\ T = 410%Z /\
  cut numQ demo_hmm (mode_of false true) (d_freq ahead) T [] (text_of_abs 2 ++ [a_c]) = gof (odd_words 2).
Proof. repeat split; vm_compute; reflexivity. Qed.

Print Assumptions C110_exact.
Print Assumptions C110_binary64.
Print Assumptions C110_every_word_changes.
Print Assumptions C110_no_look_ahead.
