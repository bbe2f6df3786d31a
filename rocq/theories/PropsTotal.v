(** * C92, C93: what the total of all frequencies does *)
From Coq Require Import Reals Lra Lia.
From Verif Require Import PyBase PyRegex PyNum ModelFinalseg ModelSeg ModelDict SpecBase SpecSeg SpecNum SpecScore SpecDict SpecHealth
  SpecApi SpecOrder SpecExt InstR Demo
  ProofsBase ProofsRegex ProofsSplit ProofsDag ProofsSeg ProofsOpt ProofsNoHmm ProofsDict ProofsUserdict ProofsTotal
  ProofsSuggest ProofsWhole ProofsOrder ProofsExt ProofsHealth PropsDict PropsExt ProofsDemo.

(** ** C92: the same user dictionary again *)

(** a step of a loop over the lines either sets a value or keeps one that is there *)
Definition settles {V} (g : option V -> option V) : Prop :=
  (exists v, forall o, g o = Some v) \/
  (exists x, forall o, g o = match o with Some v => Some v | None => x end).

Lemma settles_fold {V} {A} (step : option V -> A -> option V) :
  (forall a, settles (fun o => step o a)) -> forall l, settles (fun o => fold_left step l o).
Proof.
  intros S. induction l as [|a l IH]; [right; exists None; intros [v|]; reflexivity|]. cbn [fold_left].
  destruct IH as [[v E]|[x E]]; [left; exists v; intros o; apply E|].
  destruct (S a) as [[w F]|[y F]].
  - left. exists w. intros o. rewrite E, F. reflexivity.
  - right. exists (match y with Some v => Some v | None => x end). intros o. rewrite E, F. destruct o; auto.
Qed.
Lemma settles_twice {V} (g : option V -> option V) o : settles g -> g (g o) = g o.
Proof. intros [[v E]|[x E]]; rewrite !E; [reflexivity|]. destruct o; auto. destruct x; auto. Qed.

Definition freq_step (k : str) (o : option Z) (a : addition) : option Z :=
  if str_eqb k (fst (fst a)) then Some (snd (fst a))
  else match o with Some n => Some n | None => if is_prefix k (fst (fst a)) then Some 0%Z else None end.
Definition tag_step (k : str) (o : option str) (a : addition) : option str :=
  match snd a with Some (c :: t) => if str_eqb k (fst (fst a)) then Some (c :: t) else o | _ => o end.

Lemma adds_freq l d k : sget (d_freq (adds d l)) k = fold_left (freq_step k) l (sget (d_freq d) k).
Proof.
  revert d. induction l as [|a l IH]; intros d; [reflexivity|]. cbn [adds fold_left]. fold (adds (add1 d a) l).
  rewrite IH, add1_freq. reflexivity.
Qed.
Lemma adds_tags l d k : sget (d_tags (adds d l)) k = fold_left (tag_step k) l (sget (d_tags d) k).
Proof.
  revert d. induction l as [|a l IH]; intros d; [reflexivity|]. cbn [adds fold_left]. fold (adds (add1 d a) l).
  rewrite IH, add1_tags. reflexivity.
Qed.
Lemma adds_forced l d x :
  In x (d_force (adds d l)) <-> In x (d_force d) \/ exists a, In a l /\ snd (fst a) = 0%Z /\ x = fst (fst a).
Proof.
  revert d. induction l as [|a l IH]; intros d.
  - cbn. split; [auto|]. intros [K|[a [[] _]]]. auto.
  - cbn [adds fold_left]. fold (adds (add1 d a) l). rewrite IH, add1_force. split.
    + intros [[K|[E1 E2]]|[b [K E]]]; auto; right; [exists a|exists b]; cbn; auto.
    + intros [K|[b [[<-|K] E]]]; auto. right. exists b. auto.
Qed.
Definition sum_freqs (es : list (str * Z * option str)) : Z := fold_right (fun e n => (snd (fst e) + n)%Z) 0%Z es.
Lemma adds_total l d : d_total (adds d l) = (d_total d + sum_freqs l)%Z.
Proof.
  revert d. induction l as [|a l IH]; intros d; cbn [adds fold_left sum_freqs fold_right]; [lia|].
  fold (adds (add1 d a) l) (sum_freqs l). rewrite IH. cbn. lia.
Qed.

(** Loading a user dictionary a second time, every line of which gives a frequency,
    changes no frequency, no tag and no forced split; but every frequency is counted
    again in the total. *)
Theorem C92_loading_again :
  forall (num : Num) (H : hmm num) (d : dstate) (lines : list uline) (es : list (str * Z * option str)),
    Forall2 line_reads lines (map (fun e => Some (fst (fst e), Some (snd (fst e)), snd e)) es) ->
    exists d1 d2,
      load_userdict num H d lines = (d1, None) /\ load_userdict num H d1 lines = (d2, None) /\
      (forall w, sget (d_freq d2) w = sget (d_freq d1) w) /\
      (forall w, sget (d_tags d2) w = sget (d_tags d1) w) /\
      (forall w, In w (d_force d2) <-> In w (d_force d1)) /\
      d_total d1 = (d_total d + sum_freqs es)%Z /\ d_total d2 = (d_total d1 + sum_freqs es)%Z.
Proof.
  intros num H d lines es F. exists (adds d es), (adds (adds d es) es).
  split; [rewrite (C22_userdict_is_add_word num H d _ _ F); apply add_each_adds|].
  split; [rewrite (C22_userdict_is_add_word num H _ _ _ F); apply add_each_adds|].
  split; [|split; [|split; [|split; apply adds_total]]].
  - intros k. rewrite !adds_freq. refine (settles_twice (fun o => fold_left (freq_step k) es o) _ _). apply settles_fold. intros a. unfold freq_step.
    destruct (str_eqb k (fst (fst a))); [left|right]; eexists; intros [v|]; reflexivity.
  - intros k. rewrite !adds_tags. refine (settles_twice (fun o => fold_left (tag_step k) es o) _ _). apply settles_fold. intros a. unfold tag_step.
    destruct (snd a) as [[|c t]|]; [right; exists None; intros [v|]; reflexivity| |right; exists None; intros [v|]; reflexivity].
    destruct (str_eqb k (fst (fst a))); [left|right; exists None]; try eexists; intros [v|]; reflexivity.
  - intros x. rewrite !adds_forced. tauto.
Qed.

(** ** A larger total: not more words *)

Lemma merge_nothing (ws : list str) :
  Forall (fun c => is_alnum c = false) (concat ws) -> merge_eng [] ws = ws.
Proof.
  induction ws as [|u ws IH]; [reflexivity|]. cbn [concat merge_eng]. intros FA. apply Forall_app in FA. destruct FA as [FU FW].
  rewrite eng1_single. assert (single_alnum u = false) as ->.
  { destruct u as [|c [|d u]]; auto. inversion FU; auto. }
  cbn. f_equal. auto.
Qed.

Lemma weights_same D E ws : (forall w, D w = E w) -> weights D ws = weights E ws.
Proof. intros S. induction ws as [|w ws IH]; [reflexivity|]. unfold weights in *. cbn [fold_right]. rewrite IH. unfold weight_of. rewrite S. reflexivity. Qed.
Lemma candidate_same D E s ws : (forall w, D w = E w) -> candidate D s ws -> candidate E s ws.
Proof.
  intros S. revert s. induction ws as [|w ws IH]; intros s C; cbn in *; auto.
  destruct C as [s' [-> [NE [W C]]]]. exists s'. split; auto. split; auto. split; auto.
  assert (WW : forall x, is_word D x <-> is_word E x) by (intros x; unfold is_word; rewrite S; tauto).
  destruct W as [W|[L W]]; [left; apply WW; auto|right]. split; auto. intros v NV PV WV. apply (W v NV PV). apply WW. auto.
Qed.
Lemma weights_pos D ws : (forall w n, D w = Some n -> (0 <= n)%Z) -> (0 < weights D ws)%Z.
Proof.
  intros P. induction ws as [|w ws IH]; [cbn; lia|]. unfold weights in *. cbn [fold_right]. assert (0 < weight_of D w)%Z; [|nia].
  unfold weight_of. destruct (D w) as [n|] eqn:E; [|lia]. apply P in E. destruct (Z.eqb_spec n 0); lia.
Qed.

Lemma chosen_not_more fr fr' T T' r :
  (forall w, sget fr' w = sget fr w) -> sane (sget fr) T -> prefix_closed (sget fr) -> (T < T')%Z ->
  length (chosen numR fr' T' r) <= length (chosen numR fr T r).
Proof.
  intros SG SA PC L. pose proof SA as [P NN].
  assert (PC' : prefix_closed (sget fr')) by (eapply prefix_closed_ext; [|exact PC]; intros; auto).
  assert (SA' : sane (sget fr') T') by (split; [lia|intros w n E; rewrite SG in E; eauto]).
  destruct (Nat.le_gt_cases (length (chosen numR fr' T' r)) (length (chosen numR fr T r))) as [G|G]; auto. exfalso.
  pose proof (chosen_candidate numR r SA PC) as C. pose proof (chosen_candidate numR r SA' PC') as C'.
  set (a := chosen numR fr T r) in *. set (b := chosen numR fr' T' r) in *.
  pose proof (@chosen_prob fr T r b SA PC (candidate_same _ _ _ _ SG C')) as B1.
  assert (SG' : forall w, sget fr w = sget fr' w) by auto.
  pose proof (@chosen_prob fr' T' r a SA' PC' (candidate_same _ _ _ _ SG' C)) as B2.
  fold a in B1. fold b in B2.
  rewrite !prob_words in B1 by auto. rewrite !prob_words in B2 by lia.
  rewrite !(weights_same (sget fr') (sget fr)) in B2 by auto.
  pose proof (weights_pos (sget fr) a NN) as WA. pose proof (weights_pos (sget fr) b NN) as WB.
  apply IZR_lt in WA, WB. set (x := IZR (weights (sget fr) a)) in *. set (y := IZR (weights (sget fr) b)) in *.
  set (n := length a) in *. destruct (length b) as [|m'] eqn:Eb; [lia|]. set (k := (m' - n)%nat).
  replace (S m') with (n + S k)%nat in * by (unfold k; lia). rewrite !pow_add in *.
  assert (T0 : (0 < IZR T)%R) by (apply IZR_lt; auto). assert (T1 : (IZR T < IZR T')%R) by (apply IZR_lt; auto).
  assert (Q : forall t z u, (0 < t)%R -> (z / (t ^ n * t ^ S k) <= u / t ^ n <-> z <= u * t ^ S k)%R).
  { intros t z u Pt. pose proof (pow_lt t n Pt) as PN. pose proof (pow_lt t (S k) Pt) as PK.
    set (p := (t ^ n)%R) in *. set (q := (t ^ S k)%R) in *.
    replace (u / p)%R with (u * q / (p * q))%R by (field; lra). split; intros I.
    - apply (Rmult_le_reg_r (/ (p * q))); [apply Rinv_0_lt_compat; apply Rmult_lt_0_compat; auto|]. exact I.
    - apply Rmult_le_compat_r; auto. left. apply Rinv_0_lt_compat. apply Rmult_lt_0_compat; auto. }
  apply Q in B1; auto.
  assert (B3 : (x * IZR T' ^ S k <= y)%R).
  { assert (T2 : (0 < IZR T')%R) by lra.
    pose proof (pow_lt _ n T2) as PN. pose proof (pow_lt _ (S k) T2) as PK.
    set (p := (IZR T' ^ n)%R) in *. set (q := (IZR T' ^ S k)%R) in *.
    replace (x / p)%R with (x * q / (p * q))%R in B2 by (field; lra).
    apply (Rmult_le_reg_r (/ (p * q))); [apply Rinv_0_lt_compat; apply Rmult_lt_0_compat; auto|]. exact B2. }
  assert (PP : (IZR T ^ S k < IZR T' ^ S k)%R).
  { clear - T0 T1. induction k as [|k IH]; [cbn; lra|].
    change ((IZR T * IZR T ^ S k < IZR T' * IZR T' ^ S k)%R).
    pose proof (pow_lt _ (S k) T0). apply Rmult_gt_0_lt_compat; lra. }
  assert ((x * IZR T ^ S k < x * IZR T' ^ S k)%R) by (apply Rmult_lt_compat_l; auto). lra.
Qed.

(** With the same frequencies and a larger total, exact arithmetic never chooses more
    words (texts without ASCII letters and digits, HMM off). *)
Theorem C92_larger_total_not_more_words :
  forall (H : hmm numR) (fr fr' : freqs) (total total' : Z) (force force' : list str) (s : str),
    (forall w, sget fr' w = sget fr w) -> sane (sget fr) total -> prefix_closed (sget fr) ->
    (total <= total')%Z -> Forall (fun c => is_alnum c = false) s ->
    exists ws ws',
      cut numR H (mode_of false false) fr total force s = gof ws /\
      cut numR H (mode_of false false) fr' total' force' s = gof ws' /\
      length ws' <= length ws.
Proof.
  intros H fr fr' T T' force force' s S SA PC L FA. cbn [mode_of].
  assert (SA' : sane (sget fr') T') by (destruct SA as [P NN]; split; [lia|intros w n E; rewrite S in E; eauto]).
  assert (PC' : prefix_closed (sget fr')) by (eapply prefix_closed_ext; [|exact PC]; intros; auto).
  rewrite !cut_nohmm_text by auto. eexists. eexists. split; [reflexivity|]. split; [reflexivity|].
  rewrite <- (runs_concat word_char s) in FA.
  induction (runs word_char s) as [|[b r] rs IH]; [cbn; lia|]. cbn [map concat snd] in FA. apply Forall_app in FA.
  destruct FA as [FR FS]. specialize (IH FS). cbn [flat_map fst snd]. rewrite !app_length. apply Nat.add_le_mono; auto.
  destruct b; auto.
  pose proof (chosen_candidate numR r SA PC) as C. apply candidate_partition in C. destruct C as [C _].
  pose proof (chosen_candidate numR r SA' PC') as C'. apply candidate_partition in C'. destruct C' as [C' _].
  rewrite !merge_nothing by (rewrite ?C, ?C'; auto).
  destruct (Z.eq_dec T T') as [->|NE]; [|apply chosen_not_more; auto; lia].
  assert (E : chosen numR fr' T' r = chosen numR fr T' r).
  { unfold chosen. assert (SI : same_in r (sget fr') (sget fr)) by (intros u _; unfold freq_of; rewrite S; reflexivity).
    rewrite (get_DAG_same PC' PC SI). rewrite (@calc_same numR fr' fr T' r (get_DAG fr r) SI). reflexivity. }
  rewrite E. auto.
Qed.

Lemma adds_healthy l d :
  Forall (fun a : addition => (0 <= snd (fst a))%Z) l -> healthy (d_freq d) (d_total d) ->
  healthy (d_freq (adds d l)) (d_total (adds d l)).
Proof.
  revert d. induction l as [|a l IH]; intros d F HE; auto. inversion F; subst. cbn [adds fold_left]. fold (adds (add1 d a) l).
  apply IH; auto. unfold add1, add_word_freq. cbn [d_freq d_total]. apply healthy_add; auto.
Qed.
Lemma lines_nonneg lines es :
  Forall2 line_reads lines (map (fun e : addition => Some (fst (fst e), Some (snd (fst e)), snd e)) es) ->
  Forall (fun a : addition => (0 <= snd (fst a))%Z) es.
Proof.
  revert lines. induction es as [|e es IH]; intros lines F; constructor.
  - inversion F as [|l ls x xs K _ E1 E2]; subst. destruct K as (text & _ & _ & ds & [_ [_ [P _]]] & E & _).
    destruct ds as [ds|]; [|discriminate]. injection E as ->. apply digits_val_nonneg. apply P.
  - inversion F; subst. eauto.
Qed.

(** ... so a second load of a user dictionary never leads to more words. *)
Theorem C92_second_load_not_more_words :
  forall (H : hmm numR) (d : dstate) (lines : list uline) (es : list (str * Z * option str)) (s : str),
    healthy (d_freq d) (d_total d) ->
    Forall2 line_reads lines (map (fun e => Some (fst (fst e), Some (snd (fst e)), snd e)) es) ->
    Forall (fun c => is_alnum c = false) s ->
    exists d1 d2 ws1 ws2,
      load_userdict numR H d lines = (d1, None) /\ load_userdict numR H d1 lines = (d2, None) /\
      cut numR H (mode_of false false) (d_freq d1) (d_total d1) (d_force d1) s = gof ws1 /\
      cut numR H (mode_of false false) (d_freq d2) (d_total d2) (d_force d2) s = gof ws2 /\
      length ws2 <= length ws1.
Proof.
  intros H d lines es s HE F FA. destruct (C92_loading_again numR H d lines es F) as (d1 & d2 & L1 & L2 & SF & _ & _ & T1 & T2).
  pose proof (lines_nonneg _ _ F) as NN.
  assert (SN : (0 <= sum_freqs es)%Z) by (clear - NN; induction NN; cbn; [lia|unfold sum_freqs in *; lia]).
  assert (HE1 : healthy (d_freq d1) (d_total d1)).
  { assert (E : load_userdict numR H d lines = (adds d es, None)) by (rewrite (C22_userdict_is_add_word numR H d _ _ F); apply add_each_adds).
    rewrite L1 in E. injection E as ->. apply adds_healthy; auto. }
  pose proof HE1 as [PC _].
  destruct (C92_larger_total_not_more_words H (d_freq d1) (d_freq d2) (d_total d1) (d_total d2) (d_force d1) (d_force d2) s)
    as (ws1 & ws2 & A & B & C); auto using healthy_sane; [lia|].
  exists d1, d2, ws1, ws2. auto.
Qed.

(** It may lead to fewer: 北 and 京 with frequency 10, 北京 with 1; the user dictionary
    is the line "大 50". *)
Definition bj21 : dstate := build [([c_bei], 10%Z); ([c_jing], 10%Z); ([c_bei; c_jing], 1%Z)].
Definition da50 : list uline := [UText [c_da; 32; 53; 48]%N].

Lemma pick_two fr T c1 c2 :
  healthy fr T -> is_word (sget fr) [c1] -> is_word (sget fr) [c2] -> is_word (sget fr) [c1; c2] ->
  (weight_of (sget fr) [c1; c2] * T < weight_of (sget fr) [c1] * weight_of (sget fr) [c2] ->
     chosen numR fr T [c1; c2] = [[c1]; [c2]])%Z /\
  (weight_of (sget fr) [c1] * weight_of (sget fr) [c2] < weight_of (sget fr) [c1; c2] * T ->
     chosen numR fr T [c1; c2] = [[c1; c2]])%Z.
Proof.
  intros HE W1 W2 W. pose proof HE as [PC [P _]]. pose proof (healthy_sane HE) as SA.
  assert (K1 : candidate (sget fr) [c1; c2] [[c1; c2]]).
  { exists []. split; [reflexivity|]. split; [discriminate|]. split; [left; auto|reflexivity]. }
  assert (K2 : candidate (sget fr) [c1; c2] [[c1]; [c2]]).
  { exists [c2]. split; [reflexivity|]. split; [discriminate|]. split; [left; auto|].
    exists []. split; [reflexivity|]. split; [discriminate|]. split; [left; auto|reflexivity]. }
  pose proof (@chosen_prob fr T [c1; c2] _ SA PC K1) as B1. pose proof (@chosen_prob fr T [c1; c2] _ SA PC K2) as B2.
  pose proof (chosen_candidate numR [c1; c2] SA PC) as C. apply candidate_partition, two_chars_cases in C.
  assert (P0 : (0 < IZR T)%R) by (apply IZR_lt; auto).
  rewrite !prob_words in B1, B2 by auto. unfold weights in B1, B2.
  destruct C as [C|C]; rewrite C in *; split; intros L; auto; exfalso.
  - cbn [fold_right length pow] in B2. apply IZR_lt in L. rewrite !mult_IZR in L. rewrite !Z.mul_1_r in B2. rewrite mult_IZR in B2.
    apply (Rmult_le_compat_r (IZR T * IZR T)) in B2; [|nra].
    match type of B2 with (?a / _ * _ <= ?b / _ * _)%R =>
      replace (a / (IZR T * (IZR T * 1)) * (IZR T * IZR T))%R with a in B2 by (field; lra);
      replace (b / (IZR T * 1) * (IZR T * IZR T))%R with (b * IZR T)%R in B2 by (field; lra) end. lra.
  - cbn [fold_right length pow] in B1. apply IZR_lt in L. rewrite !mult_IZR in L. rewrite !Z.mul_1_r in B1. rewrite mult_IZR in B1.
    apply (Rmult_le_compat_r (IZR T * IZR T)) in B1; [|nra].
    match type of B1 with (?b / _ * _ <= ?a / _ * _)%R =>
      replace (a / (IZR T * (IZR T * 1)) * (IZR T * IZR T))%R with a in B1 by (field; lra);
      replace (b / (IZR T * 1) * (IZR T * IZR T))%R with (b * IZR T)%R in B1 by (field; lra) end. lra.
Qed.

Lemma da50_reads : Forall2 line_reads da50 (map (fun e : addition => Some (fst (fst e), Some (snd (fst e)), snd e)) [([c_da], 50%Z, None)]).
Proof.
  constructor; [|constructor]. eexists. split; [vm_compute; reflexivity|]. split; [vm_compute; intuition discriminate|].
  exists (Some [53; 48]%N). split; [|split; [reflexivity|]].
  + split; [discriminate|]. split; [reflexivity|]. split; [|exact I]. split; [discriminate|repeat constructor].
  + intros w' f' t' [NW _]. destruct w'; [congruence|cbn; lia].
Qed.

Theorem C92_second_load_same_words_refuted :
  ~ (forall (H : hmm numR) (d d1 d2 : dstate) (lines : list uline) (es : list (str * Z * option str)) (s : str),
       healthy (d_freq d) (d_total d) ->
       Forall2 line_reads lines (map (fun e => Some (fst (fst e), Some (snd (fst e)), snd e)) es) ->
       load_userdict numR H d lines = (d1, None) -> load_userdict numR H d1 lines = (d2, None) ->
       cut numR H (mode_of false false) (d_freq d2) (d_total d2) (d_force d2) s =
       cut numR H (mode_of false false) (d_freq d1) (d_total d1) (d_force d1) s).
Proof.
  intros K. pose (H := mkHmm numR (fun _ => 0%R) (fun _ _ => None) (fun _ _ => None)).
  set (d1 := add_word_freq bj21 [c_da] 50 None). set (d2 := add_word_freq d1 [c_da] 50 None).
  assert (HE : healthy (d_freq bj21) (d_total bj21)) by (apply healthyb_ok; vm_compute; reflexivity).
  assert (HE1 : healthy (d_freq d1) (d_total d1)) by (apply healthyb_ok; vm_compute; reflexivity).
  assert (HE2 : healthy (d_freq d2) (d_total d2)) by (apply healthyb_ok; vm_compute; reflexivity).
  specialize (K H bj21 d1 d2 da50 _ [c_bei; c_jing] HE da50_reads eq_refl eq_refl).
  assert (WC : Forall (fun c => word_char c = true) [c_bei; c_jing]) by (repeat constructor).
  assert (WD : forall d, d = d1 \/ d = d2 -> is_word (sget (d_freq d)) [c_bei] /\ is_word (sget (d_freq d)) [c_jing]
                 /\ is_word (sget (d_freq d)) [c_bei; c_jing]).
  { intros d [-> | ->]; (split; [|split]); eexists; (split; [reflexivity|discriminate]). }
  destruct (WD d1 (or_introl eq_refl)) as (A1 & A2 & A3). destruct (WD d2 (or_intror eq_refl)) as (B1 & B2 & B3).
  destruct (pick_two _ _ c_bei c_jing HE1 A1 A2 A3) as [E1 _]. destruct (pick_two _ _ c_bei c_jing HE2 B1 B2 B3) as [_ E2].
  specialize (E1 eq_refl). specialize (E2 eq_refl). cbn [mode_of] in K.
  rewrite !cut_nohmm_text in K by (apply healthy_sane; auto).
  rewrite (@runs_whole word_char [c_bei; c_jing] true ltac:(discriminate) WC) in K. cbn [flat_map fst snd app] in K.
  rewrite E1, E2 in K. discriminate K.
Qed.

Example C92_nonvacuous :
  healthy (d_freq bj21) (d_total bj21) /\
  Forall2 line_reads da50 (map (fun e => Some (fst (fst e), Some (snd (fst e)), snd e)) [([c_da], 50%Z, None)]) /\
  Forall (fun c => is_alnum c = false) [c_bei; c_jing] /\ sane (sget (d_freq bj21)) 71 /\ prefix_closed (sget (d_freq bj21)).
Proof.
  assert (HE : healthy (d_freq bj21) (d_total bj21)) by (apply healthyb_ok; vm_compute; reflexivity).
  split; auto. split; [exact da50_reads|]. split; [repeat constructor|]. pose proof (healthy_sane HE) as [_ NN]. pose proof HE as [PC _].
  split; auto. split; [lia|auto].
Qed.

(** ** C93: only relative frequencies matter *)

Lemma scaled_true (fr fr' : freqs) k w :
  (0 < k)%Z -> sget fr' w = option_map (Z.mul k) (sget fr w) -> freq_true fr' w = freq_true fr w.
Proof.
  intros K E. unfold freq_true. rewrite E. destruct (sget fr w) as [n|]; cbn; auto.
  destruct (Z.eqb_spec (k * n) 0), (Z.eqb_spec n 0); auto; nia.
Qed.
Lemma scaled_mem (fr fr' : freqs) k w :
  sget fr' w = option_map (Z.mul k) (sget fr w) -> smem fr' w = smem fr w.
Proof. intros E. rewrite !smem_sget, E. destruct (sget fr w); auto. Qed.

Lemma scaled_get (l : freqs) k w : sget (map (fun kv : str * Z => (fst kv, (k * snd kv)%Z)) l) w = option_map (Z.mul k) (sget l w).
Proof. unfold sget. induction l as [|[u n] l IH]; [reflexivity|]. cbn. destruct (str_eqb w u) eqn:E; auto. Qed.

Section Scaled.
  Variables (H : hmm numR) (fr fr' : freqs) (k T : Z).
  Hypothesis K : (0 < k)%Z.
  Hypothesis SC : forall w, sget fr' w = option_map (Z.mul k) (sget fr w).
  Hypothesis SA : sane (sget fr) T.

  Lemma scaled_dag s : get_DAG fr' s = get_DAG fr s.
  Proof.
    unfold get_DAG. apply map_ext. intros i. rewrite !dag_at_words.
    assert (E : dag_words fr' s i = dag_words fr s i); [|rewrite E; reflexivity].
    unfold dag_words.
    assert (TW : forall l, take_while_nat (fun j => smem fr' (slice s i (j + 1))) l = take_while_nat (fun j => smem fr (slice s i (j + 1))) l).
    { induction l as [|x l IH]; cbn; auto. rewrite (scaled_mem fr fr' k) by auto. rewrite IH. reflexivity. }
    rewrite TW. apply filter_ext_all. intros x. apply (scaled_true fr fr' k); auto.
  Qed.

  Lemma scaled_cands s idx route xs :
    Forall (fun x => is_word (sget fr) (slice s idx (x + 1))) xs ->
    calc_cands numR fr' (ln (IZR (k * T))) s idx route xs = calc_cands numR fr (ln (IZR T)) s idx route xs.
  Proof.
    destruct SA as [PT NN]. induction 1 as [|x xs [n [E NZ]] _ IH]; [reflexivity|]. cbn [calc_cands].
    unfold freq_or1. rewrite SC, E. cbn [option_map]. pose proof (NN _ _ E) as P.
    destruct (Z.eqb_spec (k * n) 0) as [Z0|_]; [nia|]. destruct (Z.eqb_spec n 0) as [Z0|_]; [congruence|].
    unfold py_log. destruct (Z.leb_spec (k * n) 0); [nia|]. destruct (Z.leb_spec n 0); [lia|]. cbn [rbind].
    destruct (nth_error route (x - idx)) as [r|]; auto. rewrite IH.
    destruct (calc_cands numR fr (ln (IZR T)) s idx route xs) as [cs|e]; auto. cbn [rbind f_add f_sub f_log numR].
    do 3 f_equal. assert (0 < IZR k)%R by (apply IZR_lt; auto). assert (0 < IZR n)%R by (apply IZR_lt; lia).
    assert (0 < IZR T)%R by (apply IZR_lt; auto). rewrite !mult_IZR, !ln_mult by auto. lra.
  Qed.

  Lemma scaled_calc s :
    Forall (fun c => is_word (sget fr) [c]) s ->
    calc numR fr' (k * T) s (get_DAG fr s) = calc numR fr T s (get_DAG fr s).
  Proof.
    intros F. destruct SA as [PT NN]. unfold calc, py_log. destruct (Z.leb_spec (k * T) 0); [nia|].
    destruct (Z.leb_spec T 0); [lia|]. cbn [rbind f_log numR].
    generalize [(f_zero numR, 0)]. assert (LE : length s <= length s) by lia. revert LE.
    generalize (length s) at 1 3 4 as n. induction n as [|idx IH]; intros LE route; [reflexivity|]. cbn [calc_loop].
    rewrite get_DAG_nth by lia. rewrite scaled_cands.
    - destruct (calc_cands numR fr (ln (IZR T)) s idx route (dag_at fr s idx)) as [cs|e]; auto. cbn [rbind].
      destruct (py_max (route_gt numR) cs) as [r|e]; auto. cbn [rbind]. apply IH. lia.
    - rewrite dag_at_words. destruct (dag_words fr s idx) as [|y l] eqn:E.
      + constructor; [|constructor]. destruct (nth_error s idx) as [c|] eqn:EC; [|apply nth_error_None in EC; lia].
        rewrite Forall_forall in F. replace (slice s idx (idx + 1)) with [c]; [apply F; eapply nth_error_In; eauto|].
        unfold slice. replace (idx + 1 - idx) with 1 by lia. clear - EC. revert s EC.
        induction idx as [|i IH]; intros [|d s]; cbn; try discriminate; [congruence|]. apply IH.
      + rewrite <- E. apply Forall_forall. intros x HI. apply dag_words_range in HI. apply freq_true_word. tauto.
  Qed.

  Lemma scaled_buf force buf : cut_buf numR H fr' force buf = cut_buf numR H fr force buf.
  Proof. unfold cut_buf. rewrite (scaled_true fr fr' k) by auto. reflexivity. Qed.
  Lemma scaled_hmm_loop force s route fuel x buf :
    cut_hmm_loop numR H fuel fr' force s route x buf = cut_hmm_loop numR H fuel fr force s route x buf.
  Proof.
    revert x buf. induction fuel as [|fuel IH]; intros x buf; [reflexivity|]. cbn [cut_hmm_loop].
    rewrite scaled_buf. destruct (x <? length s); auto. destruct (nth_error route x); auto. cbv zeta. rewrite !IH. reflexivity.
  Qed.

  Lemma scaled_cut m force s :
    (m <> Full -> Forall (fun c => word_char c = true -> is_word (sget fr) [c]) s) ->
    cut numR H m fr' (k * T) force s = cut numR H m fr T force s.
  Proof.
    intros F. rewrite !cut_runs. apply gfor_ext. intros [b r] HI. cbn [fst snd]. destruct b; auto.
    assert (FW : m <> Full -> Forall (fun c => is_word (sget fr) [c]) r).
    { intros NM. specialize (F NM). rewrite <- (runs_concat word_char s) in F.
      pose proof (runs_class word_char s) as RC. rewrite Forall_forall in RC. destruct (RC _ HI) as [_ RW]. cbn [fst snd] in RW.
      rewrite Forall_forall in F, RW |- *. intros c HC. apply F; auto. apply in_concat. exists r. split; auto.
      apply in_map_iff. exists (true, r). auto. }
    destruct m; cbn [cut_block]; unfold cut_all_block, cut_hmm_block, cut_nohmm_block; rewrite scaled_dag; auto.
    - rewrite scaled_calc by (apply FW; discriminate). destruct (calc numR fr T r (get_DAG fr r)); auto. apply scaled_hmm_loop.
    - rewrite scaled_calc by (apply FW; discriminate). reflexivity.
  Qed.
  Lemma scaled_grams n w : dict_grams fr' n w = dict_grams fr n w.
  Proof.
    unfold dict_grams. destruct (n <? length w); auto. apply flat_map_ext. intros i.
    cbv zeta. rewrite (scaled_true fr fr' k) by auto. reflexivity.
  Qed.
End Scaled.

(** Multiplying every frequency and the total by the same number changes nothing, if
    every word character of the text is a word of the dictionary. *)
Theorem C93_scaled :
  forall (H : hmm numR) (fr fr' : freqs) (k total : Z) (force : list str) (s : str),
    (0 < k)%Z -> (forall w, sget fr' w = option_map (Z.mul k) (sget fr w)) -> sane (sget fr) total ->
    Forall (fun c => word_char c = true -> is_word (sget fr) [c]) s ->
    (forall cut_all HMM,
       cut numR H (mode_of cut_all HMM) fr' (k * total) force s = cut numR H (mode_of cut_all HMM) fr total force s) /\
    (forall HMM, cut_for_search numR H HMM fr' (k * total) force s = cut_for_search numR H HMM fr total force s) /\
    (forall tm HMM, tokenize numR H tm HMM fr' (k * total) force s = tokenize numR H tm HMM fr total force s).
Proof.
  intros H fr fr' k T force s K SC SA F.
  assert (C : forall m, cut numR H m fr' (k * T) force s = cut numR H m fr T force s) by (intros m; apply scaled_cut; auto).
  assert (G : forall n w, dict_grams fr' n w = dict_grams fr n w) by (intros; eapply scaled_grams; eauto).
  split; [intros; apply C|]. split.
  - intros HMM. unfold cut_for_search. rewrite C. unfold gbind. f_equal. apply gfor_ext. intros w _. rewrite !G. reflexivity.
  - intros tm HMM. unfold tokenize. rewrite C. destruct tm; auto. f_equal.
    generalize (fst (cut numR H (mode_of false HMM) fr T force s)) as ws, 0 as a.
    induction ws as [|w ws IH]; intros a; [reflexivity|]. cbn [tokenize_search]. rewrite !G, IH. reflexivity.
Qed.

(** Full mode does not need the total or the frequencies at all. *)
Theorem C93_full_mode :
  forall (H : hmm numR) (fr fr' : freqs) (total total' : Z) (force force' : list str) (s : str),
    (forall w, sget fr' w = None <-> sget fr w = None) -> (forall w, sget fr' w = Some 0%Z <-> sget fr w = Some 0%Z) ->
    cut numR H (mode_of true false) fr' total' force' s = cut numR H (mode_of true false) fr total force s.
Proof.
  intros H fr fr' T T' force force' s N Z. cbn [mode_of]. rewrite !cut_runs. apply gfor_ext. intros [b r] _. cbn [fst snd].
  destruct b; auto. cbn [cut_block]. unfold cut_all_block. f_equal. f_equal. unfold get_DAG. apply map_ext. intros i. rewrite !dag_at_words.
  assert (E : dag_words fr' r i = dag_words fr r i); [|rewrite E; reflexivity].
  unfold dag_words.
  assert (M : forall w, smem fr' w = smem fr w).
  { intros w. rewrite !smem_sget. specialize (N w). destruct (sget fr' w), (sget fr w); auto; [|]; destruct N; (discriminate || (exfalso; intuition discriminate)). }
  assert (TW : forall l, take_while_nat (fun j => smem fr' (slice r i (j + 1))) l = take_while_nat (fun j => smem fr (slice r i (j + 1))) l).
  { induction l as [|x l IH]; cbn; auto. rewrite M, IH. reflexivity. }
  rewrite TW. apply filter_ext_all. intros x. specialize (N (slice r i (x + 1))). specialize (Z (slice r i (x + 1))).
  unfold freq_true. destruct (sget fr' (slice r i (x + 1))) as [n|], (sget fr (slice r i (x + 1))) as [n'|]; auto.
  - destruct (Z.eqb_spec n 0) as [->|A], (Z.eqb_spec n' 0) as [->|B]; auto; exfalso; destruct Z as [Z1 Z2].
    + specialize (Z1 eq_refl). congruence.
    + specialize (Z2 eq_refl). congruence.
  - exfalso. destruct N as [_ N]. discriminate (N eq_refl).
  - exfalso. destruct N as [N _]. discriminate (N eq_refl).
Qed.

(** An unknown character always counts 1, so that it weighs less the larger the other
    frequencies are: of 北京 + 大 (10, unknown) and 北 + 京大 (3, 3) the first is the
    more probable one, but not with ten times the frequencies. *)
Definition bjd16 : dstate := build [([c_bei; c_jing], 10%Z); ([c_bei], 3%Z); ([c_jing; c_da], 3%Z)].
Definition bjd160 : dstate := build [([c_bei; c_jing], 100%Z); ([c_bei], 30%Z); ([c_jing; c_da], 30%Z)].

Lemma three_chars_cases (ws : list str) a b c :
  partition [a; b; c] ws -> ws = [[a; b; c]] \/ ws = [[a; b]; [c]] \/ ws = [[a]; [b; c]] \/ ws = [[a]; [b]; [c]].
Proof.
  intros [C N]. destruct ws as [|x ws]; [discriminate|]. inversion N as [|? ? N1 N2]; subst.
  destruct x as [|x0 x]; [congruence|]. cbn [concat app] in C. injection C as -> C.
  destruct x as [|x1 x].
  - cbn [app] in C. assert (P : partition [b; c] ws) by (split; auto).
    apply two_chars_cases in P. destruct P as [-> | ->]; auto.
  - cbn [app] in C. injection C as -> C. destruct x as [|x2 x].
    + cbn [app] in C. destruct ws as [|y ws]; [discriminate|]. inversion N2 as [|? ? N3 N4]; subst.
      destruct y as [|y0 y]; [congruence|]. cbn [concat app] in C. injection C as -> C.
      apply app_eq_nil in C. destruct C as [-> C]. destruct ws as [|z ws]; auto. inversion N4; subst.
      destruct z; [congruence|discriminate].
    + cbn [app] in C. injection C as -> C. apply app_eq_nil in C. destruct C as [-> C].
      destruct ws as [|z ws]; auto. inversion N2; subst. destruct z; [congruence|discriminate].
Qed.

Theorem C93_unknown_characters_refuted :
  ~ (forall (H : hmm numR) (fr fr' : freqs) (k total : Z) (force : list str) (s : str),
       (0 < k)%Z -> (forall w, sget fr' w = option_map (Z.mul k) (sget fr w)) -> healthy fr total ->
       cut numR H (mode_of false false) fr' (k * total) force s = cut numR H (mode_of false false) fr total force s).
Proof.
  intros K. pose (H := mkHmm numR (fun _ => 0%R) (fun _ _ => None) (fun _ _ => None)).
  assert (HE : healthy (d_freq bjd16) (d_total bjd16)) by (apply healthyb_ok; vm_compute; reflexivity).
  assert (HE' : healthy (d_freq bjd160) (d_total bjd160)) by (apply healthyb_ok; vm_compute; reflexivity).
  set (s := [c_bei; c_jing; c_da]).
  specialize (K H (d_freq bjd16) (d_freq bjd160) 10%Z (d_total bjd16) [] s ltac:(lia)).
  change (10 * d_total bjd16)%Z with (d_total bjd160) in K.
  assert (SC : forall w, sget (d_freq bjd160) w = option_map (Z.mul 10) (sget (d_freq bjd16) w)).
  { intros w. change (d_freq bjd160) with (map (fun kv : str * Z => (fst kv, (10 * snd kv)%Z)) (d_freq bjd16)).
    apply scaled_get. }
  specialize (K SC HE). cbn [mode_of] in K.
  rewrite !cut_nohmm_text in K by (apply healthy_sane; auto).
  assert (WC : Forall (fun c => word_char c = true) s) by (repeat constructor).
  rewrite (@runs_whole word_char s true ltac:(discriminate) WC) in K. cbn [flat_map fst snd app] in K.
  rewrite !app_nil_r in K.
  pose proof HE as [PC _]. pose proof HE' as [PC' _].
  assert (W : forall d, d = bjd16 \/ d = bjd160 ->
     candidate (sget (d_freq d)) s [[c_bei; c_jing]; [c_da]] /\ candidate (sget (d_freq d)) s [[c_bei]; [c_jing; c_da]]).
  { intros d D. assert (WW : is_word (sget (d_freq d)) [c_bei; c_jing] /\ is_word (sget (d_freq d)) [c_bei] /\
       is_word (sget (d_freq d)) [c_jing; c_da]).
    { destruct D as [-> | ->]; (split; [|split]); eexists; (split; [reflexivity|discriminate]). }
    destruct WW as (W1 & W2 & W3). split.
    - exists [c_da]. split; [reflexivity|]. split; [discriminate|]. split; [left; auto|]. exists [].
      split; [reflexivity|]. split; [discriminate|]. split; [|reflexivity]. right. split; [reflexivity|].
      intros v NV [t E] [n [WV NZ]]. destruct v as [|v0 [|v1 v]]; [congruence| |discriminate].
      injection E as <- _. destruct D as [-> | ->]; vm_compute in WV; discriminate.
    - exists [c_jing; c_da]. split; [reflexivity|]. split; [discriminate|]. split; [left; auto|]. exists [].
      split; [reflexivity|]. split; [discriminate|]. split; [left; auto|reflexivity]. }
  destruct (W bjd16 (or_introl eq_refl)) as [A1 A2]. destruct (W bjd160 (or_intror eq_refl)) as [B1 B2].
  pose proof (chosen_candidate numR s (healthy_sane HE) PC) as C. apply candidate_partition, three_chars_cases in C.
  pose proof (chosen_candidate numR s (healthy_sane HE') PC') as C'. apply candidate_partition, three_chars_cases in C'.
  pose proof (@chosen_prob _ _ s _ (healthy_sane HE) PC A1) as P1.
  pose proof (@chosen_prob _ _ s _ (healthy_sane HE') PC' B2) as P2.
  fold s in C, C'.
  assert (X : chosen numR (d_freq bjd16) (d_total bjd16) s = [[c_bei; c_jing]; [c_da]] \/
              chosen numR (d_freq bjd16) (d_total bjd16) s = [s]).
  { destruct C as [C|[C|[C|C]]]; auto; rewrite C in P1; exfalso.
    - unfold prob in P1. cbn [fold_right] in P1. unfold weight_of in P1.
      change (d_total bjd16) with 16%Z in P1. vm_compute sget in P1. cbn in P1. lra.
    - unfold prob in P1. cbn [fold_right] in P1. unfold weight_of in P1.
      change (d_total bjd16) with 16%Z in P1. vm_compute sget in P1. cbn in P1. lra. }
  assert (Y : chosen numR (d_freq bjd160) (d_total bjd160) s = [[c_bei]; [c_jing; c_da]] \/
              chosen numR (d_freq bjd160) (d_total bjd160) s = [s]).
  { destruct C' as [C'|[C'|[C'|C']]]; auto; rewrite C' in P2; exfalso.
    - unfold prob in P2. cbn [fold_right] in P2. unfold weight_of in P2.
      change (d_total bjd160) with 160%Z in P2. vm_compute sget in P2. cbn in P2. lra.
    - unfold prob in P2. cbn [fold_right] in P2. unfold weight_of in P2.
      change (d_total bjd160) with 160%Z in P2. vm_compute sget in P2. cbn in P2. lra. }
  assert (X' : chosen numR (d_freq bjd16) (d_total bjd16) s <> [s]).
  { intros E. pose proof (chosen_candidate numR s (healthy_sane HE) PC) as Q. rewrite E in Q.
    destruct Q as [s' [_ [_ [[[n [WV NZ]]|[L _]] _]]]]; [vm_compute in WV|]; discriminate. }
  assert (Y' : chosen numR (d_freq bjd160) (d_total bjd160) s <> [s]).
  { intros E. pose proof (chosen_candidate numR s (healthy_sane HE') PC') as Q. rewrite E in Q.
    destruct Q as [s' [_ [_ [[[n [WV NZ]]|[L _]] _]]]]; [vm_compute in WV|]; discriminate. }
  destruct X as [X|X]; [|auto]. destruct Y as [Y|Y]; [|auto]. rewrite X, Y in K. discriminate K.
Qed.

(** 北, 京 and 北京 with frequencies 10, 10, 1, and with 30, 30, 3 *)
Example C93_nonvacuous :
  let fr' := map (fun kv : str * Z => (fst kv, (3 * snd kv)%Z)) (d_freq bj21) in
  (forall w, sget fr' w = option_map (Z.mul 3) (sget (d_freq bj21) w)) /\ sane (sget (d_freq bj21)) (d_total bj21) /\
  Forall (fun c => word_char c = true -> is_word (sget (d_freq bj21)) [c]) [c_bei; c_jing; 32%N; c_jing] /\
  sget fr' [c_bei; c_jing] = Some 3%Z.
Proof.
  intros fr'. split; [|split; [|split; [|reflexivity]]].
  - intros w. unfold fr'. apply scaled_get.
  - apply healthy_sane, healthyb_ok. vm_compute. reflexivity.
  - repeat (apply Forall_cons; [try (intros _; eexists; split; [reflexivity|discriminate]); try discriminate|]). apply Forall_nil.
Qed.

Print Assumptions C92_loading_again.
Print Assumptions C92_larger_total_not_more_words.
Print Assumptions C92_second_load_not_more_words.
Print Assumptions C92_second_load_same_words_refuted.
Print Assumptions C93_scaled.
Print Assumptions C93_full_mode.
Print Assumptions C93_unknown_characters_refuted.
