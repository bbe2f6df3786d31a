(** * Suggested frequencies and stability, in exact arithmetic *)
From Coq Require Import Reals Lra.
From Verif Require Import PyBase PyRegex PyNum ModelFinalseg ModelSeg ModelDict ModelApi
  SpecBase SpecSeg SpecNum SpecScore SpecDict SpecApi SpecHealth InstR InstSign
  ProofsBase ProofsSeg ProofsOpt ProofsNoHmm ProofsDict ProofsTotal ProofsWords ProofsSuggest ProofsStable
  PropsDict Demo ProofsDemo ProofsHealth.

(** Reachable states are healthy: built from a file with non-negative frequencies
    and a positive total, by calls with non-negative frequencies. *)
Theorem reachable_healthy :
  forall (num : Num) (S : NumSign num) (H : hmm num) (lines : list bytes) (fr : freqs) (total : Z)
         (force : list str) (os : list op),
    gen_pfdict lines = Ok (fr, total) ->
    (forall x w f, In x lines -> parse_dict_line x = Some (w, f) -> (0 <= f)%Z) ->
    (0 < total)%Z -> Forall op_nonneg os ->
    let d := do_ops num H (mkD fr total [] force) os in
    healthy (d_freq d) (d_total d).
Proof.
  intros num S H lines fr total force os E NN P F d.
  destruct (@do_ops_ok num S H os (mkD fr total [] force)) as [SO L]; auto.
  { apply (gen_pfdict_total_ok lines E NN). }
  split; [|split]; auto.
  - apply (@C17_always_prefix_closed num H d). exists lines, fr, total, force, os. auto.
  - unfold d. simpl in L. lia.
Qed.

(** ** C19

    After [add_word(w)] without a frequency, [cut(w)] is [[w]], with and without
    the HMM, for every word [w] of word characters other than ASCII letters and
    digits (in particular for every Han-only word). *)
Theorem C19_added_word_comes_out :
  forall (H : hmm numR) (d : dstate) (w : str) (tag : option str),
    healthy (d_freq d) (d_total d) -> w <> [] ->
    Forall (fun c => word_char c = true /\ is_alnum c = false) w ->
    exists d', add_word numR H d w None tag = Ok d' /\
      forall HMM, cut numR H (mode_of false HMM) (d_freq d') (d_total d') (d_force d') w = gof [w].
Proof.
  intros H d w tag HE NE FW.
  destruct (suggest_freq_value numR H (d_freq d) (d_total d) (d_force d) (Whole w)) as [f|e] eqn:E.
  2:{ rewrite suggest_whole in E by auto. discriminate. }
  exists (add_word_freq d w f tag). split; [unfold add_word; rewrite E; reflexivity|].
  destruct (@suggest_enough H (d_freq d) (d_total d) (d_force d) w f HE NE FW E) as [L1 L2].
  intros HMM. apply cut_chosen_whole; auto.
  - apply healthy_sane. apply healthy_add; auto. lia.
  - eapply Forall_impl; [|exact FW]. intros ? [? ?]; auto.
  - apply added_whole; auto.
Qed.

(** a Han-only word meets the hypothesis *)
Theorem C19_han_only :
  forall w, Forall (fun c => han_char c = true) w ->
    Forall (fun c => word_char c = true /\ is_alnum c = false) w.
Proof.
  intros w F. eapply Forall_impl; [|exact F]. intros c HC. split.
  - unfold word_char. rewrite HC. reflexivity.
  - unfold han_char, is_alnum, is_digit09, is_lower, is_upper, in_range in *.
    apply andb_true_iff in HC. destruct HC as [HC _]. apply N.leb_le in HC.
    rewrite !orb_false_iff, !andb_false_iff, !N.leb_gt. lia.
Qed.

Example C19_nonvacuous :
  let w := [c_jing; c_da; c_bei] in
  healthy (d_freq demo) (d_total demo) /\ w <> [] /\
  Forall (fun c => word_char c = true /\ is_alnum c = false) w.
Proof. split; [exact demo_healthy|]. split; [discriminate|]. apply C19_han_only. repeat constructor. Qed.

(** With letters in the word the claim is false: 'a', 'b' and 的 each with
    frequency 10, and the word "ab的".  The suggestion takes the merged word "ab",
    which is not in the dictionary, and comes out too low. *)
Definition c_de : char := 0x7684%N.
Definition abde : dstate := build [([97%N], 10%Z); ([98%N], 10%Z); ([c_de], 10%Z)].
Definition w_abde : str := [97%N; 98%N; c_de].

Lemma abde_healthy : healthy (d_freq abde) (d_total abde).
Proof. apply healthyb_ok. vm_compute. reflexivity. Qed.

Theorem C19_letters_refuted :
  forall (H : hmm numR),
  exists d', add_word numR H abde w_abde None None = Ok d' /\
    cut numR H (mode_of false false) (d_freq d') (d_total d') (d_force d') w_abde <> gof [w_abde].
Proof.
  intros H. pose proof abde_healthy as HE. pose proof HE as [PC [PT _]].
  assert (RUN : runs word_char w_abde = [(true, w_abde)]) by (vm_compute; reflexivity).
  assert (CH : chosen numR (d_freq abde) (d_total abde) w_abde = [[97%N]; [98%N]; [c_de]]).
  { pose proof (chosen_candidate numR w_abde (healthy_sane HE) PC) as C.
    pose proof (candidate_words _ _ _ C) as FW. apply candidate_partition in C. destruct C as [C1 C2].
    assert (L1 : Forall (fun w => length w = 1) (chosen numR (d_freq abde) (d_total abde) w_abde)).
    { eapply Forall_impl; [|exact FW]. intros w [[n [E NZ]]|L]; auto.
      apply ProofsDemo.sget_In in E. vm_compute in E.
      intuition; match goal with E : _ = (_, _) |- _ => inversion E; subst end; reflexivity. }
    clear FW C2. revert C1 L1. generalize (chosen numR (d_freq abde) (d_total abde) w_abde).
    intros ws C1 L1. unfold w_abde in C1.
    assert (TK : forall (ws : list str) c r, concat ws = c :: r -> Forall (fun w => length w = 1) ws ->
       exists ws', ws = [c] :: ws' /\ concat ws' = r /\ Forall (fun w => length w = 1) ws').
    { intros [|x xs] c r E F; [discriminate|]. inversion F; subst. destruct x as [|y [|z x]]; try discriminate.
      simpl in E. inversion E; subst. eauto. }
    apply TK in C1; auto. destruct C1 as [w1 [-> [C1 F1]]].
    apply TK in C1; auto. destruct C1 as [w2 [-> [C1 F2]]].
    apply TK in C1; auto. destruct C1 as [w3 [-> [C1 F3]]].
    destruct w3 as [|x w3]; auto. inversion F3; subst. destruct x; discriminate. }
  assert (SG : suggest_freq_value numR H (d_freq abde) (d_total abde) (d_force abde) (Whole w_abde) = Ok 1%Z).
  { unfold suggest_freq_value, py_float. cbn [f_of_Z numR rbind].
    rewrite cut_nohmm_text by (apply healthy_sane; auto). rewrite RUN.
    cbn [flat_map fst snd]. rewrite CH.
    change (merge_eng [] [[97%N]; [98%N]; [c_de]] ++ []) with [[97%N; 98%N]; [c_de]].
    unfold gof, g_list. cbn [fst snd rbind].
    rewrite freq_product_R by (apply not_0_IZR; lia). cbn [rbind].
    unfold int_freq_total. cbn [f_trunc numR f_mul rbind].
    change (freq_get (d_freq abde) w_abde 1) with 1%Z.
    cbn [fold_right]. change (freq_get (d_freq abde) [97%N; 98%N] 1) with 1%Z.
    change (freq_get (d_freq abde) [c_de] 1) with 10%Z. change (d_total abde) with 30%Z.
    set (x := (1 * (1 / 30 * (10 / 30 * 1)) * 30)%R).
    assert (X : (0 <= x)%R) by (unfold x; lra).
    pose proof (Rtrunc_spec x X) as [A B].
    assert (Rtrunc x = 0%Z) as ->; [|reflexivity].
    assert (IZR (Rtrunc x) < 1)%R by (unfold x in *; lra).
    assert (-1 < IZR (Rtrunc x))%R by (unfold x in *; lra).
    apply lt_IZR in H0. apply lt_IZR in H1. lia. }
  exists (add_word_freq abde w_abde 1 None). split; [unfold add_word; rewrite SG; reflexivity|].
  set (d' := add_word_freq abde w_abde 1 None).
  assert (HE' : healthy (d_freq d') (d_total d')) by (apply healthy_add; auto; lia).
  pose proof HE' as [PC' _].
  rewrite cut_nohmm_text by (apply healthy_sane; auto). rewrite RUN. cbn [flat_map fst snd]. rewrite app_nil_r.
  intros E. assert (EM : merge_eng [] (chosen numR (d_freq d') (d_total d') w_abde) = [w_abde]) by (apply (f_equal fst) in E; exact E).
  assert (C : candidate (sget (d_freq d')) w_abde [[97%N]; [98%N]; [c_de]]).
  { assert (W : forall w n, sget (d_freq d') w = Some n -> n <> 0%Z -> is_word (sget (d_freq d')) w) by (intros w n; exists n; auto).
    simpl. exists [98%N; c_de]. split; [reflexivity|]. split; [discriminate|]. split; [left; eapply W; [vm_compute; reflexivity|discriminate]|].
    exists [c_de]. split; [reflexivity|]. split; [discriminate|]. split; [left; eapply W; [vm_compute; reflexivity|discriminate]|].
    exists []. split; [reflexivity|]. split; [discriminate|]. split; [left; eapply W; [vm_compute; reflexivity|discriminate]|reflexivity]. }
  pose proof (chosen_prob _ _ (healthy_sane HE') PC' C) as L.
  assert (EC : chosen numR (d_freq d') (d_total d') w_abde = [w_abde]).
  { destruct (@merged_origin _ _ w_abde (merge_eng_merged (chosen numR (d_freq d') (d_total d') w_abde))) as [a [b [[_ EC]|[g [_ [FG [EG _]]]]]]].
    - rewrite EM. left. reflexivity.
    - pose proof (chosen_candidate numR w_abde (healthy_sane HE') PC') as C3. apply candidate_partition in C3.
      destruct C3 as [C3 C4]. rewrite EC in *. rewrite concat_app in C3. simpl in C3.
      apply (f_equal (@length _)) in C3. rewrite !app_length in C3.
      apply Forall_app in C4. destruct C4 as [C4 C5]. inversion C5; subst.
      assert (a = []) as ->. { destruct a as [|x a]; auto. inversion C4; subst. simpl in C3. rewrite app_length in C3. destruct x; [congruence|simpl in C3; lia]. }
      assert (b = []) as ->. { destruct b as [|x b]; auto. inversion H3; subst. simpl in C3. rewrite app_length in C3. destruct x; [congruence|simpl in C3; lia]. }
      reflexivity.
    - exfalso. apply concat_singles_alnum in FG. rewrite <- EG in FG. inversion FG as [|? ? _ F2]. inversion F2 as [|? ? _ F3].
      inversion F3 as [|? ? X _]. vm_compute in X. discriminate. }
  rewrite EC in L. unfold prob in L. cbn [fold_right] in L.
  change (weight_of (sget (d_freq d')) [97%N]) with 10%Z in L.
  change (weight_of (sget (d_freq d')) [98%N]) with 10%Z in L.
  change (weight_of (sget (d_freq d')) [c_de]) with 10%Z in L.
  change (weight_of (sget (d_freq d')) w_abde) with 1%Z in L.
  change (d_total d') with 31%Z in L. lra.
Qed.

(** ** C20 *)

(** the joined word never becomes more frequent, in any arithmetic *)
Theorem C20_never_raises :
  forall (num : Num) (H : hmm num) (d : dstate) (segs : list str) (tune : bool) (f : Z) (d' : dstate),
    suggest_freq num H d (Parts segs) tune = Ok (f, d') ->
    (f <= freq_get (d_freq d) (concat segs) 0)%Z /\
    freq_get (d_freq d') (concat segs) 0 = if tune then f else freq_get (d_freq d) (concat segs) 0.
Proof.
  intros num H d segs tune f d' E. unfold suggest_freq in E.
  destruct (suggest_freq_value num H (d_freq d) (d_total d) (d_force d) (Parts segs)) as [n|e] eqn:ES; [|discriminate].
  cbn [rbind] in E. assert (LE : (n <= freq_get (d_freq d) (concat segs) 0)%Z).
  { unfold suggest_freq_value, py_float in ES. destruct (f_of_Z num (d_total d)) as [ft|]; cbn [rbind] in ES; [|discriminate].
    destruct (freq_product num (d_freq d) ft segs None) as [acc|]; cbn [rbind] in ES; [|discriminate].
    destruct (int_freq_total num acc ft (d_total d)) as [m|]; cbn [rbind] in ES; [|discriminate].
    inversion ES. apply Z.le_min_r. }
  destruct tune; cbn [rbind] in E.
  - unfold add_word in E. cbn [rbind] in E. inversion E; subst. split; auto.
    unfold freq_get. simpl. rewrite add_get. unfold after_add.
    rewrite str_eqb_refl. reflexivity.
  - inversion E; subst. auto.
Qed.

(** the suggested frequency, when the segments are dictionary words *)
Lemma suggest_parts :
  forall (H : hmm numR) fr T force segs,
    healthy fr T -> segs <> [] -> Forall (is_word (sget fr)) segs ->
    exists n, suggest_freq_value numR H fr T force (Parts segs) = Ok (Z.min n (freq_get fr (concat segs) 0)) /\
      (IZR n <= prob (sget fr) T segs * IZR T < IZR n + 1)%R.
Proof.
  intros H fr T force segs HE NE FW. pose proof HE as [_ [P _]].
  assert (PT : (0 < IZR T)%R) by (apply IZR_lt; auto).
  assert (ER : raw fr T segs = prob (sget fr) T segs).
  { clear NE. unfold raw, prob. induction FW as [|s segs [n [E NZ]] FW IH]; simpl; auto. rewrite IH. f_equal. f_equal. f_equal.
    unfold freq_get, weight_of. rewrite E. destruct (Z.eqb_spec n 0); congruence. }
  exists (Rtrunc (raw fr T segs * IZR T)). split.
  - unfold suggest_freq_value, py_float. cbn [f_of_Z numR rbind].
    rewrite freq_product_R by (apply not_0_IZR; lia). cbn [rbind]. destruct segs as [|s segs]; [congruence|].
    unfold int_freq_total. cbn [f_trunc numR f_mul rbind]. rewrite Rmult_1_l. reflexivity.
  - rewrite <- ER. apply Rtrunc_spec. apply Rmult_le_pos; [|lra]. apply raw_bounds; auto.
Qed.

(** With segments that are dictionary words, and [f * (total + f)^(m-1)] below the
    product of their frequencies ([f] the new frequency, [m] the number of
    segments), the joined word is not yielded any more, for any text. *)
Theorem C20_splits_under_bound :
  forall (H : hmm numR) (d : dstate) (segs : list str) (f : Z) (d' : dstate),
    healthy (d_freq d) (d_total d) ->
    2 <= length segs -> Forall (fun w => w <> []) segs -> Forall (is_word (sget (d_freq d))) segs ->
    (exists c, In c (concat segs) /\ han_char c = true) ->
    suggest_freq numR H d (Parts segs) true = Ok (f, d') ->
    (f * (d_total d + f) ^ Z.of_nat (length segs - 1) < weights (sget (d_freq d)) segs)%Z ->
    forall s, ~ In (concat segs) (fst (cut numR H (mode_of false false) (d_freq d') (d_total d') (d_force d') s)).
Proof.
  intros H d segs f d' HE LEN NE FW [c [HC HH]] ES BND s HI.
  assert (NS : segs <> []) by (destruct segs; [simpl in LEN; lia|discriminate]).
  destruct (suggest_parts H (d_freq d) (d_total d) (d_force d) segs HE NS FW) as [n [EV _]].
  unfold suggest_freq in ES. rewrite EV in ES. cbn [rbind add_word] in ES. unfold add_word in ES. cbn [rbind] in ES.
  inversion ES as [[EF ED]]. clear ES. rewrite EF in ED. change (segment_word (Parts segs)) with (concat segs) in *.
  set (w := concat segs) in *.
  assert (PT : partition w segs) by (split; auto).
  assert (NI : ~ In w segs).
  { destruct segs as [|x [|y xs]]; [simpl in LEN; lia|simpl in LEN; lia|]. apply partition_no_whole; auto. }
  assert (NW : w <> []) by (destruct w; [contradiction|discriminate]).
  assert (F0 : (0 <= f)%Z).
  { eapply (@suggest_nonneg numR signR H (d_freq d) (d_total d) (d_force d) (Parts segs)); [apply HE|].
    rewrite EV. f_equal. exact EF. }
  assert (LW : length w <> 1).
  { intros L1. destruct segs as [|x [|y xs]]; [simpl in LEN; lia|simpl in LEN; lia|].
    inversion NE as [|? ? N1 NE2]; inversion NE2 as [|? ? N2 _]; subst. unfold w in L1. simpl in L1.
    rewrite !app_length in L1. destruct x; [congruence|]. destruct y; [congruence|]. simpl in L1. lia. }
  assert (DF : d_freq d' = add_prefixes (sset (d_freq d) w f) w) by (subst d'; reflexivity).
  assert (DT : d_total d' = (d_total d + f)%Z) by (subst d'; reflexivity).
  destruct (Z.eq_dec f 0) as [Z0|NZ].
  - apply cut_nohmm_kind in HI. destruct HI as [[k [E1 E2]]|[L|NH]]; auto.
    + rewrite DF, add_get in E1. unfold after_add in E1. rewrite str_eqb_refl in E1. congruence.
    + unfold no_han in NH. rewrite Forall_forall in NH. rewrite (NH c HC) in HH. discriminate.
  - assert (HE' : healthy (d_freq d') (d_total d')) by (rewrite DF, DT; apply healthy_add; auto).
    assert (W : is_word (sget (d_freq d')) w) by (rewrite DF; apply is_word_after_self; auto).
    assert (CA : candidate (sget (d_freq d')) w segs).
    { unfold w. rewrite <- (app_nil_r (concat segs)). rewrite <- (app_nil_r segs) at 2.
      apply candidate_words_app; auto; [|reflexivity].
      rewrite DF. rewrite Forall_forall in *. intros x HX. apply is_word_after; auto. intros ->. auto. }
    pose proof HE' as [PC' [P' _]]. pose proof HE as [_ [P _]].
    (* as the word is chosen in [s], it is chosen alone *)
    assert (EC : chosen numR (d_freq d') (d_total d') w = [w]).
    { rewrite cut_nohmm_text in HI by (apply healthy_sane; auto). simpl in HI. rewrite in_flat_map in HI.
      destruct HI as [[b r] [HR HI]]. simpl in HI. destruct b.
      - destruct (@merged_origin _ _ w (merge_eng_merged (chosen numR (d_freq d') (d_total d') r)) HI)
          as [a [b [[_ EC]|[g [_ [FG [EG _]]]]]]].
        + eapply (@chosen_again (d_freq d') (d_total d') HE'); eauto.
        + exfalso. apply concat_singles_alnum in FG. rewrite <- EG, Forall_forall in FG. specialize (FG c HC).
          unfold han_char, is_alnum, is_digit09, is_lower, is_upper, in_range in *.
          apply andb_true_iff in HH. destruct HH as [HH _]. apply N.leb_le in HH.
          rewrite !orb_true_iff, !andb_true_iff, !N.leb_le in FG. lia.
      - exfalso. apply runs_class in HR. destruct HR as [_ FR].
        pose proof (chars_crlf_words r) as CW. rewrite Forall_forall in CW. destruct (CW w HI) as [|E]; auto.
        rewrite E in HC. simpl in HC. destruct HC as [<-|[<-|[]]]; discriminate. }
    pose proof (chosen_prob _ _ (healthy_sane HE') PC' CA) as L. rewrite EC in L.
    rewrite !prob_words in L by auto. rewrite DF in L. rewrite weights_after in L by auto.
    assert (EW : weights (sget (add_prefixes (sset (d_freq d) w f) w)) [w] = f).
    { simpl. unfold weight_of. rewrite add_get. unfold after_add. rewrite str_eqb_refl.
      destruct (Z.eqb_spec f 0); lia. }
    rewrite EW, DT in L. cbn [length pow] in L. rewrite Rmult_1_r in L.
    assert (PT' : (0 < IZR (d_total d + f))%R) by (apply IZR_lt; lia).
    apply IZR_lt in BND. rewrite mult_IZR, <- pow_IZR in BND.
    set (m := length segs - 1) in *. assert (EL : length segs = S m) by (unfold m; lia). rewrite EL in L.
    cbn [pow] in L.
    assert (Q : (0 < IZR (d_total d + f) ^ m)%R) by (apply pow_lt; auto).
    assert (L2 : (IZR (weights (sget (d_freq d)) segs) <= IZR f * IZR (d_total d + f) ^ m)%R).
    { apply (Rmult_le_compat_r (IZR (d_total d + f) * IZR (d_total d + f) ^ m)) in L; [|apply Rmult_le_pos; lra].
      replace (IZR (weights (sget (d_freq d)) segs) / (IZR (d_total d + f) * IZR (d_total d + f) ^ m)
        * (IZR (d_total d + f) * IZR (d_total d + f) ^ m))%R with (IZR (weights (sget (d_freq d)) segs)) in L by (field; lra).
      replace (IZR f / IZR (d_total d + f) * (IZR (d_total d + f) * IZR (d_total d + f) ^ m))%R
        with (IZR f * IZR (d_total d + f) ^ m)%R in L by (field; lra). exact L. }
    lra.
Qed.

(** The usual case: the product of the frequencies is below [total^(m-1)].  The
    frequency becomes 0 and the word comes apart, without any further bound. *)
Theorem C20_splits_rare :
  forall (H : hmm numR) (d : dstate) (segs : list str),
    healthy (d_freq d) (d_total d) ->
    2 <= length segs -> Forall (fun w => w <> []) segs -> Forall (is_word (sget (d_freq d))) segs ->
    (exists c, In c (concat segs) /\ han_char c = true) ->
    (weights (sget (d_freq d)) segs < d_total d ^ Z.of_nat (length segs - 1))%Z ->
    exists d', suggest_freq numR H d (Parts segs) true = Ok (0%Z, d') /\
      forall s, ~ In (concat segs) (fst (cut numR H (mode_of false false) (d_freq d') (d_total d') (d_force d') s)).
Proof.
  intros H d segs HE LEN NE FW HAN LT.
  assert (NS : segs <> []) by (destruct segs; [simpl in LEN; lia|discriminate]).
  destruct (suggest_parts H (d_freq d) (d_total d) (d_force d) segs HE NS FW) as [n [EV [B1 B2]]].
  pose proof HE as [_ [P [_ [NN _]]]]. assert (PT : (0 < IZR (d_total d))%R) by (apply IZR_lt; auto).
  assert (WP : (0 < weights (sget (d_freq d)) segs)%Z).
  { clear -HE. induction segs as [|x segs IH]; simpl; [lia|]. pose proof (healthy_weight x HE). nia. }
  assert (N0 : Z.min n (freq_get (d_freq d) (concat segs) 0) = 0%Z).
  { assert (n = 0%Z) as ->.
    - rewrite prob_words in B1, B2 by auto. set (m := length segs - 1) in *.
      assert (EL : length segs = S m) by (unfold m; lia). rewrite EL in B1, B2. cbn [pow] in B1, B2.
      assert (Q : (0 < IZR (d_total d) ^ m)%R) by (apply pow_lt; auto).
      assert (EQ : (IZR (weights (sget (d_freq d)) segs) / (IZR (d_total d) * IZR (d_total d) ^ m) * IZR (d_total d)
               = IZR (weights (sget (d_freq d)) segs) / IZR (d_total d) ^ m)%R) by (field; lra).
      rewrite EQ in B1, B2. apply IZR_lt in LT, WP. rewrite <- pow_IZR in LT.
      assert (X1 : (0 < IZR (weights (sget (d_freq d)) segs) / IZR (d_total d) ^ m)%R) by (apply Rdiv_lt_0_compat; auto).
      assert (X2 : (IZR (weights (sget (d_freq d)) segs) / IZR (d_total d) ^ m < 1)%R).
      { apply (Rmult_lt_reg_r (IZR (d_total d) ^ m)); auto. unfold Rdiv. rewrite Rmult_assoc, Rinv_l by lra. lra. }
      assert (A : (IZR n < 1)%R) by lra. assert (B : (-1 < IZR n)%R) by lra. apply lt_IZR in A, B. lia.
    - assert (0 <= freq_get (d_freq d) (concat segs) 0)%Z by (eapply total_ok_get; [apply HE|lia]). lia. }
  eexists. split.
  - unfold suggest_freq. rewrite EV, N0. reflexivity.
  - apply (C20_splits_under_bound H d segs 0%Z); auto.
    unfold suggest_freq. rewrite EV, N0. reflexivity.
Qed.

(** Without the bound the claim is false: 北 and 京 with frequency 50 each and 北京
    with 100.  [suggest_freq(("北", "京"), True)] gives 12, and 北京 still comes
    out whole, as the total has grown. *)
Definition bj50 : dstate := build [([c_bei], 50%Z); ([c_jing], 50%Z); ([c_bei; c_jing], 100%Z)].

Lemma bj50_healthy : healthy (d_freq bj50) (d_total bj50).
Proof. apply healthyb_ok. vm_compute. reflexivity. Qed.

Theorem C20_splitting_refuted :
  forall (H : hmm numR),
  exists d', suggest_freq numR H bj50 (Parts [[c_bei]; [c_jing]]) true = Ok (12%Z, d') /\
    cut numR H (mode_of false false) (d_freq d') (d_total d') (d_force d') [c_bei; c_jing] = gof [[c_bei; c_jing]].
Proof.
  intros H. pose proof bj50_healthy as HE.
  assert (FW : Forall (is_word (sget (d_freq bj50))) [[c_bei]; [c_jing]]).
  { repeat constructor; exists 50%Z; split; try discriminate; vm_compute; reflexivity. }
  destruct (suggest_parts H (d_freq bj50) (d_total bj50) (d_force bj50) [[c_bei]; [c_jing]] HE) as [n [EV [B1 B2]]]; auto; [discriminate|].
  assert (N12 : n = 12%Z).
  { unfold prob in B1, B2. cbn [fold_right] in B1, B2.
    change (weight_of (sget (d_freq bj50)) [c_bei]) with 50%Z in B1, B2.
    change (weight_of (sget (d_freq bj50)) [c_jing]) with 50%Z in B1, B2.
    change (d_total bj50) with 200%Z in B1, B2.
    assert (A : (IZR n < 13)%R) by lra. assert (B : (11 < IZR n)%R) by lra. apply lt_IZR in A, B. lia. }
  subst n. change (Z.min 12 (freq_get (d_freq bj50) (concat [[c_bei]; [c_jing]]) 0)) with 12%Z in EV.
  exists (add_word_freq bj50 [c_bei; c_jing] 12 None). split.
  - unfold suggest_freq. rewrite EV. reflexivity.
  - assert (HE' : healthy (d_freq (add_word_freq bj50 [c_bei; c_jing] 12 None)) (d_total (add_word_freq bj50 [c_bei; c_jing] 12 None)))
      by (apply healthy_add; auto; lia).
    apply (@cut_chosen_whole H _ _ _ false); [apply healthy_sane; auto|discriminate|repeat constructor|].
    apply chosen_whole; [apply healthy_sane; auto|apply HE'|discriminate|apply is_word_after_self; lia|].
    pose proof HE' as [PC' _].
    pose proof (chosen_candidate numR [c_bei; c_jing] (healthy_sane HE') PC') as C.
    apply candidate_partition in C. destruct C as [C1 C2].
    destruct (chosen numR (d_freq (add_word_freq bj50 [c_bei; c_jing] 12 None)) (d_total (add_word_freq bj50 [c_bei; c_jing] 12 None)) [c_bei; c_jing])
      as [|x xs]; [discriminate|].
    inversion C2 as [|? ? NX FX]; subst. simpl in C1. destruct x as [|c1 [|c2 [|c3 x]]]; [congruence| | |].
    + inversion C1; subst. destruct xs as [|y ys]; [discriminate|]. inversion FX as [|? ? NY FY]; subst.
      destruct y as [|d1 [|d2 y]]; [congruence| |]; simpl in H2; inversion H2; subst.
      destruct ys as [|z zs]; [|inversion FY; subst; destruct z; [congruence|discriminate]].
      unfold prob. cbn [fold_right concat app].
      change (weight_of (sget (d_freq (add_word_freq bj50 [c_bei; c_jing] 12 None))) [c_bei]) with 50%Z.
      change (weight_of (sget (d_freq (add_word_freq bj50 [c_bei; c_jing] 12 None))) [c_jing]) with 50%Z.
      change (weight_of (sget (d_freq (add_word_freq bj50 [c_bei; c_jing] 12 None))) [c_bei; c_jing]) with 12%Z.
      change (d_total (add_word_freq bj50 [c_bei; c_jing] 12 None)) with 212%Z. lra.
    + inversion C1; subst. destruct xs as [|y ys]; [apply Rle_refl|]. inversion FX; subst. destruct y; [congruence|discriminate].
    + inversion C1.
Qed.

(** the bound is met in the demo dictionary: 来到 with frequency 15, 来 8, 到 9, total 100 *)
Example C20_nonvacuous :
  let segs := [[c_lai]; [c_dao]] in
  healthy (d_freq demo) (d_total demo) /\ 2 <= length segs /\ Forall (fun w => w <> []) segs /\
  Forall (is_word (sget (d_freq demo))) segs /\ (exists c, In c (concat segs) /\ han_char c = true) /\
  (weights (sget (d_freq demo)) segs < d_total demo ^ Z.of_nat (length segs - 1))%Z /\
  is_word (sget (d_freq demo)) (concat segs).
Proof.
  split; [exact demo_healthy|]. split; [simpl; lia|]. split; [repeat constructor; discriminate|].
  split; [repeat constructor; [exists 8%Z|exists 9%Z]; split; try discriminate; vm_compute; reflexivity|].
  split; [exists c_lai; split; [left; reflexivity|vm_compute; reflexivity]|].
  split; [vm_compute; reflexivity|]. exists 15%Z. split; [vm_compute; reflexivity|discriminate].
Qed.

(** ** C52

    Every dictionary word that [cut(s, HMM=False)] yields is yielded as one word
    when it is segmented on its own. *)
Theorem C52_stable_words :
  forall (H : hmm numR) (fr : freqs) (total : Z) (force : list str) (s w : str),
    healthy fr total ->
    In w (fst (cut numR H (mode_of false false) fr total force s)) ->
    cut numR H (mode_of false false) fr total force w = gof [w].
Proof. intros H fr total force s w HE. apply (@cut_again fr total HE H). Qed.

(** Non-vacuity: the demo dictionary. *)
Example C52_nonvacuous :
  healthy demo_fr demo_total /\ is_word (sget demo_fr) [c_lai; c_dao] /\
  In [c_lai; c_dao] (fst (cut InstQ.numQ demo_hmm (mode_of false false) demo_fr demo_total [] demo_text)).
Proof.
  split; [exact demo_healthy|]. split; [exists 15%Z; split; [vm_compute; reflexivity|discriminate]|].
  vm_compute. auto.
Qed.

(** ** C56

    Adding a word that is cut out whole once more, with a frequency that is not
    lower, keeps it whole. *)
Theorem C56_raising_keeps_whole :
  forall (H : hmm numR) (d : dstate) (w : str) (f f' : Z) (tag : option str) (d' : dstate),
    healthy (d_freq d) (d_total d) ->
    (exists c, In c w /\ han_char c = true) -> Forall (fun c => word_char c = true) w ->
    cut numR H (mode_of false false) (d_freq d) (d_total d) (d_force d) w = gof [w] ->
    sget (d_freq d) w = Some f -> (0 < f <= f')%Z ->
    add_word numR H d w (Some f') tag = Ok d' ->
    forall HMM, cut numR H (mode_of false HMM) (d_freq d') (d_total d') (d_force d') w = gof [w].
Proof.
  intros H d w f f' tag d' HE [c [HC HH]] FW EC EF [L1 L2] ED.
  unfold add_word in ED. cbn [rbind] in ED. inversion ED. clear ED. subst d'. cbn [d_freq d_total d_force add_word_freq].
  assert (NE : w <> []) by (destruct w; [contradiction|discriminate]).
  pose proof HE as [PC [PT _]].
  assert (CH : chosen numR (d_freq d) (d_total d) w = [w]).
  { rewrite cut_nohmm_text in EC by (apply healthy_sane; auto). rewrite (@runs_whole word_char w true NE FW) in EC.
    cbn [flat_map fst snd] in EC. rewrite app_nil_r in EC.
    assert (EM : merge_eng [] (chosen numR (d_freq d) (d_total d) w) = [w]) by (apply (f_equal fst) in EC; exact EC).
    destruct (@merged_origin _ _ w (merge_eng_merged (chosen numR (d_freq d) (d_total d) w))) as [a [b [[_ E]|[g [_ [FG [EG _]]]]]]].
    - rewrite EM. left. reflexivity.
    - eapply (@chosen_again (d_freq d) (d_total d) HE); [exact E|]. exists f. split; auto. lia.
    - exfalso. apply concat_singles_alnum in FG. rewrite <- EG, Forall_forall in FG. specialize (FG c HC).
      unfold han_char, is_alnum, is_digit09, is_lower, is_upper, in_range in *.
      apply andb_true_iff in HH. destruct HH as [HH _]. apply N.leb_le in HH.
      rewrite !orb_true_iff, !andb_true_iff, !N.leb_le in FG. lia. }
  intros HMM. apply cut_chosen_whole; auto.
  - apply healthy_sane. apply healthy_add; auto. lia.
  - apply added_whole; auto; [lia|]. rewrite CH. unfold prob. cbn [fold_right]. rewrite Rmult_1_r.
    assert (EW : weight_of (sget (d_freq d)) w = f). { unfold weight_of. rewrite EF. destruct (Z.eqb_spec f 0); lia. }
    rewrite EW. unfold Rdiv. rewrite Rmult_assoc, Rinv_l by (apply not_0_IZR; lia). rewrite Rmult_1_r. apply IZR_le. lia.
Qed.

Print Assumptions reachable_healthy.
Print Assumptions C19_added_word_comes_out.
Print Assumptions C19_letters_refuted.
Print Assumptions C20_never_raises.
Print Assumptions C20_splits_under_bound.
Print Assumptions C20_splits_rare.
Print Assumptions C20_splitting_refuted.
Print Assumptions C52_stable_words.
Print Assumptions C56_raising_keeps_whole.
