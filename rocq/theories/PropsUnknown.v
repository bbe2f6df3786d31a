(** * Characters that the HMM tables do not know *)
From Coq Require Import Reals Lra.
From Coq Require QArith_base.
From Flocq Require Import Core BinarySingleNaN.
From Verif Require Import PyBase PyRegex PyNum ModelFinalseg ModelSeg ModelDict
  SpecBase SpecSeg SpecHmm SpecMode SpecUnknown InstQ InstB64 InstB64Ext
  ProofsBase ProofsFinalseg ProofsNoHmm ProofsSuggest ProofsMode ProofsUnknown Demo ProofsDemo.

(** ** C97

    Binary64 tables without wild numbers.  A Han text in which every character has
    an emission probability for the label S, or none at all: from the first
    character [c] without any on, the HMM stage yields single characters only,
    whatever comes behind [c]; the character before [c] is a word of its own too,
    and the words before do not depend on what comes behind [c].  (After the
    addition of -3.14e100 all scores are equal, as nothing smaller than 1e83 shows in
    their sums, and ties go to the greatest letter, S.) *)
Theorem C97_rest_in_single_characters :
  forall (lg : Z -> b64) (H : hmm (numB lg)) (force : list str) (u : str) (c : char),
    plain_tables H ->
    Forall (fun x => han_char x = true) (u ++ [c]) ->
    Forall (fun x => known H x \/ unknown H x) u -> unknown H c ->
    exists ws, concat ws = u /\ Forall (fun w => w <> []) ws /\
      (forall u' x, u = u' ++ [x] -> exists ws', ws = ws' ++ [[x]]) /\
      forall v, Forall (fun x => han_char x = true) v -> Forall (fun x => known H x \/ unknown H x) v ->
        (Z.of_nat (length (u ++ c :: v)) <= 2 ^ 49)%Z ->
        fs_cut (numB lg) H force (u ++ c :: v) = gof (ws ++ map (fun x => [x]) (c :: v)).
Proof.
  intros lg H force u c PT HU FU UN.
  destruct (@han_words lg H u c PT FU UN) as (ws & C & NE & LA & ALL).
  exists (flat_map (forced force) ws).
  assert (FW : forall w, w <> [] -> concat (forced force w) = w /\ Forall (fun x => x <> []) (forced force w)).
  { intros w N. unfold forced. destruct (in_dec (list_eq_dec N.eq_dec) w force).
    - split; [clear; induction w; cbn; congruence|]. apply Forall_map. apply Forall_forall. discriminate.
    - split; [apply app_nil_r|]. constructor; auto. }
  assert (F1 : forall x : char, forced force [x] = [[x]]).
  { intros x. unfold forced. destruct (in_dec (list_eq_dec N.eq_dec) [x] force); reflexivity. }
  assert (FM : forall l : list char, flat_map (forced force) (map (fun x => [x]) l) = map (fun x => [x]) l).
  { induction l as [|x l IH]; cbn [map flat_map]; [reflexivity|]. rewrite F1, IH. reflexivity. }
  split; [|split; [|split]].
  - rewrite <- C. clear -NE FW. induction NE as [|w ws N _ IH]; cbn; auto.
    rewrite concat_app, IH, (proj1 (FW w N)). reflexivity.
  - clear -NE FW. induction NE as [|w ws N _ IH]; cbn; [constructor|]. apply Forall_app. split; auto. apply FW; auto.
  - intros u' x E. destruct (LA u' x E) as [ws' ->]. exists (flat_map (forced force) ws').
    rewrite flat_map_app. f_equal. cbn. rewrite F1. reflexivity.
  - intros v HV FV L.
    destruct (@stage_ok (numB lg) H force (u ++ c :: v)) as (out & E & ST).
    assert (HA : Forall (fun x => han_char x = true) (u ++ c :: v)).
    { change (c :: v) with ([c] ++ v). rewrite app_assoc. apply Forall_app. auto. }
    rewrite (@runs_whole han_char _ true) in ST by (auto; destruct u; discriminate).
    rewrite E. f_equal. inversion ST as [|r ws0 rs out0 FO ST'|]; subst. inversion ST'; subst. rewrite app_nil_r.
    rewrite ALL in FO by (auto; unfold blim; lia). injection FO as FO. subst ws0.
    rewrite flat_map_app. f_equal. exact (FM (c :: v)).
Qed.

(** The same for the accurate mode with HMM, on a text in which no dictionary word
    of two or more characters occurs. *)
Theorem C97_cut :
  forall (lg : Z -> b64) (H : hmm (numB lg)) (force : list str) (u : str) (c : char),
    plain_tables H ->
    Forall (fun x => han_char x = true) (u ++ [c]) ->
    Forall (fun x => known H x \/ unknown H x) u -> unknown H c ->
    exists ws, concat ws = u /\ Forall (fun w => w <> []) ws /\
      (forall u' x, u = u' ++ [x] -> exists ws', ws = ws' ++ [[x]]) /\
      forall v (fr : freqs) (total : Z),
        Forall (fun x => han_char x = true) v -> Forall (fun x => known H x \/ unknown H x) v ->
        (Z.of_nat (length (u ++ c :: v)) <= 2 ^ 49)%Z ->
        sane (sget fr) total -> prefix_closed (sget fr) ->
        (forall a w b, u ++ c :: v = a ++ w ++ b -> is_word (sget fr) w -> length w = 1) ->
        cut (numB lg) H (mode_of false true) fr total force (u ++ c :: v) =
          gof (ws ++ map (fun x => [x]) (c :: v)).
Proof.
  intros lg H force u c PT HU FU UN.
  destruct (C97_rest_in_single_characters lg H force u c PT HU FU UN) as (ws & C & NE & LA & ALL).
  exists ws. split; auto. split; auto. split; auto. intros v fr total HV FV L SA PC NW.
  specialize (ALL v HV FV L). set (s := u ++ c :: v) in *.
  assert (NS : s <> []) by (unfold s; destruct u; discriminate).
  assert (HA : Forall (fun x => han_char x = true) s).
  { unfold s. change (c :: v) with ([c] ++ v). rewrite app_assoc. apply Forall_app. auto. }
  destruct (@cut_hmm_text (numB lg) H fr total force s SA) as (out & HG & E).
  change (mode_of false true) with WithHMM. rewrite E.
  rewrite (@runs_whole word_char s true); auto.
  2:{ eapply Forall_impl; [|exact HA]. cbn. intros x X. unfold word_char. rewrite X. reflexivity. }
  cbn [flat_map fst snd]. rewrite app_nil_r. f_equal.
  assert (SI : chosen (numB lg) fr total s = map (fun x => [x]) s).
  { pose proof (chosen_candidate (numB lg) s SA PC) as CA. revert CA. generalize (chosen (numB lg) fr total s).
    clear -NW. assert (NW' : forall a w b, s = a ++ w ++ b -> is_word (sget fr) w -> length w = 1) by exact NW.
    clear NW. revert NW'. generalize s. clear. intros s NW l. revert s NW. induction l as [|w l IH]; intros s NW CA; cbn in CA.
    - subst. reflexivity.
    - destruct CA as (t & -> & NE & W & CA).
      assert (LW : length w = 1).
      { destruct W as [W|[W _]]; auto. apply (NW [] w t); auto. }
      destruct w as [|x [|y w]]; try discriminate. cbn. f_equal. apply IH; auto.
      intros a w b E. apply (NW ([x] ++ a) w b). rewrite E. rewrite <- !app_assoc. reflexivity. }
  specialize (HG s). rewrite SI in HG.
  assert (SW : Forall (fun w : str => length w = 1) (map (fun x : char => [x]) s)).
  { apply Forall_map, Forall_forall. reflexivity. }
  assert (CS : concat (map (fun x : char => [x]) s) = s) by (clear; induction s; cbn; congruence).
  inversion HG as [E0 EO|w ws0 out0 LW HG' E0 EO|g ws0 ps out0 GN GF NX G1 G2 HG' E0 EO].
  - destruct s; [congruence|discriminate].
  - rewrite <- E0 in SW. inversion SW; contradiction.
  - assert (ws0 = []) as ->.
    { destruct ws0 as [|w ws0]; auto. rewrite <- E0 in SW. apply Forall_app in SW. destruct SW as [_ SW].
      inversion SW; contradiction. }
    rewrite app_nil_r in E0. subst g. inversion HG' as [E1 E2|w ws1 o1 LW H1 E1 E2|g1 ws1 ps1 o1 GN1 GF1 NX1 P1 Q1 H1 E1 E2].
    2:{ destruct g1; [congruence|discriminate]. }
    rewrite app_nil_r. rewrite CS in *. rewrite map_length in *.
    destruct (Nat.eq_dec (length s) 1) as [L1|L1].
    + rewrite G1 by auto. unfold s in L1. rewrite app_length in L1. cbn in L1.
      assert (u = []) as -> by (destruct u; [auto|cbn in L1; lia]). unfold s.
      destruct ws as [|w ws]; auto. cbn in C. apply app_eq_nil in C. destruct C as [-> _]. inversion NE; congruence.
    + assert (NI : ~ is_word (sget fr) s).
      { intros W. apply L1. apply (NW [] s []); [rewrite app_nil_r; reflexivity|exact W]. }
      specialize (G2 L1 NI). pose proof (eq_trans (eq_sym ALL) G2) as G3. injection G3 as G3. auto.
Qed.

(** ** The shipped tables on 杭, 研 and 丄

    prob_start.py and prob_trans.py, and the entries of prob_emit.py for 杭 and 研;
    丄 has none.  [dy m e] is the binary64 number [m * 2^e]: these are the exact
    values of the decimal numbers in the files. *)
Definition dy (m e : Z) : b64 := binary_normalize 53 1024 _ _ mode_NE m e false.
Definition c_hang : char := 0x676d%N.
Definition c_yan : char := 0x7814%N.
Definition c_shang : char := 0x4e04%N.

Definition ship_start (y : label) : option (Z * Z) :=
  match y with
  | LB => Some (-4732141241282413, -54) | LS => Some (-6598959431365077, -52) | _ => None
  end%Z.
Definition ship_trans (a y : label) : option (Z * Z) :=
  match a, y with
  | LB, LE => Some (-4601108177687627, -53) | LB, LM => Some (-8253213197262967, -53)
  | LE, LB => Some (-5311680271489201, -53) | LE, LS => Some (-7282546204984131, -53)
  | LM, LE => Some (-6006875388520555, -54) | LM, LM => Some (-5676167554047789, -52)
  | LS, LB => Some (-3247980583497991, -52) | LS, LS => Some (-5997562022321019, -53)
  | _, _ => None
  end%Z.
Definition ship_emit (y : label) (c : char) : option (Z * Z) :=
  if (c =? c_hang)%N then
    Some match y with
         | LB => (-299588474088251, -45) | LM => (-5546874565524039, -49)
         | LE => (-811944417774287, -46) | LS => (-708002892317889, -46)
         end%Z
  else if (c =? c_yan)%N then
    Some match y with
         | LB => (-7266880099147925, -50) | LM => (-2329302823676643, -48)
         | LE => (-4789518574811741, -49) | LS => (-6029684819594483, -49)
         end%Z
  else None.

(** in binary64, and the same numbers as fractions *)
Definition ship (lg : Z -> b64) : hmm (numB lg) :=
  mkHmm (numB lg)
    (fun y => match ship_start y with Some (m, e) => dy m e | None => b64_min_float end)
    (fun a y => match ship_trans a y with Some (m, e) => Some (dy m e : F (numB lg)) | None => None end)
    (fun y c => match ship_emit y c with Some (m, e) => Some (dy m e : F (numB lg)) | None => None end).
Definition fracQ (me : Z * Z) : F numQ := QArith_base.Qmake (fst me) (Z.to_pos (2 ^ (- snd me))).
Definition shipQ : hmm numQ :=
  mkHmm numQ
    (fun y => match ship_start y with Some me => fracQ me | None => f_min_float numQ end)
    (fun a y => match ship_trans a y with Some me => Some (fracQ me) | None => None end)
    (fun y c => match ship_emit y c with Some me => Some (fracQ me) | None => None end).

Lemma dy_small m e : (Z.abs m < 2 ^ 53)%Z -> (-1074 <= e <= 0)%Z -> small (dy m e).
Proof.
  intros BM BE. unfold dy.
  pose proof (binary_normalize_correct 53 1024 _ _ mode_NE m e false) as BC. cbv zeta in BC.
  assert (B : (Rabs (F2R (Float radix2 m e)) <= bpow radix2 53)%R).
  { unfold F2R. cbn [Fnum Fexp]. rewrite Rabs_mult, <- abs_IZR, (Rabs_right (bpow radix2 e)) by (apply Rle_ge, bpow_ge_0).
    rewrite <- (Rmult_1_r (bpow radix2 53)). apply Rmult_le_compat.
    - apply IZR_le. lia.
    - apply bpow_ge_0.
    - change (bpow radix2 53) with (IZR (2 ^ 53)). apply IZR_le. lia.
    - change 1%R with (bpow radix2 0). apply bpow_le. lia. }
  assert (R : (Rabs (round radix2 (SpecFloat.fexp 53 1024) (round_mode mode_NE) (F2R (Float radix2 m e))) <= bpow radix2 53)%R).
  { apply abs_round_le_generic; auto.
    - apply fexp_correct. reflexivity.
    - apply valid_rnd_round_mode.
    - apply generic_format_bpow. unfold SpecFloat.fexp, SpecFloat.emin. lia. }
  rewrite Rlt_bool_true in BC by (eapply Rle_lt_trans; [exact R|apply bpow_lt; lia]).
  destruct BC as (BV & BF & _). split; auto. rewrite BV. eapply Rle_trans; [exact R|]. apply bpow_le. lia.
Qed.

Lemma ship_plain lg : plain_tables (ship lg).
Proof.
  assert (MF : entry_ok b64_min_float) by (split; [vm_compute; reflexivity|apply min_float_bound]).
  assert (MU : (B2R b64_min_float <= bpow radix2 200)%R).
  { pose proof ProofsAbsorb.min_float_low. pose proof (bpow_gt_0 radix2 333). pose proof (bpow_gt_0 radix2 200). lra. }
  assert (SE : forall x, small x -> entry_ok x /\ (B2R x <= bpow radix2 200)%R).
  { intros x S. split; [|apply (small_le x S)]. destruct S as [F B]. split; auto. eapply Rle_trans; [exact B|]. apply bpow_le. lia. }
  constructor.
  - apply dy_small; lia.
  - intros y. cbn [h_start ship]. destruct y; cbn [ship_start]; auto; apply SE, dy_small; lia.
  - intros a y FO. cbn [h_trans ship].
    destruct a, y; try destruct FO; cbn [ship_trans]; eexists; (split; [reflexivity|]); apply dy_small; lia.
  - intros y c x. cbn [h_emit ship].
    assert (B : match ship_emit y c with Some (m, e) => small (dy m e) | None => True end).
    { unfold ship_emit. destruct (c =? c_hang)%N; [|destruct (c =? c_yan)%N; auto];
        destruct y; apply dy_small; lia. }
    destruct (ship_emit y c) as [[m e]|]; [|discriminate]. intros E.
    assert (x = dy m e) as -> by congruence. exact B.
Qed.

Lemma ship_known lg c : known (ship lg) c \/ unknown (ship lg) c.
Proof.
  unfold known, unknown. cbn [h_emit ship]. unfold ship_emit.
  destruct (c =? c_hang)%N; [left; discriminate|]. destruct (c =? c_yan)%N; [left; discriminate|right; reflexivity].
Qed.

(** 杭研 is found as a word; in 杭研丄杭研 no word is found; 丄 leaves a word
    before it whole only in exact arithmetic *)
Example C97_nonvacuous (lg : Z -> b64) :
  fs_cut (numB lg) (ship lg) [] [c_hang; c_yan] = gof [[c_hang; c_yan]] /\
  (forall v, Forall (fun x => han_char x = true) v -> (Z.of_nat (length v) <= 2 ^ 48)%Z ->
     fs_cut (numB lg) (ship lg) [] ([c_shang] ++ v) = gof (map (fun x => [x]) (c_shang :: v))) /\
  fs_cut numQ shipQ [] [c_hang; c_yan; c_shang; c_hang; c_yan] = gof [[c_hang; c_yan; c_shang]; [c_hang; c_yan]].
Proof.
  split; [vm_compute; reflexivity|]. split; [|vm_compute; reflexivity].
  intros v HV L.
  assert (UN : unknown (ship lg) c_shang) by (intros y; reflexivity).
  assert (HS : Forall (fun x => han_char x = true) ([] ++ [c_shang])) by (repeat constructor).
  destruct (C97_rest_in_single_characters lg (ship lg) [] [] c_shang (ship_plain lg) HS (Forall_nil _) UN)
    as (ws & C & NE & _ & ALL).
  assert (ws = []) as ->.
  { destruct ws as [|w ws]; auto. cbn in C. apply app_eq_nil in C. destruct C as [-> _]. inversion NE; congruence. }
  apply ALL; auto.
  - apply Forall_forall. intros x _. apply ship_known.
  - cbn [app length]. lia.
Qed.

(** 杭研丄杭研 with a dictionary that has only 杭: single characters, though the
    tables would find 杭研 twice *)
Example C97_cut_nonvacuous (lg : Z -> b64) :
  let s := [c_hang; c_yan; c_shang; c_hang; c_yan] in
  cut (numB lg) (ship lg) (mode_of false true) [([c_hang], 3%Z)] 3 [] s = gof (map (fun x => [x]) s).
Proof.
  intros s.
  assert (UN : unknown (ship lg) c_shang) by (intros y; reflexivity).
  assert (KU : forall l, Forall (fun x => known (ship lg) x \/ unknown (ship lg) x) l)
    by (intros l; apply Forall_forall; intros x _; apply ship_known).
  assert (HS : Forall (fun x => han_char x = true) ([c_hang; c_yan] ++ [c_shang])) by (repeat constructor).
  destruct (C97_cut lg (ship lg) [] [c_hang; c_yan] c_shang (ship_plain lg) HS (KU _) UN)
    as (ws & C & NE & LA & ALL).
  assert (ws = [[c_hang]; [c_yan]]) as ->.
  { destruct (LA [c_hang] c_yan eq_refl) as [ws' ->]. rewrite concat_app in C. cbn in C.
    apply (app_inj_tail (concat ws') [c_hang]) in C. destruct C as [C _]. apply Forall_app in NE. destruct NE as [NE _].
    destruct ws' as [|w ws']; [discriminate|]. inversion NE as [|? ? NW NE']; subst. cbn in C.
    destruct w as [|x w]; [congruence|]. cbn in C. injection C as -> C. apply app_eq_nil in C. destruct C as [-> C].
    destruct ws' as [|w ws']; [reflexivity|]. inversion NE'; subst. cbn in C. apply app_eq_nil in C. tauto. }
  apply (ALL [c_hang; c_yan]).
  - repeat constructor.
  - apply KU.
  - cbn. lia.
  - apply saneb_ok. reflexivity.
  - apply prefix_closedb_ok. reflexivity.
  - intros a w b _ [n [E _]]. unfold sget in E. cbn [dget] in E. destruct (str_eqb w [c_hang]) eqn:EQ.
    + apply str_eqb_eq in EQ. subst. reflexivity.
    + congruence.
Qed.

(** In exact arithmetic, with the same tables, the claim is false: 丄杭研 is cut
    into 丄 and 杭研. *)
Theorem C97_exact_refuted :
  ~ (forall (H : hmm numQ) (c : char) (v : str),
       (forall a y, follows a y -> h_trans H a y <> None) ->
       Forall (fun x => han_char x = true) (c :: v) ->
       unknown H c -> Forall (fun x => known H x) v ->
       fs_cut numQ H [] (c :: v) = gof (map (fun x => [x]) (c :: v))).
Proof.
  intros C. specialize (C shipQ c_shang [c_hang; c_yan]).
  assert (E : fs_cut numQ shipQ [] [c_shang; c_hang; c_yan] = gof (map (fun x => [x]) [c_shang; c_hang; c_yan])).
  { apply C.
    - intros [] [] FO; try destruct FO; discriminate.
    - repeat constructor.
    - intros y. reflexivity.
    - repeat constructor; discriminate. }
  vm_compute in E. discriminate.
Qed.

Print Assumptions C97_rest_in_single_characters.
Print Assumptions C97_cut.
Print Assumptions C97_exact_refuted.
