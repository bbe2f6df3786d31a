(** * The route of the rest of a text is the rest of the route *)
From Coq Require Import Lia.
From Verif Require Import PyBase PyRegex PyNum ModelFinalseg ModelSeg
  SpecBase SpecSeg SpecScore ProofsBase ProofsRegex ProofsSplit ProofsDag ProofsSeg ProofsOpt ProofsNoHmm.
Set Implicit Arguments.

Lemma slice_shift {A} (p t : list A) a b : slice (p ++ t) (length p + a) (length p + b) = slice t a b.
Proof.
  unfold slice. rewrite skipn_app, skipn_all2 by lia. cbn [app].
  replace (length p + b - (length p + a)) with (b - a) by lia.
  replace (length p + a - length p) with a by lia. reflexivity.
Qed.

Lemma seq_shift_k k a n : seq (k + a) n = map (Nat.add k) (seq a n).
Proof.
  revert a. induction n as [|n IH]; intros a; [reflexivity|]. cbn [seq map]. f_equal.
  replace (S (k + a)) with (k + S a) by lia. apply IH.
Qed.

Lemma take_while_map (f g : nat -> bool) k l :
  (forall j, f (k + j) = g j) -> take_while_nat f (map (Nat.add k) l) = map (Nat.add k) (take_while_nat g l).
Proof. intros E. induction l as [|x l IH]; [reflexivity|]. cbn. rewrite E. destruct (g x); [cbn; f_equal; auto|reflexivity]. Qed.

Lemma filter_shift (f g : nat -> bool) k l :
  (forall j, f (k + j) = g j) -> filter f (map (Nat.add k) l) = map (Nat.add k) (filter g l).
Proof. intros E. induction l as [|x l IH]; [reflexivity|]. cbn [filter map]. rewrite E. destruct (g x); cbn [map]; [f_equal|]; auto. Qed.

Lemma dag_at_shift fr (p t : str) i : i <= length t ->
  dag_at fr (p ++ t) (length p + i) = map (Nat.add (length p)) (dag_at fr t i).
Proof.
  intros L. unfold dag_at. rewrite !dag_scan_spec by (rewrite ?app_length; lia). cbn [app].
  replace (length (p ++ t) - (length p + i)) with (length t - i) by (rewrite app_length; lia).
  rewrite seq_shift_k.
  assert (SL : forall j, slice (p ++ t) (length p + i) (length p + j + 1) = slice t i (j + 1)).
  { intros j. rewrite <- Nat.add_assoc. apply slice_shift. }
  rewrite (@take_while_map _ (fun j => smem fr (slice t i (j + 1)))) by (intros j; rewrite SL; reflexivity).
  rewrite (@filter_shift _ (fun j => freq_true fr (slice t i (j + 1)))) by (intros j; rewrite SL; reflexivity).
  destruct (filter _ _) as [|x l]; reflexivity.
Qed.

Section Rest.
  Variable num : Num.
  Notation F := (F num).
  Variables (fr : freqs) (lt : F) (p t : str).
  Notation k := (length p).

  Definition sh (c : F * nat) : F * nat := (fst c, k + snd c).
  Definition rmap {A B} (f : A -> B) (r : res A) : res B := match r with Ok a => Ok (f a) | Err e => Err e end.

  Lemma calc_cands_shift z idx rt xs :
    (forall x, In x xs -> idx < x + 1) ->
    calc_cands num fr lt (p ++ t) (k + idx) (map sh rt ++ [z]) (map (Nat.add k) xs) =
    rmap (map sh) (calc_cands num fr lt t idx (rt ++ [z]) xs).
  Proof.
    induction xs as [|x xs IH]; intros LX; [reflexivity|]. cbn [map calc_cands].
    replace (k + x + 1) with (k + (x + 1)) by lia. rewrite slice_shift.
    replace (k + x - (k + idx)) with (x - idx) by lia.
    destruct (py_log num _) as [lw|e]; cbn [rbind rmap]; [|reflexivity].
    rewrite IH by (intros y Y; apply LX; right; auto).
    assert (E : nth_error (map sh rt ++ [z]) (x - idx) =
                match nth_error (rt ++ [z]) (x - idx) with
                | Some r => Some (if (x - idx <? length rt)%nat then sh r else r) | None => None end).
    { destruct (x - idx <? length rt) eqn:EL.
      - apply Nat.ltb_lt in EL. rewrite !nth_error_app1 by (rewrite ?map_length; lia). rewrite nth_error_map.
        destruct (nth_error rt (x - idx)); reflexivity.
      - apply Nat.ltb_ge in EL. rewrite !nth_error_app2 by (rewrite ?map_length; lia). rewrite map_length.
        destruct (nth_error [z] (x - idx - length rt)); reflexivity. }
    rewrite E. destruct (nth_error (rt ++ [z]) (x - idx)) as [r|]; [|reflexivity].
    destruct (calc_cands num fr lt t idx (rt ++ [z]) xs) as [cs|e]; cbn [rbind rmap map]; [|reflexivity].
    unfold sh at 2. cbn [fst snd]. destruct (x - idx <? length rt); reflexivity.
  Qed.

  Lemma route_gt_shift a b : route_gt num (sh a) (sh b) = route_gt num a b.
  Proof.
    unfold route_gt, tup_gt, sh. cbn [fst snd]. destruct (f_eq num (fst a) (fst b)); [|reflexivity].
    destruct (snd b <? snd a) eqn:E; [apply Nat.ltb_lt in E; apply Nat.ltb_lt; lia|].
    apply Nat.ltb_ge in E; apply Nat.ltb_ge; lia.
  Qed.

  Lemma py_max_shift cs : py_max (route_gt num) (map sh cs) = rmap sh (py_max (route_gt num) cs).
  Proof.
    destruct cs as [|c cs]; [reflexivity|]. cbn [map py_max rmap]. f_equal. revert c.
    induction cs as [|d cs IH]; intros c; [reflexivity|]. unfold max_from in *. cbn [map fold_left]. rewrite route_gt_shift.
    destruct (route_gt num d c); apply IH.
  Qed.

  (** going down to the beginning of the rest *)
  Lemma calc_loop_shift z : forall n rt, n <= length t ->
    calc_loop num fr lt (p ++ t) (get_DAG fr (p ++ t)) (k + n) (map sh rt ++ [z]) =
    rbind (calc_loop num fr lt t (get_DAG fr t) n (rt ++ [z]))
      (fun r => match rev r with [] => Err KeyError
                | _ :: l => calc_loop num fr lt (p ++ t) (get_DAG fr (p ++ t)) k (map sh (rev l) ++ [z]) end).
  Proof.
    induction n as [|n IH]; intros rt L.
    - rewrite Nat.add_0_r. cbn [calc_loop rbind]. rewrite rev_app_distr. cbn [rev app]. rewrite rev_involutive. reflexivity.
    - replace (k + S n) with (S (k + n)) by lia. cbn [calc_loop].
      rewrite !get_DAG_nth by (rewrite ?app_length; lia). rewrite dag_at_shift by lia.
      rewrite calc_cands_shift.
      2:{ intros x X. unfold dag_at in X. rewrite dag_scan_spec in X by lia. cbn [app] in X.
          match type of X with In _ (match ?l with [] => _ | _ => _ end) => destruct l eqn:EF end.
          - destruct X as [<- | []]. lia.
          - rewrite <- EF in X. apply filter_In in X. destruct X as [X _].
            assert (TW : forall f l y, In y (take_while_nat f l) -> In y l).
            { clear. intros f l. induction l as [|a l IH]; intros y Y; cbn in Y; [contradiction|].
              destruct (f a); [|contradiction]. destruct Y as [-> | Y]; [left; auto|right; auto]. }
            apply TW in X. apply in_seq in X. lia. }
      destruct (calc_cands num fr lt t n (rt ++ [z]) (dag_at fr t n)) as [cs|e]; cbn [rmap rbind]; [|reflexivity].
      rewrite py_max_shift. destruct (py_max (route_gt num) cs) as [r|e]; cbn [rmap rbind]; [|reflexivity].
      change (sh r :: map sh rt ++ [z]) with (map sh (r :: rt) ++ [z]).
      change (r :: rt ++ [z]) with ((r :: rt) ++ [z]). apply IH. lia.
  Qed.

  (** going on keeps what is there *)
  Lemma calc_loop_keeps s n : forall r r', calc_loop num fr lt s (get_DAG fr s) n r = Ok r' -> exists q, r' = q ++ r /\ length q = n.
  Proof.
    induction n as [|n IH]; intros r r' E; cbn [calc_loop] in E; [injection E as <-; exists []; auto|].
    destruct (nth_error (get_DAG fr s) n) as [xs|]; [|discriminate].
    destruct (calc_cands num fr lt s n r xs) as [cs|]; [|discriminate]. cbn [rbind] in E.
    destruct (py_max (route_gt num) cs) as [c|]; [|discriminate]. cbn [rbind] in E.
    destruct (IH _ _ E) as (q & -> & LQ). exists (q ++ [c]). rewrite <- app_assoc, app_length. cbn. split; auto. lia.
  Qed.
End Rest.

Lemma calc_rest num fr total (p t : str) route :
  calc num fr total (p ++ t) (get_DAG fr (p ++ t)) = Ok route ->
  exists q rt z, route = q ++ map (sh num p) rt ++ [z] /\ length q = length p /\ length rt = length t /\
    calc num fr total t (get_DAG fr t) = Ok (rt ++ [z]).
Proof.
  unfold calc. destruct (py_log num total) as [lt|]; [|discriminate]. cbn [rbind]. rewrite app_length.
  change [(f_zero num, 0)] with (map (sh num p) [] ++ [(f_zero num, 0)]) at 1. rewrite calc_loop_shift by lia.
  cbn [app].
  destruct (calc_loop num fr lt t (get_DAG fr t) (length t) [(f_zero num, 0)]) as [r|] eqn:E; [|discriminate].
  cbn [rbind]. destruct (@calc_loop_keeps num fr lt t _ _ _ E) as (rt & -> & LR). rewrite rev_app_distr. cbn [rev app].
  rewrite rev_involutive. intros E2. destruct (@calc_loop_keeps num fr lt _ _ _ _ E2) as (q & -> & LQ).
  exists q, rt, (f_zero num, 0). auto.
Qed.

Lemma route_words_rest num (p t : str) q rt z : length q = length p -> length rt = length t ->
  forall f x, x <= length t ->
  route_words f (p ++ t) (q ++ map (sh num p) rt ++ [z]) (length p + x) = route_words f t (rt ++ [z]) x.
Proof.
  intros LQ LR. induction f as [|f IH]; intros x LX; [reflexivity|]. cbn [route_words].
  rewrite app_length. destruct (x <? length t) eqn:EL.
  2:{ apply Nat.ltb_ge in EL. replace (length p + x <? length p + length t) with false by (symmetry; apply Nat.ltb_ge; lia). reflexivity. }
  apply Nat.ltb_lt in EL. replace (length p + x <? length p + length t) with true by (symmetry; apply Nat.ltb_lt; lia).
  rewrite nth_error_app2 by lia. replace (length p + x - length q) with x by lia.
  rewrite !nth_error_app1 by (rewrite ?map_length; lia). rewrite nth_error_map.
  destruct (nth_error rt x) as [r|]; [|reflexivity]. cbn [option_map sh snd fst].
  replace (length p + snd r + 1) with (length p + (snd r + 1)) by lia. rewrite slice_shift. f_equal.
  destruct (Nat.le_gt_cases (snd r + 1) (length t)) as [L|L]; [apply IH; auto|].
  destruct f as [|f]; [reflexivity|]. cbn [route_words]. rewrite app_length.
  replace (length p + (snd r + 1) <? length p + length t) with false by (symmetry; apply Nat.ltb_ge; lia).
  replace (snd r + 1 <? length t) with false by (symmetry; apply Nat.ltb_ge; lia). reflexivity.
Qed.

Lemma chosen_rest num fr total r a b :
  sane (sget fr) total -> chosen num fr total r = a ++ b -> concat (chosen num fr total r) = r ->
  chosen num fr total (concat b) = b.
Proof.
  intros [T P] E C. destruct b as [|w b].
  { cbn [concat]. unfold chosen. destruct (calc num fr total [] (get_DAG fr [])); reflexivity. }
  rewrite E, concat_app in C.
  destruct (calc_total num fr total r T P) as [route ER].
  unfold chosen in E. rewrite ER in E.
  destruct (@route_words_split num fr total r route ER (S (length r)) 0 a w b ltac:(lia) ltac:(lia) E) as (L & r0 & _ & EW & _).
  cbn [Nat.add] in L, EW. set (B := concat (w :: b)) in *. clearbody B.
  rewrite <- C in ER. destruct (@calc_rest num fr total (concat a) B route ER) as (q & rt & z & -> & LQ & LR & EB).
  unfold chosen. rewrite EB. rewrite EW, <- C.
  replace (length (concat a)) with (length (concat a) + 0) by lia.
  rewrite (@route_words_rest num (concat a) B q rt z LQ LR) by lia.
  pose proof (calc_ok _ _ _ _ _ EB) as RO.
  apply (@route_words_skip num fr total B (rt ++ [z]) EB); rewrite ?app_length; lia.
Qed.

(** ** Merging letters *)
Lemma merged_rest ws out : merged ws out -> forall us vs, out = us ++ vs ->
  exists ws1 ws2, ws = ws1 ++ ws2 /\ merged ws1 us /\ merged ws2 vs.
Proof.
  induction 1 as [|w ws out S0 M IH|g ws out NG FG HD M IH]; intros us vs E.
  - symmetry in E. apply app_eq_nil in E. destruct E as [-> ->]. exists [], []. repeat split; constructor.
  - destruct us as [|u us]; [exists [], (w :: ws); cbn in E; subst vs; repeat split; constructor; auto|].
    injection E as <- E. destruct (IH _ _ E) as (w1 & w2 & -> & M1 & M2). exists (w :: w1), w2. repeat split; auto. constructor; auto.
  - destruct us as [|u us]; [exists [], (g ++ ws); cbn in E; subst vs; repeat split; [constructor|apply merged_group; auto]|].
    injection E as <- E. destruct (IH _ _ E) as (w1 & w2 & -> & M1 & M2). exists (g ++ w1), w2.
    rewrite app_assoc. repeat split; auto. apply merged_group; auto. destruct w1; auto.
Qed.

Lemma merged_eng ws out : merged ws out -> merge_eng [] ws = out.
Proof.
  induction 1 as [|w ws out S0 M IH|g ws out NG FG HD M IH]; [reflexivity| |].
  - cbn [merge_eng]. rewrite eng1_single, S0. cbn. f_equal. auto.
  - rewrite merge_eng_nil_app by auto. cbn [app]. rewrite merge_eng_flush by auto.
    rewrite flush_ne by (apply concat_singles_ne; auto). cbn. f_equal. auto.
Qed.

(** ** Runs of a rest and of a beginning *)
Lemma runs_tail p s b r L : runs p s = (b, r) :: L ->
  runs p (concat (map snd L)) = L /\ starts_with p (negb b) (concat (map snd L)).
Proof.
  revert b r L. induction s as [|c s IH]; intros b r L; cbn [runs]; [discriminate|].
  destruct (runs p s) as [|[b' r'] rest] eqn:ER.
  - intros E. injection E as <- <- <-. cbn. auto.
  - destruct (Bool.eqb b' (p c)) eqn:EB; intros E; injection E as <- <- <-.
    + apply (IH b' r'). reflexivity.
    + rewrite <- ER, runs_concat. split; auto.
      pose proof (runs_head p s) as RH. rewrite ER in RH. destruct RH as (d & r0 & s' & _ & -> & <-). cbn.
      destruct (p d), (p c); cbn in *; congruence.
Qed.

Lemma runs_mid p : forall L1 s b r L2, runs p s = L1 ++ (b, r) :: L2 ->
  runs p (concat (map snd L2)) = L2 /\ starts_with p (negb b) (concat (map snd L2)).
Proof.
  induction L1 as [|[b1 r1] L1 IH]; intros s b r L2 E; cbn [app] in E.
  - eapply runs_tail; eauto.
  - destruct (runs_tail _ _ E) as [E2 _]. eapply IH; eauto.
Qed.

Lemma runs_begin p : forall L1 s b r L2 u v, runs p s = L1 ++ (b, r) :: L2 -> r = u ++ v -> u <> [] ->
  runs p (concat (map snd L1) ++ u) = L1 ++ [(b, u)].
Proof.
  induction L1 as [|[b1 r1] L1 IH]; intros s b r L2 u v E EU NU; cbn [app] in E.
  - cbn. pose proof (runs_class p s) as RC. rewrite E in RC. inversion RC as [|? ? [_ FA] _]; subst.
    cbn [fst snd] in FA. apply Forall_app in FA. destruct FA as [FA _].
    rewrite <- (app_nil_r u). rewrite (@runs_app_run p b u []); auto; [rewrite app_nil_r; reflexivity|exact I].
  - destruct (runs_tail _ _ E) as [E2 SW]. cbn [map concat snd]. rewrite <- app_assoc.
    pose proof (runs_class p s) as RC. rewrite E in RC. inversion RC as [|? ? [N1 FA] RC']; subst. cbn [fst snd] in *.
    rewrite (@runs_app_run p b1 r1); auto.
    + cbn [app]. f_equal. eapply IH; eauto.
    + rewrite map_app, concat_app in SW. cbn [map concat snd] in SW.
      destruct (concat (map snd L1)) as [|c l]; cbn [app] in *; [|exact SW].
      destruct u as [|c u]; [congruence|]. exact SW.
Qed.

(** ** Lifting from runs to texts *)
Section Lift.
  Context {A : Type}.
  Variables (txt : A -> str) (p : char -> bool) (f : bool * str -> list A).
  Definition whole (xs : list A) : str := concat (map txt xs).
  Hypothesis FC : forall br, whole (f br) = snd br.
  Hypothesis FN : forall br, Forall (fun x => txt x <> []) (f br).

  Lemma flat_map_split (L : list (bool * str)) : forall us v vs, flat_map f L = us ++ v :: vs ->
    exists L1 br L2 u2 v1, L = L1 ++ br :: L2 /\ us = flat_map f L1 ++ u2 /\ f br = u2 ++ v :: v1 /\ vs = v1 ++ flat_map f L2.
  Proof.
    induction L as [|br L IH]; intros us v vs E; cbn [flat_map] in E; [destruct us; discriminate|].
    remember (f br) as w eqn:EW. 
    assert (K : (exists v1, w = us ++ v :: v1 /\ vs = v1 ++ flat_map f L) \/
                (exists us', us = w ++ us' /\ flat_map f L = us' ++ v :: vs)).
    { clear IH EW. revert us E. induction w as [|x w IHw]; intros us E.
      - right. exists us. auto.
      - destruct us as [|u us]; cbn [app] in E; injection E as -> E.
        + left. exists w. auto.
        + destruct (IHw _ E) as [(v1 & -> & K) | (us' & -> & K)]; [left; exists v1|right; exists us']; auto. }
    destruct K as [(v1 & -> & ->) | (us' & -> & K)].
    - exists [], br, L, us, v1. auto.
    - destruct (IH _ _ _ K) as (L1 & br' & L2 & u2 & v1 & -> & -> & E1 & ->).
      exists (br :: L1), br', L2, u2, v1. subst w. cbn [app flat_map]. rewrite app_assoc. auto.
  Qed.

  Lemma whole_flat_map L : whole (flat_map f L) = concat (map snd L).
  Proof. induction L as [|br L IH]; [reflexivity|]. cbn [flat_map map concat]. unfold whole in *. rewrite map_app, concat_app, FC, IH. reflexivity. Qed.

  Hypothesis FR : forall b r u v vs, Forall (fun c => p c = b) r -> f (b, r) = u ++ v :: vs ->
                    f (b, whole (v :: vs)) = v :: vs.

  Lemma text_rest s us vs : flat_map f (runs p s) = us ++ vs -> flat_map f (runs p (whole vs)) = vs.
  Proof.
    destruct vs as [|v vs]; [reflexivity|]. intros E.
    destruct (@flat_map_split _ _ _ _ E) as (L1 & [b r] & L2 & u2 & v1 & EL & -> & EB & ->).
    destruct (@runs_mid p L1 s b r L2 EL) as [R2 SW].
    pose proof (runs_class p s) as RC. rewrite EL in RC. apply Forall_app in RC. destruct RC as [_ RC].
    inversion RC as [|? ? [_ FA] _]; subst. cbn [fst snd] in FA.
    pose proof (@FR _ _ _ _ _ FA EB) as E2.
    assert (SP : whole (u2 ++ v :: v1) = r) by (rewrite <- EB; apply (FC (b, r))).
    change (v :: v1 ++ flat_map f L2) with ((v :: v1) ++ flat_map f L2).
    assert (WA : forall x y, whole (x ++ y) = whole x ++ whole y) by (intros; unfold whole; rewrite map_app, concat_app; reflexivity).
    rewrite WA, whole_flat_map. rewrite (@runs_app_run p b).
    - cbn [flat_map]. rewrite R2. exact (f_equal (fun z => z ++ flat_map f L2) E2).
    - pose proof (FN (b, r)) as N. rewrite EB in N. apply Forall_app in N. destruct N as [_ N]. inversion N as [|? ? NV _]; subst.
      unfold whole. cbn [map concat]. destruct (txt v); [congruence|discriminate].
    - rewrite <- SP, WA in FA. apply Forall_app in FA. apply FA.
    - exact SW.
  Qed.

  Variable good : str -> Prop.
  Hypothesis good_sub : forall s L1 b r L2, good s -> runs p s = L1 ++ (b, r) :: L2 -> good r.
  Hypothesis FB : forall b r u v vs, good r -> Forall (fun c => p c = b) r -> f (b, r) = u ++ v :: vs -> f (b, whole (u ++ [v])) = u ++ [v].

  Lemma text_begin s us vs : good s -> flat_map f (runs p s) = us ++ vs -> flat_map f (runs p (whole us)) = us.
  Proof.
    intros G E. destruct (rev us) as [|v ru] eqn:RU.
    { apply (f_equal (@rev _)) in RU. rewrite rev_involutive in RU. subst us. reflexivity. }
    apply (f_equal (@rev _)) in RU. rewrite rev_involutive in RU. cbn [rev] in RU. subst us.
    set (u0 := rev ru) in *. clearbody u0. rewrite <- app_assoc in E. cbn [app] in E.
    destruct (@flat_map_split _ _ _ _ E) as (L1 & [b r] & L2 & u2 & v1 & EL & -> & EB & ->).
    pose proof (runs_class p s) as RC. rewrite EL in RC. apply Forall_app in RC. destruct RC as [_ RC].
    inversion RC as [|? ? [_ FA] _]; subst. cbn [fst snd] in FA.
    pose proof (@FB b r u2 v v1 (@good_sub _ _ _ _ _ G EL) FA EB) as E2.
    assert (WA : forall x y, whole (x ++ y) = whole x ++ whole y) by (intros; unfold whole; rewrite map_app, concat_app; reflexivity).
    rewrite <- app_assoc, WA, whole_flat_map.
    rewrite (@runs_begin p L1 s b r L2 (whole (u2 ++ [v])) (whole v1) EL).
    - rewrite flat_map_app. cbn [flat_map]. rewrite app_nil_r. exact (f_equal (fun z => flat_map f L1 ++ z) E2).
    - rewrite <- WA, <- app_assoc. cbn [app]. rewrite <- EB. symmetry. apply (FC (b, r)).
    - pose proof (FN (b, r)) as N. rewrite EB in N. apply Forall_app in N. destruct N as [_ N]. inversion N as [|? ? NV _]; subst.
      rewrite WA. unfold whole at 2. cbn [map concat]. destruct (txt v); [congruence|]. intros K. apply app_eq_nil in K. destruct K. discriminate.
  Qed.
End Lift.

Lemma chars_crlf_rest s : forall us vs, chars_crlf s = us ++ vs -> chars_crlf (concat vs) = vs.
Proof.
  remember (length s) as n eqn:EN. assert (LE : length s <= n) by lia. clear EN. revert s LE.
  induction n as [|n IH]; intros s LE us vs E.
  { destruct s; [|cbn in LE; lia]. cbn in E. symmetry in E. apply app_eq_nil in E. destruct E as [_ ->]. reflexivity. }
  destruct us as [|u us].
  { cbn [app] in E. subst vs. destruct (chars_crlf_spec s) as [C _]. rewrite C. reflexivity. }
  destruct s as [|c [|d s]]; [discriminate| |].
  - cbn in E. injection E as _ E. symmetry in E. apply app_eq_nil in E. destruct E as [_ ->]. reflexivity.
  - cbn in LE. change (chars_crlf (c :: d :: s)) with (if ((c =? 13) && (d =? 10))%N then [c; d] :: chars_crlf s else [c] :: chars_crlf (d :: s)) in E.
    destruct ((c =? 13) && (d =? 10))%N; injection E as _ E.
    + apply (IH s ltac:(lia) us). exact E.
    + apply (IH (d :: s) ltac:(cbn; lia) us). exact E.
Qed.

Lemma chars_crlf_begin s : forall us vs, chars_crlf s = us ++ vs -> chars_crlf (concat us) = us.
Proof.
  remember (length s) as n eqn:EN. assert (LE : length s <= n) by lia. clear EN. revert s LE.
  induction n as [|n IH]; intros s LE us vs E.
  { destruct s; [|cbn in LE; lia]. cbn in E. symmetry in E. apply app_eq_nil in E. destruct E as [-> _]. reflexivity. }
  destruct us as [|u us]; [reflexivity|].
  destruct s as [|c [|d s]]; [discriminate| |].
  - cbn in E. injection E as <- E. symmetry in E. apply app_eq_nil in E. destruct E as [-> _]. reflexivity.
  - cbn in LE. change (chars_crlf (c :: d :: s)) with (if ((c =? 13) && (d =? 10))%N then [c; d] :: chars_crlf s else [c] :: chars_crlf (d :: s)) in E.
    destruct ((c =? 13) && (d =? 10))%N eqn:ECD; injection E as <- E.
    + pose proof (IH s ltac:(lia) us vs E) as K. cbn [concat app].
      change (chars_crlf (c :: d :: concat us)) with (if ((c =? 13) && (d =? 10))%N then [c; d] :: chars_crlf (concat us) else [c] :: chars_crlf (d :: concat us)).
      rewrite ECD, K. reflexivity.
    + pose proof (IH (d :: s) ltac:(cbn; lia) us vs E) as K. cbn [concat app].
      destruct us as [|u us]; [reflexivity|].
      assert (HD : exists u', concat (u :: us) = d :: u').
      { assert (E' : chars_crlf (d :: s) = (u :: us) ++ vs) by exact E.
        destruct (chars_crlf_spec (d :: s)) as [C N]. rewrite E' in C, N. cbn [app concat] in C, N |- *.
        inversion N as [|? ? NU _]; subst. destruct u as [|x u]; [congruence|]. cbn in C. injection C as -> _. eexists; reflexivity. }
      destruct HD as [u' HD]. rewrite HD in *.
      change (chars_crlf (c :: d :: u')) with (if ((c =? 13) && (d =? 10))%N then [c; d] :: chars_crlf u' else [c] :: chars_crlf (d :: u')).
      rewrite ECD, K. reflexivity.
Qed.
