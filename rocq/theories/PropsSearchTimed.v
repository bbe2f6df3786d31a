(** * C127: cut_for_search and tokenize consumed while the dictionary changes *)
From Coq Require Import Lia.
From Verif Require Import PyBase PyRegex PyNum InstQ ModelFinalseg ModelSeg ModelTimed ModelSearchTimed SpecBase SpecSeg Demo
  ProofsBase ProofsRegex ProofsSplit ProofsDag ProofsFinalseg ProofsSeg ProofsSearch ProofsDemo PropsTimed.

(** ** What is given out for the words [ws] *)

(** the parts of [n] characters of a longer word, and where they begin *)
Definition parts (n : nat) (w : str) : list (str * nat) :=
  if n <? length w then map (fun i => (sub w i n, i)) (seq 0 (length w - n + 1)) else [].

(** of the parts in [cs] those are given out, beginning with moment [k], that are words of
    the dictionary when it is their turn *)
Inductive given {B} (D : nat -> moment) (mk : str -> nat -> B) : nat -> list (str * nat) -> list B -> Prop :=
| given_end k : given D mk k [] []
| given_yes k g i cs out : is_word (sget (mo_freq (D k))) g -> given D mk (S k) cs out ->
    given D mk k ((g, i) :: cs) (mk g i :: out)
| given_no k g i cs out : ~ is_word (sget (mo_freq (D k))) g -> given D mk k cs out ->
    given D mk k ((g, i) :: cs) out.

(** [handled D two three whole k a ws out ts]: from moment [k] and place [a] on, [out] is given
    out for [ws], the pairs, the triples and the word itself; [ts] are the moments at which the
    words were asked for *)
Inductive handled {B} (D : nat -> moment) (two three : nat -> str -> nat -> B) (whole : nat -> str -> B)
  : nat -> nat -> list str -> list B -> list nat -> Prop :=
| handled_end k a : handled D two three whole k a [] [] []
| handled_word k a w ws g2 g3 out ts :
    given D (two a) k (parts 2 w) g2 -> given D (three a) (k + length g2) (parts 3 w) g3 ->
    handled D two three whole (S (k + length g2 + length g3)) (a + length w) ws out ts ->
    handled D two three whole k a (w :: ws) (g2 ++ g3 ++ whole a w :: out) (k :: ts).

(** ** What a generator has given out depends on the moments until then *)
Definition agree {A} (k : nat) (g g' : gen A) : Prop :=
  firstn k (fst g) = firstn k (fst g') /\ (length (fst g) < k -> g = g').
Definition causal {A} (F : (nat -> moment) -> tgen A) : Prop :=
  forall D D' n k, (forall i, n <= i < n + k -> D i = D' i) -> agree k (F D n) (F D' n).

Lemma agree_refl {A} k (g : gen A) : agree k g g.
Proof. split; auto. Qed.

Lemma causal_pure {A} (g : tgen A) : causal (fun _ => g).
Proof. intros D D' n k _. apply agree_refl. Qed.

Lemma causal_read {A} (G : moment -> (nat -> moment) -> tgen A) :
  (forall m, causal (G m)) -> causal (fun D n => G (D n) D n).
Proof.
  intros C D D' n [|k] E; [split; [reflexivity|lia]|]. rewrite (E n) by lia. apply C. exact E.
Qed.

Lemma causal_app {A} (F G : (nat -> moment) -> tgen A) : causal F -> causal G -> causal (fun D => tapp (F D) (G D)).
Proof.
  intros CF CG D D' n k E. destruct (CF D D' n k E) as [P Q]. unfold tapp.
  destruct (Nat.lt_ge_cases (length (fst (F D n))) k) as [L|L].
  - rewrite <- (Q L). destruct (snd (F D n)); [apply agree_refl|].
    destruct (CG D D' (n + length (fst (F D n))) (k - length (fst (F D n)))) as [P' Q'].
    { intros i I. apply E. lia. }
    split; cbn [fst snd].
    + rewrite !firstn_app, P'. reflexivity.
    + rewrite app_length. intros L'. rewrite Q' by lia. reflexivity.
  - assert (L' : k <= length (fst (F D' n))).
    { apply (f_equal (@length A)) in P. rewrite !firstn_length in P. lia. }
    assert (X : forall (o : option exn) (a b : gen A), k <= length (fst a) ->
              firstn k (fst (match o with None => (fst a ++ fst b, snd b) | Some _ => a end)) = firstn k (fst a) /\
              k <= length (fst (match o with None => (fst a ++ fst b, snd b) | Some _ => a end))).
    { intros [e|] a b K; [auto|]. cbn [fst]. rewrite firstn_app, app_length.
      replace (k - length (fst a)) with 0 by lia. cbn. rewrite app_nil_r. split; [auto|lia]. }
    destruct (X (snd (F D n)) _ (G D (n + length (fst (F D n)))) L) as [X1 X2].
    destruct (X (snd (F D' n)) _ (G D' (n + length (fst (F D' n)))) L') as [X3 _].
    split; [etransitivity; [exact X1|]; etransitivity; [exact P|symmetry; exact X3]|].
    intros K. exact (False_ind _ (Nat.lt_irrefl _ (Nat.lt_le_trans _ _ _ K X2))).
Qed.

Lemma causal_cons {A} (x : A) F : causal F -> causal (fun D => tcons x (F D)).
Proof.
  intros C D D' n [|k] E; [split; [reflexivity|lia]|]. unfold tcons.
  destruct (C D D' (S n) k) as [P Q]; [intros i I; apply E; lia|].
  split; cbn; [now rewrite P|]. intros L. rewrite Q by lia. reflexivity.
Qed.

Lemma causal_for {A B} (l : list A) (f : (nat -> moment) -> A -> tgen B) :
  (forall x, causal (fun D => f D x)) -> causal (fun D => tfor l (f D)).
Proof.
  intros C. induction l as [|x l IH]; cbn [tfor]; [apply causal_pure|]. apply (causal_app (fun D => f D x)); auto.
Qed.

Section Causal.
  Variable num : Num.
  Variable H : hmm num.

  Lemma causal_fs_cut buf : causal (fun D => t_fs_cut num H D buf).
  Proof.
    apply causal_for. intros blk. unfold t_fs_block. destruct (re_matches _ _); [|apply causal_pure].
    apply (causal_app (fun D => tfor (fst (fs_cut_han H blk)) (t_word D))); [|apply causal_pure].
    apply causal_for. intros w. unfold t_word.
    apply (causal_read (fun m _ _ => if negb (str_in w (mo_force m)) then gone w else gof (map (fun c => [c]) w))).
    intros m. apply causal_pure.
  Qed.

  Lemma causal_cut_buf buf : causal (fun D => t_cut_buf num H D buf).
  Proof.
    unfold t_cut_buf. destruct (length buf =? 1); [apply (causal_pure (fun _ => gone buf))|].
    apply (causal_read (fun m D n => if negb (freq_true (mo_freq m) buf) then t_fs_cut num H D buf n else gof (map (fun c => [c]) buf))).
    intros m. destruct (negb _); [apply causal_fs_cut|apply (causal_pure (fun _ => gof (map (fun c => [c]) buf)))].
  Qed.

  Lemma causal_hmm_loop fuel s (route : list (F num * nat)) x buf : causal (fun D => t_hmm_loop num H D fuel s route x buf).
  Proof.
    revert x buf. induction fuel as [|fuel IH]; intros x buf; cbn [t_hmm_loop]; [apply causal_pure|].
    assert (FL : causal (fun D => match buf with [] => tpure gnil | _ => t_cut_buf num H D buf end)).
    { destruct buf; [apply causal_pure|apply causal_cut_buf]. }
    destruct (x <? length s); [|exact FL]. destruct (nth_error route x) as [r|]; [|apply causal_pure].
    cbv zeta. destruct (_ =? 1); [apply IH|].
    apply (causal_app (fun D => match buf with [] => tpure gnil | _ => t_cut_buf num H D buf end)); [exact FL|].
    apply causal_cons. apply IH.
  Qed.

  Lemma causal_cut m s : causal (fun D => t_cut num H D m s).
  Proof.
    apply causal_for. intros [|c blk]; [apply causal_pure|].
    destruct (re_matches _ _); [|apply causal_pure]. unfold t_block.
    apply (causal_read (fun d D n =>
      match mo_check d with
      | Some x => gerr x
      | None =>
          match m with
          | Full => cut_all_block (mo_freq d) (c :: blk)
          | NoHMM => cut_nohmm_block num (mo_freq d) (mo_total d) (c :: blk)
          | WithHMM =>
              match calc num (mo_freq d) (mo_total d) (c :: blk) (get_DAG (mo_freq d) (c :: blk)) with
              | Err e => gerr e
              | Ok route => t_hmm_loop num H D (S (length (c :: blk))) (c :: blk) route 0 [] n
              end
          end
      end)).
    intros d. destruct (mo_check d) as [x|]; [apply (causal_pure (fun _ => gerr x))|].
    destruct m.
    - apply (causal_pure (fun _ => cut_all_block (mo_freq d) (c :: blk))).
    - destruct (calc _ _ _ _ _) as [route|e]; [apply causal_hmm_loop|apply (causal_pure (fun _ => gerr e))].
    - apply (causal_pure (fun _ => cut_nohmm_block num (mo_freq d) (mo_total d) (c :: blk))).
  Qed.
End Causal.

(** ** The parts of a word *)
Lemma slice_sub w i n : slice w i (i + n) = sub w i n.
Proof. unfold slice, sub. f_equal. lia. Qed.

Section Given.
  Variable B : Type.
  Variable D : nat -> moment.

  Lemma grams_given (mk : str -> nat -> B) n w k :
    exists out, t_grams D mk n w k = gof out /\ given D mk k (if n <? length w then map (fun i => (slice w i (i + n), i)) (seq 0 (length w - (n - 1))) else []) out.
  Proof.
    unfold t_grams. destruct (n <? length w); [|exists []; split; [reflexivity|constructor]].
    generalize (seq 0 (length w - (n - 1))). intros l. revert k. induction l as [|i l IH]; intros k.
    - exists []. split; [reflexivity|constructor].
    - cbn [tfor map]. unfold tapp. destruct (freq_true (mo_freq (D k)) (slice w i (i + n))) eqn:E; cbn [gone gnil fst snd length].
      + destruct (IH (k + 1)) as (out & -> & G). exists (mk (slice w i (i + n)) i :: out). split; [reflexivity|].
        apply given_yes; [apply freq_true_word; auto|]. rewrite Nat.add_1_r in G. exact G.
      + destruct (IH (k + 0)) as (out & -> & G). exists out. split; [reflexivity|].
        apply given_no; [rewrite <- freq_true_word; congruence|]. rewrite Nat.add_0_r in G. exact G.
  Qed.

  Lemma parts_eq n w : 1 <= n ->
    (if n <? length w then map (fun i => (slice w i (i + n), i)) (seq 0 (length w - (n - 1))) else []) = parts n w.
  Proof.
    intros N. unfold parts. destruct (Nat.ltb_spec n (length w)) as [L|L]; auto.
    replace (length w - (n - 1)) with (length w - n + 1) by lia. apply map_ext. intros i. now rewrite slice_sub.
  Qed.

  Lemma parts_given (two three : str -> nat -> B) whole w k :
    exists g2 g3, t_parts D two three whole w k = gof (g2 ++ g3 ++ [whole]) /\
      given D two k (parts 2 w) g2 /\ given D three (k + length g2) (parts 3 w) g3.
  Proof.
    destruct (grams_given two 2 w k) as (g2 & E2 & G2). destruct (grams_given three 3 w (k + length g2)) as (g3 & E3 & G3).
    rewrite parts_eq in G2, G3 by lia. exists g2, g3. split; auto. unfold t_parts, tapp. rewrite E2. cbn [gof fst snd].
    rewrite E3. reflexivity.
  Qed.
End Given.

(** ** The outer generator *)
Section Outer.
  Variable num : Num.
  Variable H : hmm num.
  Variable D : nat -> moment.
  Variable B : Type.
  Variable body : nat -> str -> tgen B.
  Variable HMM : bool.
  Variable s : str.
  (** what the body gives out, by moment and place *)
  Variable did : nat -> nat -> str -> list B -> Prop.
  Variable body_ok : forall a w n, exists out, body a w n = gof out /\ did n a w out.
  Local Notation m := (mode_of false HMM).

  Inductive run : nat -> nat -> list str -> list B -> list nat -> Prop :=
  | run_end k a : run k a [] [] []
  | run_word k a w ws o out ts : did k a w o -> run (k + length o) (a + length w) ws out ts -> run k a (w :: ws) (o ++ out) (k :: ts).

  Lemma words_bound E : length (fst (t_cut num H E m s 0)) <= length s.
  Proof.
    destruct (C51_lossless_under_updates num H E HMM s) as (N & [t P] & _).
    set (ws := fst (t_cut num H E m s 0)) in *. rewrite P, app_length.
    enough (length ws <= length (concat ws)) by lia. clear P. induction ws as [|w ws IH]; cbn; [lia|].
    rewrite app_length. assert (w <> []) by (intros ->; apply N; left; auto).
    destruct w; [congruence|]. cbn. specialize (IH ltac:(intros I; apply N; right; auto)). lia.
  Qed.

  Lemma each_word_run fuel past now start :
    length past <= length (fst (t_cut num H (fun i => D (nth i past now)) m s 0)) ->
    length s - length past < fuel ->
    exists ws out ts e,
      each_word num H D body m s fuel past now start = (out, e) /\ run now start ws out ts /\
      t_cut num H (fun i => D (nth i (past ++ ts) (now + length out))) m s 0 =
        (firstn (length past) (fst (t_cut num H (fun i => D (nth i past now)) m s 0)) ++ ws, e).
  Proof.
    revert past now start. induction fuel as [|fuel IH]; intros past now start LP F; [lia|].
    cbn [each_word]. cbv zeta. set (g := t_cut num H (fun i => D (nth i past now)) m s 0) in *.
    destruct (nth_error (fst g) (length past)) as [w|] eqn:E.
    - assert (LL : length past < length (fst g)) by (apply nth_error_Some; congruence).
      pose proof (words_bound (fun i => D (nth i past now))) as WB. fold g in WB.
      destruct (body_ok start w now) as (o & EO & DO). rewrite EO. cbn [gof fst].
      set (past' := past ++ [now]). set (now' := now + length o).
      assert (AG : agree (S (length past)) g (t_cut num H (fun i => D (nth i past' now')) m s 0)).
      { apply (causal_cut num H m s (fun i => D (nth i past now)) (fun i => D (nth i past' now')) 0 (S (length past))).
        intros i I. f_equal. unfold past'. destruct (Nat.eq_dec i (length past)) as [->|NE].
        - rewrite nth_overflow by lia. rewrite app_nth2 by lia. rewrite Nat.sub_diag. reflexivity.
        - rewrite app_nth1 by lia. apply nth_indep. lia. }
      destruct AG as [AG _].
      assert (FS : firstn (S (length past)) (fst g) = firstn (length past) (fst g) ++ [w]).
      { clear - E. revert E. generalize (length past), (fst g). intros k. induction k as [|k IH]; intros [|x l] E; cbn in *; try discriminate.
        - injection E as ->. reflexivity.
        - rewrite <- (IH l E). reflexivity. }
      assert (LP' : length past' = S (length past)) by (unfold past'; rewrite app_length; cbn; lia).
      destruct (IH past' now' (start + length w)) as (ws & out & ts & e & EE & RU & TC).
      { rewrite LP'. apply (f_equal (@length str)) in AG. rewrite !firstn_length in AG. lia. }
      { rewrite LP'. lia. }
      exists (w :: ws), (o ++ out), (now :: ts), e. split; [|split].
      + rewrite EE. reflexivity.
      + apply run_word; auto.
      + rewrite LP', <- AG, FS, <- app_assoc in TC. cbn [app] in TC. rewrite app_length. rewrite Nat.add_assoc.
        unfold past' in TC. rewrite <- TC. fold now'.
        replace (past ++ now :: ts) with ((past ++ [now]) ++ ts) by (rewrite <- app_assoc; reflexivity). reflexivity.
    - exists [], [], [], (snd g). split; [reflexivity|]. split; [constructor|]. rewrite app_nil_r. cbn [length].
      rewrite Nat.add_0_r. fold g. apply nth_error_None in E. rewrite firstn_all2, app_nil_r by lia. destruct g; reflexivity.
  Qed.

  Lemma outer_run :
    exists ws out ts e,
      each_word num H D body m s (S (length s)) [] 0 0 = (out, e) /\ run 0 0 ws out ts /\
      t_cut num H (fun i => D (nth i ts (length out))) m s 0 = (ws, e).
  Proof. apply (each_word_run (S (length s)) [] 0 0); cbn; lia. Qed.
End Outer.

(** what the words of [cut] are, whatever it sees *)
Lemma inner_words_ok num (H : hmm num) E HMM s ws e : t_cut num H E (mode_of false HMM) s 0 = (ws, e) ->
  ~ In [] ws /\ prefix_of (concat ws) s /\ (e = None -> concat ws = s).
Proof. intros T. pose proof (C51_lossless_under_updates num H E HMM s) as K. cbv zeta in K. rewrite T in K. exact K. Qed.

Lemma run_handled {B} D (two three : nat -> str -> nat -> B) (whole : nat -> str -> B) k a ws out ts :
  run B (fun k a w o => exists g2 g3, o = g2 ++ g3 ++ [whole a w] /\ given D (two a) k (parts 2 w) g2 /\
         given D (three a) (k + length g2) (parts 3 w) g3) k a ws out ts ->
  handled D two three whole k a ws out ts.
Proof.
  induction 1 as [|k a w ws o out ts (g2 & g3 & -> & G2 & G3) RU IH]; [constructor|].
  rewrite <- !app_assoc. cbn [app]. apply handled_word; auto.
  rewrite !app_length in IH. cbn [length] in IH. replace (k + (length g2 + (length g3 + 1))) with (S (k + length g2 + length g3)) in IH by lia.
  exact IH.
Qed.

(** ** cut_for_search *)
Theorem C127_search :
  forall num (H : hmm num) (D : nat -> moment) (HMM : bool) (s : str),
    let g := t_cut_for_search num H D HMM s in
    exists (ws : list str) (ts : list nat),
      handled D (fun _ p _ => p) (fun _ p _ => p) (fun _ w => w) 0 0 ws (fst g) ts /\
      t_cut num H (fun i => D (nth i ts (length (fst g)))) (mode_of false HMM) s 0 = (ws, snd g) /\
      ~ In [] ws /\ prefix_of (concat ws) s /\ (snd g = None -> concat ws = s).
Proof.
  intros num H D HMM s g.
  destruct (outer_run num H D str (fun _ w => t_parts D (fun p _ => p) (fun p _ => p) w w) HMM s
    (fun k a w o => exists g2 g3, o = g2 ++ g3 ++ [w] /\ given D (fun p _ => p) k (parts 2 w) g2 /\
       given D (fun p _ => p) (k + length g2) (parts 3 w) g3)) as (ws & out & ts & e & E & RU & TC).
  { intros a w n. destruct (parts_given str D (fun p _ => p) (fun p _ => p) w w n) as (g2 & g3 & EQ & G2 & G3).
    exists (g2 ++ g3 ++ [w]). split; auto. exists g2, g3. auto. }
  exists ws, ts. unfold g, t_cut_for_search. rewrite E. cbn [fst snd]. split; [|split; [exact TC|exact (inner_words_ok _ _ _ _ _ _ _ TC)]].
  apply (run_handled D (fun _ p _ => p) (fun _ p _ => p) (fun _ w => w)). exact RU.
Qed.

(** ** tokenize in search mode *)
Theorem C127_tokenize_search :
  forall num (H : hmm num) (D : nat -> moment) (HMM : bool) (s : str),
    let g := t_tokenize num H D TSearch HMM s in
    exists (ws : list str) (ts : list nat),
      handled D (fun a p i => (p, a + i, a + i + 2)) (fun a p i => (p, a + i, a + i + 3)) (fun a w => (w, a, a + length w))
        0 0 ws (fst g) ts /\
      t_cut num H (fun i => D (nth i ts (length (fst g)))) (mode_of false HMM) s 0 = (ws, snd g).
Proof.
  intros num H D HMM s g.
  destruct (outer_run num H D token (fun a w => t_parts D (fun p i => (p, a + i, a + i + 2)) (fun p i => (p, a + i, a + i + 3)) (w, a, a + length w) w) HMM s
    (fun k a w o => exists g2 g3, o = g2 ++ g3 ++ [(w, a, a + length w)] /\ given D (fun p i => (p, a + i, a + i + 2)) k (parts 2 w) g2 /\
       given D (fun p i => (p, a + i, a + i + 3)) (k + length g2) (parts 3 w) g3)) as (ws & out & ts & e & E & RU & TC).
  { intros a w n. destruct (parts_given token D (fun p i => (p, a + i, a + i + 2)) (fun p i => (p, a + i, a + i + 3)) (w, a, a + length w) w n) as (g2 & g3 & EQ & G2 & G3).
    exists (g2 ++ g3 ++ [(w, a, a + length w)]). split; auto. exists g2, g3. auto. }
  assert (EG : g = (out, e)) by exact E. exists ws, ts. rewrite EG. cbn [fst snd]. split; [|exact TC].
  apply (run_handled D (fun a p i => (p, a + i, a + i + 2)) (fun a p i => (p, a + i, a + i + 3)) (fun a w => (w, a, a + length w))). exact RU.
Qed.

(** the words it gives out are those of cut_for_search consumed at the same moments *)
Lemma each_word_map {B C} num (H : hmm num) D (f : B -> C) (body : nat -> str -> tgen B) (body' : nat -> str -> tgen C) m s :
  (forall a w n, exists o, body a w n = gof o /\ body' a w n = gof (map f o)) ->
  forall fuel past now start,
    each_word num H D body' m s fuel past now start =
    (map f (fst (each_word num H D body m s fuel past now start)), snd (each_word num H D body m s fuel past now start)).
Proof.
  intros BO. induction fuel as [|fuel IH]; intros past now start; cbn [each_word]; [reflexivity|]. cbv zeta.
  destruct (nth_error _ _) as [w|]; [|reflexivity].
  destruct (BO start w now) as (o & E & E'). rewrite E, E'. unfold gapp. cbn [gof fst snd]. rewrite map_length, IH. cbn [fst snd].
  now rewrite map_app.
Qed.

Lemma grams_map {B C} D (f : B -> C) (mk : str -> nat -> B) (mk' : str -> nat -> C) n w k :
  (forall p i, mk' p i = f (mk p i)) -> exists o, t_grams D mk n w k = gof o /\ t_grams D mk' n w k = gof (map f o).
Proof.
  intros E. unfold t_grams. destruct (n <? length w); [|exists []; auto].
  generalize (seq 0 (length w - (n - 1))). intros l. revert k. induction l as [|i l IH]; intros k; [exists []; auto|].
  cbn [tfor]. unfold tapp. destruct (freq_true _ _); cbn [gone gnil fst snd length].
  - destruct (IH (k + 1)) as (o & -> & ->). exists (mk (slice w i (i + n)) i :: o). rewrite E. auto.
  - destruct (IH (k + 0)) as (o & -> & ->). exists o. auto.
Qed.

Lemma parts_map {B C} D (f : B -> C) (two three : str -> nat -> B) (two' three' : str -> nat -> C) (whole : B) (whole' : C) w n :
  (forall p i, two' p i = f (two p i)) -> (forall p i, three' p i = f (three p i)) -> whole' = f whole ->
  exists o, t_parts D two three whole w n = gof o /\ t_parts D two' three' whole' w n = gof (map f o).
Proof.
  intros E2 E3 ->. unfold t_parts, tapp.
  destruct (grams_map D f two two' 2 w n E2) as (o2 & -> & ->). cbn [gof fst snd]. rewrite map_length.
  destruct (grams_map D f three three' 3 w (n + length o2) E3) as (o3 & -> & ->). cbn [gof fst snd tpure gone].
  exists (o2 ++ o3 ++ [whole]). rewrite !map_app. auto.
Qed.

Theorem C127_same_words :
  forall num (H : hmm num) (D : nat -> moment) (HMM : bool) (s : str),
    let g := t_tokenize num H D TSearch HMM s in
    t_cut_for_search num H D HMM s = (map (fun t => fst (fst t)) (fst g), snd g).
Proof.
  intros num H D HMM s g. apply (each_word_map num H D (fun t : token => fst (fst t))).
  intros a w n. apply (parts_map D (fun t : token => fst (fst t))); reflexivity.
Qed.

(** ** Every token is the text at its place *)
Lemma given_located {B} (D : nat -> moment) (mk : str -> nat -> B) k cs out x :
  given D mk k cs out -> In x out -> exists p i, In (p, i) cs /\ x = mk p i.
Proof.
  induction 1 as [|k g i cs out W G IH|k g i cs out W G IH]; [intros []| |]; intros I.
  - destruct I as [<-|I]; [exists g, i; split; [left|]; auto|]. destruct (IH I) as (p & j & J & E). exists p, j. split; [right|]; auto.
  - destruct (IH I) as (p & j & J & E). exists p, j. split; [right|]; auto.
Qed.
Lemma parts_at n w p i : In (p, i) (parts n w) -> exists u v, w = u ++ p ++ v /\ length u = i /\ length p = n.
Proof.
  unfold parts. destruct (Nat.ltb_spec n (length w)) as [L|L]; [|intros []]. intros I. apply in_map_iff in I.
  destruct I as (j & E & J). injection E as <- <-. apply in_seq in J. exists (firstn j w), (skipn n (skipn j w)).
  unfold sub. rewrite !firstn_skipn. split; auto. rewrite !firstn_length, skipn_length. lia.
Qed.

Theorem C127_tokens_in_place :
  forall num (H : hmm num) (D : nat -> moment) (tm : tmode) (HMM : bool) (s : str) (t : token),
    In t (fst (t_tokenize num H D tm HMM s)) -> located s t.
Proof.
  intros num H D [] HMM s t I.
  - destruct (outer_run num H D token (fun a w => tpure (gone (w, a, a + length w))) HMM s
      (fun k a w o => o = [(w, a, a + length w)])) as (ws & out & ts & e & E & RU & TC).
    { intros a w n. exists [(w, a, a + length w)]. split; reflexivity. }
    apply inner_words_ok in TC. destruct TC as (_ & [z P] & _).
    assert (EG : t_tokenize num H D TDefault HMM s = (out, e)) by exact E. rewrite EG in I. cbn [fst] in I.
    assert (G : forall k a, run token (fun k a w o => o = [(w, a, a + length w)]) k a ws out ts -> forall u, length u = a -> located (u ++ concat ws ++ z) t).
    { clear E EG P RU. intros k a RU. induction RU as [|k a w ws o out ts -> RU IH]; [destruct I|]. intros u U. cbn [app] in I. destruct I as [<-|I].
      - exists u, (concat ws ++ z). cbn [concat]. rewrite <- app_assoc. auto.
      - cbn [concat]. rewrite <- app_assoc, (app_assoc u w). apply IH; auto. rewrite app_length. lia. }
    rewrite P. apply (G 0 0 RU [] eq_refl).
  - destruct (C127_tokenize_search num H D HMM s) as (ws & ts & HD & TC). apply inner_words_ok in TC. destruct TC as (_ & [z P] & _).
    set (out := fst (t_tokenize num H D TSearch HMM s)) in *.
    assert (G : forall k a, handled D (fun a p i => (p, a + i, a + i + 2)) (fun a p i => (p, a + i, a + i + 3)) (fun a w => (w, a, a + length w)) k a ws out ts ->
       forall u, length u = a -> located (u ++ concat ws ++ z) t).
    { clear HD P. clearbody out. intros k a HD. induction HD as [|k a w ws g2 g3 out ts G2 G3 HD IH]; [destruct I|]. intros u U. cbn [concat]. rewrite <- app_assoc.
      apply in_app_or in I. destruct I as [I|I]; [|apply in_app_or in I; destruct I as [I|[<-|I]]].
      - destruct (given_located _ _ _ _ _ _ G2 I) as (p & i & J & ->). destruct (parts_at _ _ _ _ J) as (x & y & -> & LX & LY).
        exists (u ++ x), (y ++ concat ws ++ z). rewrite <- !app_assoc, app_length. split; [reflexivity|]. subst; lia.
      - destruct (given_located _ _ _ _ _ _ G3 I) as (p & i & J & ->). destruct (parts_at _ _ _ _ J) as (x & y & -> & LX & LY).
        exists (u ++ x), (y ++ concat ws ++ z). rewrite <- !app_assoc, app_length. split; [reflexivity|]. subst; lia.
      - exists u, (concat ws ++ z). auto.
      - rewrite (app_assoc u w). apply IH; auto. rewrite app_length. lia. }
    rewrite P. apply (G 0 0 HD [] eq_refl).
Qed.

(** in default mode the tokens are those of the words of [cut] consumed at the same moments,
    one after the other *)
Theorem C127_tokenize_default :
  forall num (H : hmm num) (D : nat -> moment) (HMM : bool) (s : str),
    let g := t_tokenize num H D TDefault HMM s in
    let c := t_cut num H D (mode_of false HMM) s 0 in
    map (fun t => fst (fst t)) (fst g) = fst c /\ snd g = snd c /\ tiles 0 (length (concat (fst c))) (fst g).
Proof.
  intros num H D HMM s g c.
  destruct (outer_run num H D token (fun a w => tpure (gone (w, a, a + length w))) HMM s
    (fun k a w o => o = [(w, a, a + length w)])) as (ws & out & ts & e & E & RU & TC).
  { intros a w n. exists [(w, a, a + length w)]. split; reflexivity. }
  assert (G : forall k a, run token (fun k a w o => o = [(w, a, a + length w)]) k a ws out ts ->
    ts = seq k (length ws) /\ length out = length ws /\ map (fun t : token => fst (fst t)) out = ws /\ tiles a (a + length (concat ws)) out).
  { clear. intros k a RU. induction RU as [|k a w ws o out ts -> RU IH]; [cbn; rewrite Nat.add_0_r; auto|].
    destruct IH as (I1 & I2 & I3 & I4). cbn [length seq app map fst concat tiles]. rewrite Nat.add_1_r in I1. rewrite I1, I3. cbn [length] in *.
    split; [reflexivity|]. split; [lia|]. split; auto. split; auto. split; auto.
    rewrite app_length, Nat.add_assoc. exact I4. }
  destruct (G 0 0 RU) as (I1 & I2 & I3 & I4).
  assert (EC : c = (ws, e)).
  { unfold c. pose proof (causal_cut num H (mode_of false HMM) s (fun i => D (nth i ts (length out))) D 0 (S (length ws))) as K.
    destruct K as [_ K].
    - intros i I. f_equal. rewrite I1, I2. destruct (Nat.eq_dec i (length ws)) as [->|NE].
      + apply nth_overflow. rewrite seq_length. lia.
      + apply seq_nth. lia.
    - rewrite TC in K. cbn [fst] in K. symmetry. apply K. lia. }
  assert (EG : g = (out, e)) by exact E. rewrite EC, EG. cbn [fst snd]. auto.
Qed.

(** ** Sane dictionaries: no exception *)
Theorem C127_no_exception :
  forall num (H : hmm num) (D : nat -> moment) (tm : tmode) (HMM : bool) (s : str),
    (forall n, mo_check (D n) = None /\ sane (sget (mo_freq (D n))) (mo_total (D n))) ->
    snd (t_cut_for_search num H D HMM s) = None /\ snd (t_tokenize num H D tm HMM s) = None.
Proof.
  intros num H D tm HMM s SA.
  assert (X : forall (f : nat -> nat) ws e, t_cut num H (fun i => D (f i)) (mode_of false HMM) s 0 = (ws, e) -> e = None).
  { intros f ws e T. destruct (C51_no_exception num H (fun i => D (f i)) HMM s (fun n => SA (f n))) as (ws' & T' & _). rewrite T in T'. injection T'; auto. }
  split.
  - destruct (C127_search num H D HMM s) as (ws & ts & _ & TC & _). apply (X (fun i => nth i ts (length (fst (t_cut_for_search num H D HMM s))))) in TC. exact TC.
  - destruct tm.
    + destruct (C127_tokenize_default num H D HMM s) as (_ & -> & _). destruct (t_cut num H D (mode_of false HMM) s 0) as [ws e] eqn:T.
      apply (X (fun i => i)) in T. exact T.
    + destruct (C127_tokenize_search num H D HMM s) as (ws & ts & _ & TC).
      apply (X (fun i => nth i ts (length (fst (t_tokenize num H D TSearch HMM s))))) in TC. exact TC.
Qed.

(** ** Nothing changes: what cut_for_search and tokenize give as they are in ModelSeg *)
Lemma given_const {B} (m : moment) (mk : str -> nat -> B) k cs out : given (fun _ => m) mk k cs out ->
  out = map (fun pi => mk (fst pi) (snd pi)) (filter (fun pi => freq_true (mo_freq m) (fst pi)) cs).
Proof.
  induction 1 as [|k g i cs out W G IH|k g i cs out W G IH]; cbn; [reflexivity| |].
  - apply freq_true_word in W. rewrite W. cbn. now rewrite IH.
  - rewrite <- freq_true_word in W. destruct (freq_true _ g); [congruence|auto].
Qed.
Lemma parts_dict fr n w : 1 <= n -> filter (fun pi => freq_true fr (fst pi)) (parts n w) = dict_grams fr n w.
Proof.
  intros N. rewrite <- parts_eq by auto. unfold dict_grams. destruct (n <? length w); [|reflexivity].
  generalize (seq 0 (length w - (n - 1))). intros l. induction l as [|i l IH]; cbn; [reflexivity|].
  destruct (freq_true fr _); cbn; now rewrite IH.
Qed.

Theorem C127_no_updates :
  forall num (H : hmm num) (tm : tmode) (HMM : bool) fr total force s,
    t_cut_for_search num H (fun _ => mkMoment None fr total force) HMM s = cut_for_search num H HMM fr total force s /\
    t_tokenize num H (fun _ => mkMoment None fr total force) tm HMM s = tokenize num H tm HMM fr total force s.
Proof.
  intros num H tm HMM fr total force s. set (M := mkMoment None fr total force). split.
  - destruct (C127_search num H (fun _ => M) HMM s) as (ws & ts & HD & TC & _). unfold M in TC. rewrite C51_no_updates in TC. fold M in TC.
    unfold cut_for_search. rewrite TC. unfold gbind, gapp. cbn [fst snd].
    assert (G : forall k a out ts, handled (fun _ => M) (fun _ p _ => p) (fun _ p _ => p) (fun _ w => w) k a ws out ts ->
      gfor ws (fun w => gof (map fst (dict_grams fr 2 w) ++ map fst (dict_grams fr 3 w) ++ [w])) = gof out).
    { clear. intros k a out ts HD. induction HD as [|k a w ws g2 g3 out ts G2 G3 HD IH]; [reflexivity|].
      cbn [gfor]. rewrite IH. unfold gapp. cbn [gof fst snd]. f_equal. apply given_const in G2, G3. cbn [M mo_freq] in G2, G3.
      rewrite parts_dict in G2, G3 by lia. rewrite G2, G3, <- !app_assoc. reflexivity. }
    rewrite (G _ _ _ _ HD). cbn [gof fst snd]. rewrite app_nil_r. destruct (t_cut_for_search _ _ _ _ _). reflexivity.
  - unfold tokenize. destruct tm.
    + destruct (outer_run num H (fun _ => M) token (fun a w => tpure (gone (w, a, a + length w))) HMM s
        (fun k a w o => o = [(w, a, a + length w)])) as (ws & out & ts & e & E & RU & TC).
      { intros a w n. exists [(w, a, a + length w)]. split; reflexivity. }
      unfold M in TC. rewrite C51_no_updates in TC. rewrite TC. cbn [fst snd].
      assert (G : forall k a, run token (fun k a w o => o = [(w, a, a + length w)]) k a ws out ts -> out = tokenize_default ws a).
      { clear. intros k a RU. induction RU as [|k a w ws o out ts -> RU IH]; [reflexivity|]. cbn. now rewrite IH. }
      rewrite <- (G _ _ RU). exact E.
    + destruct (C127_tokenize_search num H (fun _ => M) HMM s) as (ws & ts & HD & TC). unfold M in TC. rewrite C51_no_updates in TC. rewrite TC. cbn [fst snd].
      assert (G : forall k a out, handled (fun _ => M) (fun a p i => (p, a + i, a + i + 2)) (fun a p i => (p, a + i, a + i + 3)) (fun a w => (w, a, a + length w)) k a ws out ts ->
        out = tokenize_search fr ws a).
      { clear. intros k a out HD. induction HD as [|k a w ws g2 g3 out ts G2 G3 HD IH]; [reflexivity|].
        cbn [tokenize_search]. rewrite IH. apply given_const in G2, G3. cbn [M mo_freq] in G2, G3.
        rewrite parts_dict in G2, G3 by lia. rewrite G2, G3. reflexivity. }
      rewrite <- (G _ _ _ HD). fold M. destruct (t_tokenize _ _ _ _ _ _). reflexivity.
Qed.

(** What cut has given out until it is asked for the [k]-th time depends only on the
    dictionary of the moments until then. *)
Theorem C127_given_out_stays :
  forall num (H : hmm num) (D D' : nat -> moment) (m : mode) (s : str) (k : nat),
    (forall i, i < k -> D i = D' i) ->
    firstn k (fst (t_cut num H D m s 0)) = firstn k (fst (t_cut num H D' m s 0)).
Proof. intros num H D D' m s k E. apply (causal_cut num H m s D D' 0 k). intros i I. apply E. lia. Qed.

(** ** A case: 大学生 and its parts while 学生 is added *)
Definition st_fr : freqs := [([c_da], 1%Z); ([c_da; c_xue], 2%Z); ([c_da; c_xue; c_sheng], 9%Z)].
Definition st_new : freqs := st_fr ++ [([c_xue], 0%Z); ([c_xue; c_sheng], 5%Z)].
Definition st_D (n : nat) : moment := mkMoment None (if n <? 1 then st_fr else st_new) 20 [].

(** after 大学 has come out, 学生 is added, and comes out before 大学生 *)
Example C127_nonvacuous :
  (forall n, mo_check (st_D n) = None /\ sane (sget (mo_freq (st_D n))) (mo_total (st_D n))) /\
  t_cut_for_search numQ demo_hmm st_D false [c_da; c_xue; c_sheng] = gof [[c_da; c_xue]; [c_xue; c_sheng]; [c_da; c_xue; c_sheng]] /\
  t_tokenize numQ demo_hmm st_D TSearch false [c_da; c_xue; c_sheng] =
    gof [([c_da; c_xue], 0, 2); ([c_xue; c_sheng], 1, 3); ([c_da; c_xue; c_sheng], 0, 3)] /\
  cut_for_search numQ demo_hmm false st_fr 20 [] [c_da; c_xue; c_sheng] = gof [[c_da; c_xue]; [c_da; c_xue; c_sheng]].
Proof.
  split; [|split; [|split]].
  - intros n. split; [reflexivity|]. unfold st_D. cbn [mo_freq mo_total]. destruct (n <? 1); apply saneb_ok; reflexivity.
  - match goal with |- _ = ?r => vm_cast_no_check (eq_refl r) end.
  - match goal with |- _ = ?r => vm_cast_no_check (eq_refl r) end.
  - match goal with |- _ = ?r => vm_cast_no_check (eq_refl r) end.
Qed.

Print Assumptions C127_search.
Print Assumptions C127_tokenize_search.
Print Assumptions C127_same_words.
Print Assumptions C127_tokens_in_place.
Print Assumptions C127_tokenize_default.
Print Assumptions C127_no_exception.
Print Assumptions C127_no_updates.
Print Assumptions C127_given_out_stays.
