(** * C126: threads that change the IDF file of one extractor *)
From Coq Require Import Lia.
From Verif Require Import PyBase PyNum ModelAnalyse ModelTagLoad ModelIdfRace ProofsBase ProofsDict Demo InstQ.

(** ** What is claimed *)

(** a file that some thread is told to load has a line that gives the word this number *)
Definition gives {num} (float_of : str -> option (F num)) (progs : list (list icall)) (w : str) (x : F num) : Prop :=
  exists prog path b text line, In prog progs /\ In (ISet path (Some b)) prog /\ utf8_decode b = Some text /\
    In line (splitlines text) /\ idf_line float_of line = Some (w, x).

Section Seq.
  Context {num : Num}.
  Variable float_of : str -> option (F num).
  Variables (path : str) (tab : sdict (F num)) (med : F num).

  (** the extractor after one more call, and what the call gives, when nobody else runs *)
  Definition then_ (x : tfidf num) (c : icall) : tfidf num :=
    match c with ISet p content => fst (set_idf_path float_of x p content) | ILook _ => x end.
  Definition value_in (x y : tfidf num) (w : str) : F num :=
    match sget (tf_freq x) w with Some v => v | None => tf_median y end.
  Definition answer (x : tfidf num) (c : icall) : iret num :=
    match c with
    | ISet p content => IDone (snd (set_idf_path float_of x p content))
    | ILook w => IVal (value_in x x w)
    end.
  (** the extractor after the first [k] calls *)
  Definition after (prog : list icall) (k : nat) : tfidf num :=
    fold_left then_ (firstn k prog) (mkTfidf (mkIdf num path tab med) tab med []).
End Seq.

(** ** Lemmas *)

Lemma iput_In {A} (l : list A) i x y : In y (lput l i x) -> y = x \/ In y l.
Proof.
  revert i. induction l as [|z l IH]; intros [|i]; cbn [lput]; auto.
  - intros [E|E]; auto. right. right. exact E.
  - intros [E|E]; [right; left; exact E|]. destruct (IH _ E); auto. right. right. auto.
Qed.
Lemma iput_length {A} (l : list A) i x : length (lput l i x) = length l.
Proof. revert i. induction l as [|z l IH]; intros [|i]; cbn; auto. Qed.
Lemma iput_nth {A} (l : list A) i x r e : i < length l -> nth r (lput l i x) e = if r =? i then x else nth r l e.
Proof.
  revert i r. induction l as [|z l IH]; intros [|i] [|r] L; cbn in *; try lia; auto. apply IH. lia.
Qed.

Section OneSetter.
  Context {num : Num}.
  Variable float_of : str -> option (F num).
  Variables (path0 : str) (tab0 : sdict (F num)) (med0 : F num).
  Variable prog : list icall.
  Notation after := (after float_of path0 tab0 med0 prog).
  Notation then_ := (then_ float_of).
  Notation answer := (answer float_of).

  Lemma idf_lines_cons line rest t :
    idf_lines num float_of (line :: rest) t =
    match idf_line float_of line with Some (w, x) => idf_lines num float_of rest (sset t w x) | None => (t, Some ValueError) end.
  Proof.
    cbn [idf_lines]. unfold idf_line. destruct (split_on 32%N (str_strip line)) as [|w [|f [|]]]; auto. destruct (float_of f); auto.
  Qed.

  Definition tx (d : idata num) (X : tfidf num) : Prop := iobj d (id_tab d) = tf_freq X /\ id_med d = tf_median X.
  Definition lx (d : idata num) (L : idf_loader num) : Prop :=
    iobj d (id_ltab d) = il_freq L /\ id_lmed d = il_median L /\ id_path d = il_path L.
  Definition valid (d : idata num) : Prop := id_tab d < length (id_objs d) /\ id_ltab d < length (id_objs d).

  (** the loading of the file is on its way, with this table so far and what is still to be done *)
  Definition loading (X : tfidf num) (d : idata num) (path : str) (b : bytes) (t : sdict (F num) * option exn) : Prop :=
    tx d X /\ il_path (tf_loader X) <> path /\ id_tab d <> id_ltab d /\ id_lmed d = il_median (tf_loader X) /\ id_path d = path /\
    exists text, utf8_decode b = Some text /\ idf_lines num float_of (splitlines text) [] = t.
  (** the loader is done *)
  Definition loaded (X : tfidf num) (d : idata num) (path : str) (b : bytes) : Prop :=
    exists L, set_new_path float_of (tf_loader X) path (Some b) = (L, None) /\ lx d L.
  Definition renamed (X : tfidf num) (path : str) : idf_loader num :=
    mkIdf num path (il_freq (tf_loader X)) (il_median (tf_loader X)).

  Definition set_pc (X : tfidf num) (d : idata num) (path : str) (b : bytes) (p : ipc num) : Prop :=
    match p with
    | ICmp => tx d X /\ lx d (tf_loader X)
    | IPath => tx d X /\ lx d (tf_loader X) /\ il_path (tf_loader X) <> path
    | IRead => tx d X /\ lx d (renamed X path) /\ il_path (tf_loader X) <> path
    | INew lines => tx d X /\ lx d (renamed X path) /\ il_path (tf_loader X) <> path /\
        exists text, utf8_decode b = Some text /\ lines = splitlines text
    | INext rest => loading X d path b (idf_lines num float_of rest (iobj d (id_ltab d)))
    | IStore w x r rest => r = id_ltab d /\ loading X d path b (idf_lines num float_of rest (sset (iobj d (id_ltab d)) w x))
    | IVals r => r = id_ltab d /\ loading X d path b (iobj d (id_ltab d), None)
    | ILen vals => vals = sorted_asc (f_lt num) (map snd (iobj d (id_ltab d))) /\ loading X d path b (iobj d (id_ltab d), None)
    | IIdx vals r => r = id_ltab d /\ vals = sorted_asc (f_lt num) (map snd (iobj d (id_ltab d))) /\
        loading X d path b (iobj d (id_ltab d), None)
    | IMed m => idf_median num (iobj d (id_ltab d)) = Ok m /\ loading X d path b (iobj d (id_ltab d), None)
    | IGet => tx d X /\ loaded X d path b
    | IGet2 r => r = id_ltab d /\ tx d X /\ loaded X d path b
    | IPut r m => r = id_ltab d /\ m = id_lmed d /\ tx d X /\ loaded X d path b
    | IPut2 m => id_tab d = id_ltab d /\ m = id_lmed d /\ id_med d = tf_median X /\ loaded X d path b
    | _ => False
    end.

  Definition filling (th : ithread num) : Prop :=
    match it_cur th with Some (_, INext _) | Some (_, IStore _ _ _ _) => True | _ => False end.
  Definition putting (th : ithread num) : nat := match it_cur th with Some (_, IPut2 _) => 1 | _ => 0 end.

  Definition setter (d : idata num) (th : ithread num) : Prop :=
    let X := after (length (it_done th)) in
    valid d /\
    map fst (it_done th) ++ (match it_cur th with Some (c, _) => [c] | None => [] end) ++ it_todo th = prog /\
    (forall k c x, nth_error (it_done th) k = Some (c, x) -> x = answer (after k) c) /\
    match it_cur th with
    | None => tx d X /\ lx d (tf_loader X)
    | Some (ISet path (Some b), p) => set_pc X d path b p
    | Some (ILook w, LMed r) => r = id_tab d /\ tx d X /\ lx d (tf_loader X)
    | Some (ILook w, LGet r m) => r = id_tab d /\ m = id_med d /\ tx d X /\ lx d (tf_loader X)
    | _ => False
    end.

  Definition frozen (d : idata num) (th : ithread num) (r : nat) : Prop :=
    r < length (id_objs d) /\ (filling th -> r <> id_ltab d).

  Lemma after_S dn c td : map fst (dn : list (icall * iret num)) ++ c :: td = prog ->
    after (S (length dn)) = then_ (after (length dn)) c.
  Proof.
    intros E. unfold after. assert (L : length (map fst dn) = length dn) by apply map_length.
    rewrite <- E. rewrite firstn_app. rewrite (firstn_all2 (map fst dn)) by lia. rewrite L.
    replace (S (length dn) - length dn) with 1 by lia. cbn [firstn].
    rewrite firstn_app, (firstn_all2 (map fst dn)) by lia. rewrite L, Nat.sub_diag. cbn [firstn]. rewrite app_nil_r, fold_left_app. reflexivity.
  Qed.

  (** one step of the thread that sets *)
  Lemma setter_step d th d' th' : setter d th -> istep float_of d th = Some (d', th') ->
    setter d' th' /\
    (forall r, frozen d th r -> frozen d' th' r /\ iobj d' r = iobj d r) /\
    length (it_done th) + putting th <= length (it_done th') + putting th'.
  Proof.
    intros (VA & MI & DN & CU) ST. destruct th as [dn [[c p]|] td]; unfold istep in ST; cbn [it_done it_cur it_todo] in *.
    - set (X := after (length dn)) in *.
      assert (RET : forall d1 x, d1 = d' -> mkIT (dn ++ [(c, x)]) None td = th' -> valid d1 ->
        x = answer X c -> tx d1 (then_ X c) -> lx d1 (tf_loader (then_ X c)) ->
        id_objs d1 = id_objs d -> 
        setter d' th' /\ (forall r, frozen d (mkIT dn (Some (c, p)) td) r -> frozen d' th' r /\ iobj d' r = iobj d r) /\
        length dn + putting (mkIT dn (Some (c, p)) td) <= length (it_done th') + putting th').
      { intros d1 x <- <- V1 EX T1 L1 OB. cbn [app] in MI. pose proof (after_S _ _ _ MI) as AS. fold X in AS. rewrite <- AS in T1, L1.
        assert (LN : length (dn ++ [(c, x)]) = S (length dn)) by (rewrite app_length; cbn; lia).
        split; [|split].
        - unfold setter. cbn [it_done it_cur it_todo app]. rewrite LN. split; [exact V1|].
          split; [rewrite map_app, <- app_assoc; exact MI|]. split; [|auto].
          intros k c0 x0 N. destruct (lt_dec k (length dn)) as [K|K].
          + rewrite nth_error_app1 in N by exact K. exact (DN _ _ _ N).
          + rewrite nth_error_app2 in N by lia. destruct (k - length dn) as [|[|n]] eqn:KD; try discriminate.
            injection N as <- <-. replace k with (length dn) by lia. exact EX.
        - intros r [R1 R2]. unfold frozen, iobj. rewrite OB. split; auto.
        - cbn [it_done]. rewrite LN. unfold putting at 2. cbn [it_cur]. unfold putting. cbn [it_cur]. destruct p; lia. }
      assert (GO : forall d1 p1, d1 = d' -> mkIT dn (Some (c, p1)) td = th' -> valid d1 -> 
        (forall path b, c = ISet path (Some b) -> set_pc X d1 path b p1) ->
        (forall w, c = ILook w -> match p1 with LGet r m => r = id_tab d1 /\ m = id_med d1 /\ tx d1 X /\ lx d1 (tf_loader X) | _ => False end) ->
        (forall path, c <> ISet path None) ->
        (forall r, frozen d (mkIT dn (Some (c, p)) td) r -> frozen d1 (mkIT dn (Some (c, p1)) td) r /\ iobj d1 r = iobj d r) ->
        putting (mkIT dn (Some (c, p)) td) <= putting (mkIT dn (Some (c, p1)) td) ->
        setter d' th' /\ (forall r, frozen d (mkIT dn (Some (c, p)) td) r -> frozen d' th' r /\ iobj d' r = iobj d r) /\
        length dn + putting (mkIT dn (Some (c, p)) td) <= length (it_done th') + putting th').
      { intros d1 p1 <- <- V1 A1 A2 A3 FR PU. split; [|split; [exact FR|cbn [it_done]; lia]].
        split; [exact V1|]. split; [exact MI|]. split; [exact DN|]. cbn [it_cur it_done]. fold X.
        destruct c as [path [b|]|w]; [apply A1; reflexivity|destruct (A3 path eq_refl)|].
        specialize (A2 w eq_refl). destruct p1; auto; contradiction. }
      destruct c as [path [b|]|w]; [|contradiction|].
      + assert (GS : forall d1 p1, d1 = d' -> mkIT dn (Some (ISet path (Some b), p1)) td = th' -> valid d1 -> set_pc X d1 path b p1 ->
          (forall r, frozen d (mkIT dn (Some (ISet path (Some b), p)) td) r ->
             frozen d1 (mkIT dn (Some (ISet path (Some b), p1)) td) r /\ iobj d1 r = iobj d r) ->
          putting (mkIT dn (Some (ISet path (Some b), p)) td) <= putting (mkIT dn (Some (ISet path (Some b), p1)) td) ->
          setter d' th' /\ (forall r, frozen d (mkIT dn (Some (ISet path (Some b), p)) td) r -> frozen d' th' r /\ iobj d' r = iobj d r) /\
          length dn + putting (mkIT dn (Some (ISet path (Some b), p)) td) <= length (it_done th') + putting th').
        { intros d1 p1 E1 E2 V1 A1 FR PU. apply (GO d1 p1); auto; try (intros; congruence). }
        clear GO.
        assert (SAME : forall p1, d = d' -> mkIT dn (Some (ISet path (Some b), p1)) td = th' -> set_pc X d path b p1 ->
          (filling (mkIT dn (Some (ISet path (Some b), p1)) td) -> filling (mkIT dn (Some (ISet path (Some b), p)) td)) ->
          putting (mkIT dn (Some (ISet path (Some b), p)) td) <= putting (mkIT dn (Some (ISet path (Some b), p1)) td) ->
          setter d' th' /\ (forall r, frozen d (mkIT dn (Some (ISet path (Some b), p)) td) r -> frozen d' th' r /\ iobj d' r = iobj d r) /\
          length dn + putting (mkIT dn (Some (ISet path (Some b), p)) td) <= length (it_done th') + putting th').
        { intros p1 E1 E2 A1 FI PU. apply (GS d p1); auto. intros r [R1 R2]. split; [split; auto|reflexivity]. }
        destruct p as [| | |lines|[|line rest]|k x r rest|r|vals|vals r|m| |r|r m|m|r|r m]; try contradiction; cbn [set_pc] in CU.
        * (* line 45 *)
          injection ST as E1 E2. eapply SAME; eauto; destruct (str_eqb (id_path d) path) eqn:EP; cbn; auto.
          -- destruct CU as [T L]. split; auto. apply str_eqb_eq in EP. exists (tf_loader X). split; auto.
             unfold set_new_path. destruct L as (_ & _ & LP). rewrite <- LP, EP, str_eqb_refl. reflexivity.
          -- destruct CU as [T L]. split; auto. split; auto. destruct L as (_ & _ & LP). intros EE. rewrite LP, EE, str_eqb_refl in EP. discriminate.
        * (* line 46 *)
          injection ST as E1 E2. destruct CU as (T & (L1 & L2 & L3) & NE).
          apply (GS _ _ E1 E2); [exact VA|split; [exact T|split; [split; [exact L1|split; [exact L2|reflexivity]]|exact NE]]| |reflexivity].
          intros r [R1 R2]. split; [split; [exact R1|intros []]|reflexivity].
        * (* line 47 *)
          destruct CU as (T & L & NE). destruct (utf8_decode b) as [text|] eqn:UD; injection ST as E1 E2.
          -- eapply SAME; eauto; cbn; auto. split; auto. split; auto. split; auto. exists text. auto.
          -- assert (SI : set_idf_path float_of X path (Some b) =
               (mkTfidf (renamed X path) (tf_freq X) (tf_median X) (tf_stop X), Some ValueError)).
             { unfold set_idf_path, set_new_path. destruct (str_eqb (il_path (tf_loader X)) path) eqn:EP;
                 [apply str_eqb_eq in EP; contradiction|]. rewrite UD. reflexivity. }
             eapply RET; eauto; cbn [then_ answer]; rewrite SI; cbn [fst snd tf_loader]; auto.
        * (* line 48 *)
          destruct CU as (T & L & NE & text & UD & ->). injection ST as E1 E2.
          assert (OB : forall r, r < length (id_objs d) -> nth r (id_objs d ++ [[]]) [] = iobj d r).
          { intros r R. unfold iobj. now rewrite app_nth1. }
          destruct VA as [V1 V2]. destruct T as [T1 T2]. destruct L as (L1 & L2 & L3).
          apply (GS _ _ E1 E2); [| | |reflexivity].
          -- unfold valid. cbn [id_tab id_ltab id_objs]. rewrite app_length. cbn. lia.
          -- cbn [set_pc]. unfold loading, tx. cbn [id_tab id_ltab id_objs id_med id_lmed id_path]. unfold iobj. cbn [id_objs].
             rewrite OB by exact V1. split; [split; [exact T1|exact T2]|]. split; [exact NE|]. split; [lia|]. split; [exact L2|].
             split; [exact L3|]. exists text. split; [exact UD|]. rewrite app_nth2, Nat.sub_diag by lia. reflexivity.
          -- intros r [R1 R2]. split; [split; cbn [id_objs id_ltab]; [rewrite app_length; cbn; lia|intros _; lia]|].
             unfold iobj. cbn [id_objs]. apply OB. exact R1.
        * (* line 53, the table *)
          injection ST as E1 E2. eapply SAME; eauto; cbn; auto.
        * (* lines 50-51 *)
          unfold loading in CU. destruct CU as (T & NE & TL & LM & PA & text & UD & IL).
          rewrite idf_lines_cons in IL. destruct (idf_line float_of line) as [[w x]|] eqn:EL; injection ST as E1 E2.
          -- eapply SAME; eauto; cbn; auto. split; auto. split; auto. split; auto. split; auto. split; auto. split; auto. exists text. auto.
          -- assert (SI : set_idf_path float_of X path (Some b) =
               (mkTfidf (mkIdf num path (iobj d (id_ltab d)) (il_median (tf_loader X))) (tf_freq X) (tf_median X) (tf_stop X), Some ValueError)).
             { unfold set_idf_path, set_new_path. destruct (str_eqb (il_path (tf_loader X)) path) eqn:EP;
                 [apply str_eqb_eq in EP; contradiction|]. rewrite UD, IL. reflexivity. }
             eapply RET; eauto; cbn [then_ answer]; rewrite SI; cbn [fst snd tf_loader]; auto.
             split; [reflexivity|]. split; [exact LM|exact PA].
        * (* line 51, the store *)
          destruct CU as (-> & T & NE & TL & LM & PA & text & UD & IL). injection ST as E1 E2. destruct VA as [V1 V2].
          set (d1 := mkID (lput (id_objs d) (id_ltab d) (sset (iobj d (id_ltab d)) k x)) (id_path d) (id_ltab d) (id_lmed d) (id_tab d) (id_med d)) in *.
          assert (OB : forall r, iobj d1 r = if r =? id_ltab d then sset (iobj d (id_ltab d)) k x else iobj d r).
          { intros r. unfold iobj at 1. cbn [id_objs d1]. now rewrite iput_nth. }
          apply (GS _ _ E1 E2); [| | |reflexivity].
          -- unfold valid. cbn [id_tab id_ltab id_objs d1]. rewrite iput_length. split; auto.
          -- cbn [set_pc]. unfold loading, tx. rewrite !OB. cbn [id_tab id_ltab id_med id_lmed id_path d1].
             rewrite Nat.eqb_refl. replace (id_tab d =? id_ltab d) with false by (symmetry; apply Nat.eqb_neq; exact TL).
             split; [exact T|]. split; [exact NE|]. split; [exact TL|]. split; [exact LM|]. split; [exact PA|]. exists text. auto.
          -- intros r [R1 R2]. specialize (R2 I). split; [split; cbn [id_objs id_ltab d1]; [rewrite iput_length; exact R1|intros _; exact R2]|].
             rewrite OB. now replace (r =? id_ltab d) with false by (symmetry; apply Nat.eqb_neq; exact R2).
        * (* line 53, sorted *)
          destruct CU as (-> & CU). injection ST as E1 E2. eapply SAME; eauto; cbn; auto.
        * (* line 53, the table again *)
          destruct CU as (EV & CU). injection ST as E1 E2. eapply SAME; eauto; cbn; auto.
        * (* line 53, the element *)
          destruct CU as (-> & -> & T & NE & TL & LM & PA & text & UD & IL).
          assert (IM : idf_median num (iobj d (id_ltab d)) =
            match nth_error (sorted_asc (f_lt num) (map snd (iobj d (id_ltab d)))) (length (iobj d (id_ltab d)) / 2) with
            | Some x => Ok x | None => Err IndexError end) by reflexivity.
          destruct (nth_error (sorted_asc (f_lt num) (map snd (iobj d (id_ltab d)))) (length (iobj d (id_ltab d)) / 2)) as [m|];
            injection ST as E1 E2.
          -- eapply SAME; eauto; cbn; auto. split; auto. split; auto. split; auto. split; auto. split; auto. split; auto. exists text. auto.
          -- assert (SI : set_idf_path float_of X path (Some b) =
               (mkTfidf (mkIdf num path (iobj d (id_ltab d)) (il_median (tf_loader X))) (tf_freq X) (tf_median X) (tf_stop X), Some IndexError)).
             { unfold set_idf_path, set_new_path. destruct (str_eqb (il_path (tf_loader X)) path) eqn:EP;
                 [apply str_eqb_eq in EP; contradiction|]. rewrite UD, IL, IM. reflexivity. }
             eapply RET; eauto; cbn [then_ answer]; rewrite SI; cbn [fst snd tf_loader]; auto.
             split; [reflexivity|]. split; [exact LM|exact PA].
        * (* line 52 *)
          destruct CU as (IM & T & NE & TL & LM & PA & text & UD & IL). injection ST as E1 E2.
          apply (GS _ _ E1 E2); [exact VA| |intros r [R1 R2]; split; [split; [exact R1|intros []]|reflexivity]|reflexivity].
          cbn [set_pc]. split; [exact T|]. exists (mkIdf num path (iobj d (id_ltab d)) m). split.
          -- unfold set_new_path. destruct (str_eqb (il_path (tf_loader X)) path) eqn:EP; [apply str_eqb_eq in EP; contradiction|].
             rewrite UD, IL, IM. reflexivity.
          -- split; [reflexivity|]. split; [reflexivity|exact PA].
        * (* line 56 *)
          injection ST as E1 E2. eapply SAME; eauto; cbn; auto.
        * destruct CU as (-> & T & LO). injection ST as E1 E2. eapply SAME; eauto; cbn; auto.
        * (* line 73 *)
          destruct CU as (-> & -> & T & LO). injection ST as E1 E2. destruct VA as [V1 V2].
          apply (GS _ _ E1 E2); [split; exact V2| |intros r [R1 R2]; split; [split; [exact R1|intros []]|reflexivity]|unfold putting; cbn; lia].
          cbn [set_pc]. split; [reflexivity|]. split; [reflexivity|]. split; [apply T|exact LO].
        * destruct CU as (EQ & -> & ME & L & SN & LX). injection ST as E1 E2.
          assert (SI : set_idf_path float_of X path (Some b) = (mkTfidf L (il_freq L) (il_median L) (tf_stop X), None)).
          { unfold set_idf_path. rewrite SN. reflexivity. }
          eapply RET; eauto; cbn [then_ answer]; rewrite SI; cbn [fst snd tf_loader]; auto.
          destruct LX as (L1 & L2 & L3). split; cbn [tf_freq tf_median id_med]; [|exact L2]. unfold iobj in *. cbn [id_tab id_objs]. rewrite EQ. exact L1.
      + destruct p as [| | |lines|rest|k x r rest|r|vals|vals r|m| |r|r m|m|r|r m]; try contradiction; injection ST as E1 E2.
        * destruct CU as (-> & T & L). apply (GO _ _ E1 E2); [exact VA|intros; congruence| |intros; congruence| |reflexivity].
          -- intros w0 _. split; auto.
          -- intros r [R1 R2]. split; [split; [exact R1|intros []]|reflexivity].
        * destruct CU as (-> & -> & T & L). eapply RET; eauto. cbn [answer]. unfold value_in.
          destruct T as [-> ->]. reflexivity.
    - assert (ENTER : forall c p, d = d' -> mkIT dn (Some (c, p)) (tl td) = th' -> td = c :: tl td -> setter d (mkIT dn (Some (c, p)) (tl td)) ->
        ~ filling (mkIT dn (Some (c, p)) (tl td)) ->
        setter d' th' /\ (forall r, frozen d (mkIT dn None td) r -> frozen d' th' r /\ iobj d' r = iobj d r) /\
        length dn + putting (mkIT dn None td) <= length (it_done th') + putting th').
      { intros c p <- <- TD SE NF. split; [exact SE|]. split; [|cbn [it_done]; unfold putting at 1; cbn [it_cur]; lia].
        intros r [R1 R2]. split; [split; [exact R1|tauto]|reflexivity]. }
      destruct td as [|[path [b|]|w] td]; [discriminate|injection ST as E1 E2|injection ST as E1 E2|injection ST as E1 E2].
      + eapply ENTER; eauto. split; [exact VA|]. split; [exact MI|]. split; [exact DN|]. exact CU.
      + subst d' th'. cbn [app] in MI. pose proof (after_S _ _ _ MI) as AS.
        assert (LN : length (dn ++ [(ISet path None, @IDone num (Some PlainException))]) = S (length dn)) by (rewrite app_length; cbn; lia).
        split; [|split].
        * unfold setter. cbn [it_done it_cur it_todo app]. rewrite LN. split; [exact VA|].
          split; [rewrite map_app, <- app_assoc; exact MI|]. split.
          -- intros k c0 x0 N. destruct (lt_dec k (length dn)) as [K|K].
             ++ rewrite nth_error_app1 in N by exact K. exact (DN _ _ _ N).
             ++ rewrite nth_error_app2 in N by lia. destruct (k - length dn) as [|[|n]] eqn:KD; try discriminate.
                injection N as <- <-. reflexivity.
          -- rewrite AS. exact CU.
        * intros r [R1 R2]. split; [split; [exact R1|intros []]|reflexivity].
        * cbn [it_done]. rewrite LN. unfold putting. cbn [it_cur]. lia.
      + eapply ENTER; eauto. split; [exact VA|]. split; [exact MI|]. split; [exact DN|]. cbn [it_cur it_done]. auto.
  Qed.

  Definition reached (th0 : ithread num) : nat := length (it_done th0) + putting th0.

  Lemma now_ok d th0 : setter d th0 ->
    iobj d (id_tab d) = tf_freq (after (reached th0)) /\ id_med d = tf_median (after (length (it_done th0))) /\ frozen d th0 (id_tab d) /\
    reached th0 <= length prog.
  Proof.
    intros ([V1 V2] & MI & DN & CU). assert (LP := f_equal (@length _) MI). rewrite !app_length, map_length in LP.
    unfold reached, putting, frozen, filling. destruct (it_cur th0) as [[c p]|] eqn:EC.
    2: { rewrite Nat.add_0_r. destruct CU as [[T1 T2] _]. split; [exact T1|]. split; [exact T2|]. split; [split; [exact V1|intros []]|lia]. }
    destruct c as [path [b|]|w]; [|contradiction|].
    - cbn [length] in LP. cbn [app] in MI.
      destruct p as [| | |lines|rest|k x r rest|r|vals|vals r|m| |r|r m|m|r|r m]; try contradiction; cbn [set_pc] in CU; unfold loading, tx in CU;
        try solve [rewrite Nat.add_0_r; split; [apply CU|]; split; [apply CU|]; split; [split; [exact V1|intros []]|lia]];
        try solve [rewrite Nat.add_0_r; split; [apply CU|]; split; [apply CU|]; split; [split; [exact V1|intros _; apply CU]|lia]].
      destruct CU as (EQ & -> & ME & L & SN & L1 & L2 & L3). split; [|split; [exact ME|split; [split; [exact V1|intros []]|lia]]].
      rewrite Nat.add_1_r, (after_S _ _ _ MI). cbn [then_]. unfold set_idf_path. rewrite SN. cbn [fst tf_freq]. rewrite EQ. exact L1.
    - cbn [length] in LP. destruct p; try contradiction; rewrite Nat.add_0_r; unfold tx in CU;
        (split; [apply CU|]; split; [apply CU|]; split; [split; [exact V1|intros []]|lia]).
  Qed.

  Definition looked (n : nat) (w : str) (x : F num) : Prop :=
    exists i j, i <= n /\ j <= n /\ i <= S j /\ x = value_in (after i) (after j) w.

  Definition looker (d : idata num) (th0 th : ithread num) : Prop :=
    (forall c, In c (it_todo th) -> exists w, c = ILook w) /\
    (forall c x, In (c, x) (it_done th) -> exists w v, c = ILook w /\ x = IVal v /\ looked (length prog) w v) /\
    match it_cur th with
    | None => True
    | Some (ILook w, LMed r) => frozen d th0 r /\ exists i, i <= reached th0 /\ iobj d r = tf_freq (after i)
    | Some (ILook w, LGet r m) => frozen d th0 r /\ exists i j, i <= reached th0 /\ j <= reached th0 /\ i <= S j /\
        iobj d r = tf_freq (after i) /\ m = tf_median (after j)
    | _ => False
    end.

  Lemma looker_keep d th0 d' th0' th :
    (forall r, frozen d th0 r -> frozen d' th0' r /\ iobj d' r = iobj d r) -> reached th0 <= reached th0' ->
    looker d th0 th -> looker d' th0' th.
  Proof.
    intros FR LE (A & B & C). split; [exact A|]. split; [exact B|].
    destruct (it_cur th) as [[[path content|w] p]|]; auto. destruct p as [| | |lines|rest|k x r rest|r|vals|vals r|m| |r|r m|m|r|r m]; auto.
    - destruct C as (F1 & i & I & O). destruct (FR r F1) as [F2 ->]. split; auto. exists i. split; [lia|exact O].
    - destruct C as (F1 & i & j & I & J & IJ & O & M). destruct (FR r F1) as [F2 ->]. split; auto. exists i, j. repeat split; auto; lia.
  Qed.

  Lemma looker_step d th0 th d' th' : setter d th0 -> looker d th0 th -> istep float_of d th = Some (d', th') ->
    d' = d /\ looker d th0 th'.
  Proof.
    intros SE (A & B & C) ST. destruct (now_ok d th0 SE) as (N1 & N2 & N3 & N4).
    destruct th as [dn [[c p]|] td]; unfold istep in ST; cbn [it_done it_cur it_todo] in *.
    - destruct c as [path [b|]|w]; [contradiction|contradiction|].
      destruct p as [| | |lines|rest|k x r rest|r|vals|vals r|m| |r|r m|m|r|r m]; try contradiction; injection ST as <- <-; split; auto.
      + split; [exact A|]. split; [exact B|]. cbn [it_cur]. destruct C as (F1 & i & I & O). split; auto.
        exists i, (length (it_done th0)). unfold reached in *. repeat split; auto; try lia.
        unfold putting in *. destruct (it_cur th0) as [[? []]|]; lia.
      + split; [exact A|]. split; [|exact I]. cbn [it_done]. intros c0 x0 J. apply in_app_iff in J. destruct J as [J|[J|[]]]; [eauto|].
        injection J as <- <-. eexists w, _. split; [reflexivity|]. split; [reflexivity|].
        destruct C as (F1 & i & j & I & J & IJ & O & M). exists i, j. repeat split; try lia. unfold value_in. now rewrite O, M.
    - destruct td as [|c td]; [discriminate|]. destruct (A c (or_introl eq_refl)) as (w & ->). injection ST as <- <-. split; auto.
      split; [intros c0 J; apply A; right; exact J|]. split; [exact B|]. cbn [it_cur]. split; [exact N3|].
      exists (reached th0). split; [lia|exact N1].
  Qed.

  Lemma system_ok others d ts : (forall q, In q others -> forall c, In c q -> exists w, c = ILook w) ->
    isteps float_of (istart path0 tab0 med0 (prog :: others)) (d, ts) ->
    exists th0 rest, ts = th0 :: rest /\ setter d th0 /\ forall th, In th rest -> looker d th0 th.
  Proof.
    intros OT ST. remember (d, ts) as x eqn:E. revert d ts E.
    induction ST as [|d0 ts0 i th d' th' S IH N T]; intros d ts E; inversion E; subst.
    - eexists _, _. split; [reflexivity|]. split.
      + split; [split; cbn; lia|]. split; [reflexivity|]. split; [intros [|k] c x0 NN; discriminate|]. cbn [it_cur]. split; repeat split.
      + intros th I. apply in_map_iff in I. destruct I as (q & <- & I). split; [exact (OT q I)|]. split; [intros c x0 []|exact Logic.I].
    - destruct (IH d0 ts0 eq_refl) as (th0 & rest & -> & SE & LO). destruct i as [|i]; cbn [nth_error lput] in *.
      + injection N as ->. destruct (setter_step _ _ _ _ SE T) as (SE' & FR & LE). exists th', rest. split; [reflexivity|]. split; [exact SE'|].
        intros th1 I. eapply looker_keep; eauto.
      + apply nth_error_In in N as NI. destruct (looker_step _ _ _ _ _ SE (LO _ NI) T) as [-> LK].
        exists th0, (lput rest i th'). split; [reflexivity|]. split; [exact SE|]. intros th1 I. apply iput_In in I. destruct I as [-> |I]; auto.
  Qed.
End OneSetter.

(** ** The theorems *)

(** One thread changes the file, any number of others only look values up.  The thread that
    changes it gets what it gets alone, its own lookups included, and leaves the extractor as
    it leaves it alone.  What another thread gets is the value of the word in the whole table
    of one file of the sequence, or else the median of that file, of the one before, or of a
    later one: never anything half loaded. *)
Theorem C126_one_changes_it :
  forall (num : Num) (float_of : str -> option (F num)) (path : str) (tab : sdict (F num)) (med : F num)
         (prog : list icall) (others : list (list icall)) (d : idata num) (ts : list (ithread num)),
    (forall q c, In q others -> In c q -> exists w, c = ILook w) ->
    isteps float_of (istart path tab med (prog :: others)) (d, ts) ->
    let after := after float_of path tab med prog in
    exists th0 rest, ts = th0 :: rest /\
      (forall k c x, nth_error (it_done th0) k = Some (c, x) -> nth_error prog k = Some c /\ x = answer float_of (after k) c) /\
      (it_cur th0 = None -> it_todo th0 = [] ->
         length (it_done th0) = length prog /\
         iobj d (id_tab d) = tf_freq (after (length prog)) /\ id_med d = tf_median (after (length prog))) /\
      (forall th w x, In th rest -> In (ILook w, IVal x) (it_done th) ->
         exists i j, i <= length prog /\ j <= length prog /\ i <= S j /\ x = value_in (after i) (after j) w).
Proof.
  intros num float_of path tab med prog others d ts OT ST after.
  destruct (system_ok float_of path tab med prog others d ts (fun q I c J => OT q c I J) ST) as (th0 & rest & -> & SE & LO).
  exists th0, rest. split; [reflexivity|]. destruct SE as (VA & MI & DN & CU). split; [|split].
  - intros k c x N. split; [|exact (DN _ _ _ N)]. rewrite <- MI. rewrite nth_error_app1 by (rewrite map_length; apply nth_error_Some; congruence).
    rewrite nth_error_map, N. reflexivity.
  - intros E1 E2. rewrite E1 in CU. rewrite E1, E2, app_nil_r in MI. assert (L : length (it_done th0) = length prog) by (rewrite <- MI; now rewrite map_length).
    split; [exact L|]. unfold after. rewrite <- L. exact (proj1 CU).
  - intros th w x I J. destruct (LO th I) as (_ & B & _). destruct (B _ _ J) as (w' & v & E1 & E2 & LK). injection E1 as <-. injection E2 as <-. exact LK.
Qed.

Lemma In_sset {V} (d : sdict V) k v k' v' : In (k', v') (sset d k v) -> (k' = k /\ v' = v) \/ In (k', v') d.
Proof.
  unfold sset. induction d as [|[k1 v1] d IH]; cbn [dset].
  - intros [E|[]]. injection E as <- <-. auto.
  - destruct (str_eqb k k1) eqn:EK; intros [E|E].
    + injection E as <- <-. left. split; auto. apply str_eqb_eq in EK. auto.
    + right. right. exact E.
    + right. left. exact E.
    + destruct (IH E) as [X|X]; auto. right. right. exact X.
Qed.
Lemma In_sget {V} (d : sdict V) k v : sget d k = Some v -> In (k, v) d.
Proof.
  unfold sget. induction d as [|[k1 v1] d IH]; cbn [dget]; [discriminate|].
  destruct (str_eqb k k1) eqn:EK; intros E; [|right; auto]. injection E as <-. apply str_eqb_eq in EK. subst. left. reflexivity.
Qed.
Lemma In_insert_asc {A} (lt : A -> A -> bool) x l y : In y (insert_asc lt x l) -> y = x \/ In y l.
Proof. induction l as [|z l IH]; cbn; [intuition|]. destruct (lt z x); cbn; intuition. Qed.
Lemma In_sorted_asc {A} (lt : A -> A -> bool) l y : In y (sorted_asc lt l) -> In y l.
Proof. induction l as [|z l IH]; cbn; auto. intros I. apply In_insert_asc in I. intuition. Qed.

Section Anything.
  Context {num : Num}.
  Variable float_of : str -> option (F num).
  Variables (path0 : str) (tab0 : sdict (F num)) (med0 : F num).
  Variable progs : list (list icall).
  Notation gives := (gives float_of progs).

  Definition usual (x : F num) : Prop := x = med0 \/ exists v, gives v x.
  Definition data_ok (d : idata num) : Prop :=
    1 <= length (id_objs d) /\ iobj d 0 = tab0 /\ (forall r w x, 1 <= r -> In (w, x) (iobj d r) -> gives w x) /\
    usual (id_lmed d) /\ usual (id_med d).
  (** the lines are from the file of the call *)
  Definition from_file (c : icall) (lines : list str) : Prop :=
    exists path b text, c = ISet path (Some b) /\ utf8_decode b = Some text /\ incl lines (splitlines text).
  Definition pc_ok (d : idata num) (c : icall) (p : ipc num) : Prop :=
    match p with
    | INew lines => from_file c lines
    | INext rest => from_file c rest /\ 1 <= id_ltab d
    | IStore w x r rest => from_file c rest /\ gives w x /\ 1 <= r /\ 1 <= id_ltab d
    | IVals r => 1 <= r
    | ILen vals | IIdx vals _ => forall x, In x vals -> exists v, gives v x
    | IMed m | IPut _ m | IPut2 m | LGet _ m => usual m
    | _ => True
    end.
  Definition found (w : str) (x : F num) : Prop := sget tab0 w = Some x \/ gives w x \/ usual x.
  Definition any_ok (d : idata num) (th : ithread num) : Prop :=
    In (map fst (it_done th) ++ (match it_cur th with Some (c, _) => [c] | None => [] end) ++ it_todo th) progs /\
    (forall w x, In (ILook w, IVal x) (it_done th) -> found w x) /\
    (forall c p, it_cur th = Some (c, p) -> pc_ok d c p).

  Lemma pc_keep d d' c p : (1 <= id_ltab d -> 1 <= id_ltab d') -> pc_ok d c p -> pc_ok d' c p.
  Proof. intros L. destruct p; cbn [pc_ok]; intuition. Qed.

  Lemma any_step d th d' th' : data_ok d -> any_ok d th -> istep float_of d th = Some (d', th') ->
    data_ok d' /\ any_ok d' th' /\ (1 <= id_ltab d -> 1 <= id_ltab d').
  Proof.
    intros (D1 & D2 & D3 & D4 & D5) (MI & DN & CU) ST.
    destruct th as [dn [[c p]|] td]; unfold istep in ST; cbn [it_done it_cur it_todo] in *.
    - specialize (CU c p eq_refl).
      assert (DO : data_ok d) by (repeat split; assumption).
      assert (GO : forall d1 p1, Some (d1, mkIT dn (Some (c, p1)) td) = Some (d', th') -> data_ok d1 -> pc_ok d1 c p1 ->
        (1 <= id_ltab d -> 1 <= id_ltab d1) -> data_ok d' /\ any_ok d' th' /\ (1 <= id_ltab d -> 1 <= id_ltab d')).
      { intros d1 p1 E DD PP LL. injection E as <- <-. split; auto. split; auto. split; [exact MI|]. split; [exact DN|].
        cbn [it_cur]. intros c0 p0 E0. injection E0 as <- <-. exact PP. }
      assert (RET : forall d1 x, Some (d1, mkIT (dn ++ [(c, x)]) None td) = Some (d', th') -> data_ok d1 ->
        (forall w v, c = ILook w -> x = IVal v -> found w v) -> (1 <= id_ltab d -> 1 <= id_ltab d1) ->
        data_ok d' /\ any_ok d' th' /\ (1 <= id_ltab d -> 1 <= id_ltab d')).
      { intros d1 x E DD FX LL. injection E as <- <-. split; auto. split; auto. split; [|split].
        - cbn [it_done it_cur it_todo app]. rewrite map_app, <- app_assoc. exact MI.
        - cbn [it_done]. intros w v J. apply in_app_iff in J. destruct J as [J|[J|[]]]; auto. injection J as -> ->. auto.
        - discriminate. }
      destruct c as [path [b|]|w]; cbv zeta in ST.
      + assert (BR : forall d1 e, Some (d1, mkIT (dn ++ [(ISet path (Some b), IDone e)]) None td) = Some (d', th') -> data_ok d1 ->
          (1 <= id_ltab d -> 1 <= id_ltab d1) -> data_ok d' /\ any_ok d' th' /\ (1 <= id_ltab d -> 1 <= id_ltab d')).
        { intros d1 e E DD LL. eapply RET; eauto. intros; discriminate. }
        destruct p as [| | |lines|[|line rest]|k x r rest|r|vals|vals r|m| |r|r m|m|r|r m]; try discriminate ST; cbn [pc_ok] in CU.
        * eapply GO; eauto. destruct (str_eqb (id_path d) path); exact I.
        * eapply GO; eauto; exact I.
        * destruct (utf8_decode b) as [text|] eqn:UD; [|eapply BR; eauto].
          eapply GO; eauto. exists path, b, text. split; auto. split; auto. apply incl_refl.
        * refine (GO _ _ ST _ _ _); cbn [id_ltab].
          -- split; [cbn [id_objs]; rewrite app_length; cbn; lia|]. unfold iobj in *. cbn [id_objs id_lmed id_med].
             split; [rewrite app_nth1 by lia; exact D2|]. split; auto. intros r w x R J.
             destruct (lt_dec r (length (id_objs d))) as [L|L]; [rewrite app_nth1 in J by exact L; eauto|].
             rewrite app_nth2 in J by lia. destruct (r - length (id_objs d)) as [|[|n]]; destruct J.
          -- split; [exact CU|exact D1].
          -- intros _. exact D1.
        * eapply GO; eauto. cbn [pc_ok]. apply CU.
        * destruct CU as [(path' & b' & text & EC & UD & IN) LT]. injection EC as <- <-.
          destruct (idf_line float_of line) as [[w x]|] eqn:EL; [|eapply BR; eauto].
          eapply GO; eauto. cbn [pc_ok]. split; [exists path, b, text; split; auto; split; auto; intros y J; apply IN; right; exact J|].
          split; [|split; exact LT]. eexists _, path, b, text, line. split; [exact MI|].
          split; [apply in_app_iff; right; left; reflexivity|]. split; auto. split; [apply IN; left; reflexivity|exact EL].
        * destruct CU as (FF & GV & R1 & LT).
          assert (LO : forall q, nth q (lput (id_objs d) r (sset (iobj d r) k x)) [] = if (q =? r) && (r <? length (id_objs d)) then sset (iobj d r) k x else iobj d q).
          { intros q. destruct (r <? length (id_objs d)) eqn:RL.
            - apply Nat.ltb_lt in RL. rewrite iput_nth by exact RL. rewrite andb_true_r. reflexivity.
            - apply Nat.ltb_ge in RL. rewrite andb_false_r. unfold iobj at 2. f_equal. generalize (sset (iobj d r) k x) as z. clear -RL. intros z. revert r RL.
              generalize (id_objs d) as l. induction l as [|y l IH]; intros [|r] RL; cbn [lput length] in *; try lia; auto. f_equal. apply IH. lia. }
          refine (GO _ _ ST _ _ _); [|split; [exact FF|exact LT]|auto].
          split; [cbn [id_objs]; rewrite iput_length; exact D1|]. unfold iobj at 1 3. cbn [id_objs id_lmed id_med].
          split; [rewrite LO; destruct r as [|r]; [lia|exact D2]|]. split; auto.
          intros q w y Q J. unfold iobj in J at 1. cbn [id_objs] in J. rewrite LO in J. destruct ((q =? r) && (r <? length (id_objs d))); [|eauto].
          apply In_sset in J. destruct J as [[-> ->]|J]; eauto.
        * eapply GO; eauto. cbn [pc_ok]. intros x J. apply In_sorted_asc in J. apply in_map_iff in J. destruct J as ([w y] & <- & J). eauto.
        * eapply GO; eauto.
        * destruct (nth_error vals (length (iobj d r) / 2)) as [m|] eqn:NE; [|eapply BR; eauto].
          eapply GO; eauto. cbn [pc_ok]. right. apply CU. apply nth_error_In in NE. exact NE.
        * eapply GO; eauto; try exact I; repeat split; assumption.
        * eapply GO; eauto; exact I.
        * eapply GO; eauto.
        * eapply GO; eauto; repeat split; assumption.
        * eapply BR; eauto; repeat split; assumption.
      + destruct p; discriminate ST.
      + destruct p as [| | |lines|rest|k x r rest|r|vals|vals r|m| |r|r m|m|r|r m]; try discriminate ST; cbn [pc_ok] in CU.
        * eapply GO; eauto.
        * eapply RET; eauto. intros w0 v E1 E2. injection E1 as <-. injection E2 as <-.
          destruct (sget (iobj d r) w) as [x|] eqn:EG; [|right; right; exact CU].
          apply In_sget in EG as IG. destruct r as [|r]; [left; rewrite D2 in EG; exact EG|]. right. left. eapply D3; [|exact IG]. lia.
    - assert (DO : data_ok d) by (repeat split; assumption).
      destruct td as [|[path [b|]|w] td]; [discriminate|injection ST as <- <-|injection ST as <- <-|injection ST as <- <-]; split; auto; split; auto.
      + split; [exact MI|]. split; [exact DN|]. cbn [it_cur]. intros c p E. injection E as <- <-. exact I.
      + split; [cbn [it_done it_cur it_todo app]; rewrite map_app, <- app_assoc; exact MI|]. split; [|discriminate].
        cbn [it_done]. intros w x J. apply in_app_iff in J. destruct J as [J|[J|[]]]; auto. discriminate.
      + split; [exact MI|]. split; [exact DN|]. cbn [it_cur]. intros c p E. injection E as <- <-. exact I.
  Qed.

  Lemma any_steps d ts : isteps float_of (istart path0 tab0 med0 progs) (d, ts) -> data_ok d /\ forall th, In th ts -> any_ok d th.
  Proof.
    intros ST. remember (d, ts) as x eqn:E. revert d ts E.
    induction ST as [|d0 ts0 i th d' th' S IH N T]; intros d ts E; inversion E; subst.
    - split.
      + split; [cbn; lia|]. split; [reflexivity|]. split; [|split; left; reflexivity]. intros [|[|r]] w x R J; [lia|destruct J|destruct J].
      + intros th I. apply in_map_iff in I. destruct I as (q & <- & I). split; [exact I|]. split; [intros w x []|discriminate].
    - destruct (IH d0 ts0 eq_refl) as (DO & A). apply nth_error_In in N. destruct (any_step _ _ _ _ DO (A _ N) T) as (DO' & A' & L).
      split; [exact DO'|]. intros th1 I. apply iput_In in I. destruct I as [-> |I]; auto.
      destruct (A _ I) as (B1 & B2 & B3). split; auto. split; auto. intros c p EC. eapply pc_keep; eauto.
  Qed.
End Anything.

(** Any number of threads change the file and look values up, in any interleaving: a value is
    the one the table of the beginning or a line of one of the files gives this very word, or
    it is the median of the beginning or a number of one of the files. *)
Theorem C126_where_from :
  forall (num : Num) (float_of : str -> option (F num)) (path : str) (tab : sdict (F num)) (med : F num)
         (progs : list (list icall)) (d : idata num) (ts : list (ithread num)) (th : ithread num) (w : str) (x : F num),
    isteps float_of (istart path tab med progs) (d, ts) -> In th ts -> In (ILook w, IVal x) (it_done th) ->
    sget tab w = Some x \/ gives float_of progs w x \/ x = med \/ exists v, gives float_of progs v x.
Proof.
  intros num float_of path tab med progs d ts th w x ST I J. destruct (any_steps float_of path tab med progs d ts ST) as [_ A].
  destruct (A th I) as (_ & B & _). destruct (B w x J) as [X|[X|X]]; auto.
Qed.

(** ** Cases *)

(** running the threads in a given order *)
Fixpoint isched {num} (float_of : str -> option (F num)) (s : idata num * list (ithread num)) (order : list nat) : option (idata num * list (ithread num)) :=
  match order with
  | [] => Some s
  | i :: order' =>
      match nth_error (snd s) i with
      | None => None
      | Some th =>
          match istep float_of (fst s) th with
          | None => None
          | Some (d', th') => isched float_of (d', lput (snd s) i th') order'
          end
      end
  end.
Lemma isched_steps {num} (float_of : str -> option (F num)) order : forall s0 s s',
  isteps float_of s0 s -> isched float_of s order = Some s' -> isteps float_of s0 s'.
Proof.
  induction order as [|i order IH]; intros s0 [d ts] s' S E; cbn in E; [injection E as <-; exact S|].
  destruct (nth_error ts i) as [th|] eqn:N; [|discriminate]. destruct (istep float_of d th) as [[d' th']|] eqn:T; [|discriminate].
  eapply IH; [|exact E]. eapply i_more; eauto.
Qed.
Definition all_off {num} (ts : list (ithread num)) : Prop := Forall (fun th => it_cur th = None /\ it_todo th = []) ts.

(** a digit *)
Definition digit (s : str) : option (F numQ) :=
  match s with [c] => Some (QArith_base.inject_Z (Z.of_N c - 48)) | _ => None end.
Notation q z := (QArith_base.inject_Z z : F numQ) (only parsing).
(** "a 3", "b 5" *)
Definition file3 : bytes := [97; 32; 51; 10; 98; 32; 53; 10]%N.
(** "c" 4, "d" 2, "e" 1: the median is 2 *)
Definition tab3 : sdict (F numQ) := [([99]%N, q 4); ([100]%N, q 2); ([101]%N, q 1)].
Definition po : str := [111]%N.
Definition pp : str := [112]%N.

(** the table of the file *)
Definition new3 : sdict (F numQ) := [([97]%N, q 3); ([98]%N, q 5)].
Definition set3 : icall := ISet pp (Some file3).
Definition over (l : list (icall * iret numQ)) : ithread numQ := mkIT l None [].
Lemma off_over ls : all_off (map over ls).
Proof. apply Forall_forall. intros th I. apply in_map_iff in I. destruct I as (l & <- & _). split; reflexivity. Qed.

(** A word whose value is 4 before the file is changed and 5 after: it can be looked up as 2
    meanwhile (its old value is gone, and the median is still the old one). *)
Theorem C126_before_or_after_refuted :
  exists d ts, isteps digit (istart po tab3 (q 2) [[set3]; [ILook [99]%N]]) (d, ts) /\ all_off ts /\
    map it_done ts = [[(set3, IDone None)]; [(ILook [99]%N, IVal (q 2))]] /\
    answer digit (after digit po tab3 (q 2) [set3] 0) (ILook [99]%N) = IVal (q 4) /\
    answer digit (after digit po tab3 (q 2) [set3] 1) (ILook [99]%N) = IVal (q 5).
Proof.
  exists (mkID [tab3; new3] pp 1 (q 5) 1 (q 5)), (map over [[(set3, IDone None)]; [(ILook [99]%N, IVal (q 2))]]).
  split; [|split; [apply off_over|split; [reflexivity|split; [vm_cast_no_check (eq_refl (@IVal numQ (q 4)))|vm_cast_no_check (eq_refl (@IVal numQ (q 5)))]]]].
  eapply isched_steps with (order := repeat 0 17 ++ [1; 1; 1; 0]); [apply i_zero|].
  match goal with |- _ = ?r => vm_cast_no_check (eq_refl r) end.
Qed.

(** Two threads set the same good file, both return, and the extractor still has the table
    and the median of the beginning. *)
Theorem C126_file_set_refuted :
  exists d ts, isteps digit (istart po tab3 (q 2) [[set3]; [set3]]) (d, ts) /\ all_off ts /\
    map it_done ts = [[(set3, IDone None)]; [(set3, IDone None)]] /\
    iobj d (id_tab d) = tab3 /\ id_med d = q 2 /\
    tf_freq (after digit po tab3 (q 2) [set3; set3] 2) = new3 /\ new3 <> tab3.
Proof.
  exists (mkID [tab3; new3] pp 1 (q 5) 0 (q 2)), (map over [[(set3, IDone None)]; [(set3, IDone None)]]).
  split; [|split; [apply off_over|split; [reflexivity|split; [reflexivity|split; [reflexivity|split; [vm_cast_no_check (eq_refl new3)|discriminate]]]]]].
  eapply isched_steps with (order := [0; 0; 0] ++ [1; 1; 1; 1] ++ repeat 0 15 ++ [1; 1]); [apply i_zero|].
  match goal with |- _ = ?r => vm_cast_no_check (eq_refl r) end.
Qed.

(** Two threads set the same good file; one raises IndexError. *)
Theorem C126_no_exception_refuted :
  exists d ts, isteps digit (istart po tab3 (q 2) [[set3]; [set3]]) (d, ts) /\ all_off ts /\
    map it_done ts = [[(set3, IDone (Some IndexError))]; [(set3, IDone None)]] /\
    answer digit (after digit po tab3 (q 2) [] 0) set3 = IDone None.
Proof.
  exists (mkID [tab3; new3; new3] pp 2 (q 5) 2 (q 5)), (map over [[(set3, IDone (Some IndexError))]; [(set3, IDone None)]]).
  split; [|split; [apply off_over|split; [reflexivity|vm_cast_no_check (eq_refl (@IDone numQ None))]]].
  eapply isched_steps with (order := [0; 0; 1; 1] ++ [0; 0; 0; 0; 0; 0; 0] ++ [1; 1; 1] ++ [0; 0; 0; 0] ++ repeat 1 13); [apply i_zero|].
  match goal with |- _ = ?r => vm_cast_no_check (eq_refl r) end.
Qed.

(** one thread sets a file, one with a malformed line, the same once more, and looks up; another looks up meanwhile *)
Definition bad3 : bytes := [97; 32; 55; 10; 120; 10]%N.
Definition setbad : icall := ISet po (Some bad3).
Example C126_nonvacuous :
  let prog := [set3; setbad; ILook [97]%N; setbad; ILook [97]%N] in
  exists d ts, isteps digit (istart po tab3 (q 2) [prog; [ILook [99]%N; ILook [97]%N]]) (d, ts) /\ all_off ts /\
    map it_done ts =
      [combine prog [IDone None; IDone (Some ValueError); IVal (q 3); IDone None; IVal (q 7)];
       [(ILook [99]%N, IVal (q 4)); (ILook [97]%N, IVal (q 3))]].
Proof.
  intros prog.
  exists (mkID [tab3; new3; [([97]%N, q 7)]] po 2 (q 5) 2 (q 5)),
    (map over [combine prog [IDone None; IDone (Some ValueError); IVal (q 3); IDone None; IVal (q 7)];
       [(ILook [99]%N, IVal (q 4)); (ILook [97]%N, IVal (q 3))]]).
  split; [|split; [apply off_over|reflexivity]].
  eapply isched_steps with (order := [0; 0; 0; 0; 0; 1; 1] ++ repeat 0 13 ++ [1; 1] ++ repeat 0 5 ++ [1; 1] ++ repeat 0 15); [apply i_zero|].
  match goal with |- _ = ?r => vm_cast_no_check (eq_refl r) end.
Qed.

Print Assumptions C126_one_changes_it.
Print Assumptions C126_where_from.
Print Assumptions C126_before_or_after_refuted.
Print Assumptions C126_file_set_refuted.
Print Assumptions C126_no_exception_refuted.
