(** * C24: from the bytes of a dictionary file to the dictionary; C46: names of the cache files *)
From Coq Require Import String.
From Verif Require Import PyBase PyRegex PyNum PyUtf8 ModelFinalseg ModelSeg ModelDict ModelInit SpecBase SpecDict SpecLines SpecStop
  Demo ProofsBase PropsDict.

Lemma file_lines_line l b : ~ In 10%N l -> file_lines (l ++ 10%N :: b) = (l ++ [10%N]) :: file_lines b.
Proof.
  induction l as [|x l IH]; intros N; cbn [app file_lines].
  - reflexivity.
  - assert (x <> 10%N) by (intros ->; apply N; cbn; auto). rewrite (proj2 (N.eqb_neq x 10)) by auto.
    rewrite IH by (intros I; apply N; cbn; auto). reflexivity.
Qed.

Lemma file_lines_last l : ~ In 10%N l -> file_lines l = match l with [] => [] | _ => [l] end.
Proof.
  induction l as [|x l IH]; intros N; cbn [file_lines]; auto.
  assert (x <> 10%N) by (intros ->; apply N; cbn; auto). rewrite (proj2 (N.eqb_neq x 10)) by auto.
  rewrite IH by (intros I; apply N; cbn; auto). destruct l; reflexivity.
Qed.

(** reading a file in binary mode gives its lines, and a file has lines in one way only *)
Theorem C24_lines_of_a_file : forall b ls, lines_of b ls <-> file_lines b = ls.
Proof.
  assert (A : forall b ls, lines_of b ls -> file_lines b = ls).
  { intros b ls (full & last & -> & -> & F). inversion F as [|? ? NL FF]; subst. clear F.
    induction FF as [|l full N FF IH]; cbn [map app].
    - destruct last; [reflexivity|]. cbn [concat]. rewrite app_nil_r. rewrite file_lines_last by auto. reflexivity.
    - cbn [concat]. rewrite <- app_assoc. cbn [app]. rewrite file_lines_line by auto. rewrite IH. reflexivity. }
  intros b ls. split; [apply A|]. intros <-.
  assert (E : exists ls, lines_of b ls).
  { induction b as [|x b (ls & full & last & -> & E & F)]; [exists [], [], []; cbn; repeat split; auto|].
    inversion F as [|? ? NL FF]; subst. destruct (N.eq_dec x 10) as [->|NX].
    - eexists. exists ([] :: full), last. split; [reflexivity|]. split; [cbn; f_equal; exact E|].
      constructor; auto.
    - destruct full as [|l full].
      + eexists. exists [], (x :: last). split; [reflexivity|]. split; [cbn; f_equal; rewrite app_nil_r; destruct last; cbn in *; rewrite ?app_nil_r in *; auto|].
        constructor; auto. cbn. intuition congruence.
      + inversion FF; subst. eexists. exists ((x :: l) :: full), last. split; [reflexivity|]. split; [cbn; f_equal; exact E|].
        constructor; auto. constructor; auto. cbn. intuition congruence. }
  destruct E as [ls L]. rewrite (A _ _ L). exact L.
Qed.

(** what [initialize] builds from a dictionary file *)
Theorem C24_dictionary_file :
  forall (e : env) (fs : path -> option file) (p : option path) (f : file) (ls : list bytes) (es : list (str * Z)),
    fs (match p with None => e_default e | Some a => a end) = Some f ->
    lines_of (f_bytes f) ls ->
    Forall2 (fun line en => dict_line line (fst en) (snd en)) ls es ->
    exists fr, ModelInit.build e fs p = Ok (fr, fold_right Z.add 0%Z (map snd es)) /\
      forall k, sget fr k =
        match last_freq es k with
        | Some n => Some n
        | None => if existsb (fun en => is_prefix k (fst en)) es then Some 0%Z else None
        end.
Proof.
  intros e fs p f ls es F L D. unfold ModelInit.build, dict_path. rewrite F. apply C24_lines_of_a_file in L. rewrite L.
  apply C24_file_read_faithfully. exact D.
Qed.

(** "北京 5\n北京 12" (the last line without a newline) *)
Example C24_dictionary_file_nonvacuous :
  let last := [0xE5; 0x8C; 0x97; 0xE4; 0xBA; 0xAC; 32; 49; 50]%N in
  lines_of (bj_line ++ last) [bj_line; last] /\
  Forall2 (fun line en => dict_line line (fst en) (snd en)) [bj_line; last] [([c_bei; c_jing], 5%Z); ([c_bei; c_jing], 12%Z)].
Proof.
  intros last. split.
  - exists [removelast bj_line], last. split; [vm_compute; reflexivity|]. split; [vm_compute; reflexivity|].
    repeat constructor; vm_compute; intuition discriminate.
  - repeat constructor.
    + exists [53%N], None, [0xE5; 0x8C; 0x97; 0xE4; 0xBA; 0xAC; 32; 53]%N, [10%N].
      repeat split; try discriminate; repeat constructor. vm_compute. intuition discriminate.
    + exists [49; 50]%N, None, last, [].
      repeat split; try discriminate; repeat constructor. vm_compute. intuition discriminate.
Qed.

(** The cache file of the packaged dictionary is [jieba.cache]; of another dictionary it is
    [jieba.u<digest of its path>.cache]; in the directory for temporary files.  The attributes
    [tmp_dir] and [cache_file] of the tokenizer take precedence if they are not empty. *)
Theorem C46_cache_file_names :
  forall (e : env) (m : mem) (p : option path),
    let dir := match m_tmpdir m with Some (c :: d) => c :: d | _ => e_tmp e end in
    cache_path e m p =
    e_join e dir
      match m_cache m, p with
      | Some (c :: f), _ => c :: f
      | _, None => text_of "jieba.cache"
      | _, Some a => text_of "jieba.u" ++ e_md5 e a ++ text_of ".cache"
      end.
Proof.
  intros e m p dir. unfold cache_path, dir, or_else. destruct (m_tmpdir m) as [[|c d]|], (m_cache m) as [[|c' f']|], p; reflexivity.
Qed.

Print Assumptions C24_lines_of_a_file.
Print Assumptions C24_dictionary_file.
Print Assumptions C46_cache_file_names.
