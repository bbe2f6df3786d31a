(** * C111: accurate mode, search mode and full mode *)
From Coq Require Import Lia.
From Verif Require Import PyBase PyRegex PyNum ModelFinalseg ModelSeg ModelDict
  SpecBase SpecSeg SpecFull InstQ ProofsBase ProofsSearch Demo ProofsDemo PropsCut PropsFull.

Lemma given_in_text (s : str) ws w : prefix_of (concat ws) s -> In w ws -> exists x y, s = x ++ w ++ y.
Proof.
  intros [t ->] I. apply in_split in I. destruct I as (a & b & ->). rewrite concat_app. cbn [concat].
  exists (concat a), (concat b ++ t). now rewrite <- !app_assoc.
Qed.

Lemma expand_cases (D : dictionary) v w : In w (expand D v) -> w = v \/ (is_word D w /\ exists x y, v = x ++ w ++ y).
Proof.
  unfold expand. intros I. rewrite !in_app_iff in I. destruct I as [I|[I|[<-|[]]]]; auto; right.
  all: apply in_map_iff in I; destruct I as (i & <- & I); unfold inner_words in I;
    match type of I with In _ (if ?b then _ else _) => destruct b eqn:L end; [|destruct I];
    apply filter_In in I; destruct I as [_ W]; split;
    [unfold wordb in W; unfold is_word; destruct (D _) as [n|]; [|discriminate W]; exists n; split; auto; intros ->; discriminate W|].
  all: unfold sub; exists (firstn i v); eexists (skipn _ (skipn i v)); rewrite (firstn_skipn _ (skipn i v)), firstn_skipn; reflexivity.
Qed.

(** ** C111: a dictionary word that accurate mode or search mode gives is given by full mode *)
Theorem C111_dictionary_words :
  forall (num : Num) (H : hmm num) (HMM HMM' : bool) (fr : freqs) (total : Z) (force : list str) (s w : str),
    prefix_closed (sget fr) ->
    In w (fst (cut num H (mode_of false HMM) fr total force s)) \/
    In w (fst (cut_for_search num H HMM fr total force s)) ->
    is_word (sget fr) w -> 2 <= length w -> ~ starts_alnum w -> Forall (fun c => word_char c = true) w ->
    In w (fst (cut num H (mode_of true HMM') fr total force s)).
Proof.
  intros num H HMM HMM' fr total force s w PC I W L NA WC.
  destruct (C01_accurate_prefix num H HMM fr total force s) as [P _].
  assert (X : exists x y, s = x ++ w ++ y).
  { destruct I as [I|I]; [eapply given_in_text; eauto|]. rewrite C10_search_mode in I. cbn [fst] in I.
    apply in_flat_map in I. destruct I as (v & Iv & I). destruct (given_in_text _ _ _ P Iv) as (x & y & ->).
    apply expand_cases in I. destruct I as [->|(_ & a & b & ->)]; [eauto|].
    exists (x ++ a), (b ++ y). now rewrite <- !app_assoc. }
  destruct X as (x & y & ->). apply C04_full_mode_complete; auto.
Qed.

(** without HMM: every word of two or more characters without letters and digits *)
Theorem C111_without_hmm :
  forall (num : Num) (H : hmm num) (HMM' : bool) (fr : freqs) (total : Z) (force : list str) (s w : str),
    sane (sget fr) total -> prefix_closed (sget fr) ->
    In w (fst (cut_for_search num H false fr total force s)) ->
    2 <= length w -> Forall (fun c => word_char c = true /\ is_alnum c = false) w ->
    In w (fst (cut num H (mode_of true HMM') fr total force s)).
Proof.
  intros num H HMM' fr total force s w SA PC I L FA.
  assert (HC : exists c t, w = c :: t /\ word_char c = true /\ is_alnum c = false).
  { destruct w as [|c t]; [cbn in L; lia|]. inversion FA as [|? ? [A B] _]; subst. eauto. }
  apply (C111_dictionary_words num H false HMM'); auto.
  - pose proof I as I'. rewrite C10_search_mode in I'. cbn [fst] in I'. apply in_flat_map in I'. destruct I' as (v & Iv & I').
    apply expand_cases in I'. destruct I' as [->|[W _]]; auto.
    destruct (C09_only_known_words num H fr total force s v SA PC Iv) as [W|[E|[E|F]]]; auto; exfalso.
    + lia.
    + subst v. inversion FA as [|? ? [A _] _]; subst. discriminate A.
    + destruct HC as (c & t & -> & _ & AL). inversion F; subst. congruence.
  - destruct HC as (c & t & -> & _ & AL). cbn. congruence.
  - eapply Forall_impl; [|exact FA]. cbn. tauto.
Qed.

(** words found by the HMM are not given by full mode; words of four characters inside a
    longer word are not given by search mode; single characters of accurate mode can be missing *)
Definition five_fr : freqs :=
  d_freq (build [([c_bei; c_jing; c_da; c_xue; c_sheng], 5%Z); ([c_bei; c_jing; c_da; c_xue], 5%Z)]).
Definition five : str := [c_bei; c_jing; c_da; c_xue; c_sheng].

Theorem C111_full_in_search_refuted :
  exists fr s w, prefix_closed (sget fr) /\ is_word (sget fr) w /\ 2 <= length w /\
    In w (fst (cut numQ demo_hmm (mode_of true false) fr 10 [] s)) /\
    ~ In w (fst (cut_for_search numQ demo_hmm false fr 10 [] s)).
Proof.
  exists five_fr, five, [c_bei; c_jing; c_da; c_xue]. split; [apply prefix_closedb_ok; vm_compute; reflexivity|].
  split; [exists 5%Z; split; [vm_compute; reflexivity|lia]|]. split; [cbn; lia|]. split; [vm_compute; auto|].
  vm_compute. intros [E|[]]. discriminate E.
Qed.

Theorem C111_hmm_words_refuted :
  exists fr total s w, prefix_closed (sget fr) /\ sane (sget fr) total /\ 2 <= length w /\
    In w (fst (cut numQ demo_hmm (mode_of false true) fr total [] s)) /\
    ~ In w (fst (cut numQ demo_hmm (mode_of true true) fr total [] s)).
Proof.
  exists five_fr, 10%Z, [c_lai; c_dao], [c_lai; c_dao]. split; [apply prefix_closedb_ok; vm_compute; reflexivity|].
  split; [apply saneb_ok; vm_compute; reflexivity|]. split; [cbn; lia|]. split; [vm_compute; auto|].
  vm_compute. intros [E|[E|[]]]; discriminate E.
Qed.

(** "ab" rare, "bc" frequent: accurate mode gives "a", full mode does not *)
Definition abc_fr : freqs := d_freq (build [([c_bei; c_jing], 1%Z); ([c_jing; c_da], 50%Z)]).

Theorem C111_single_characters_refuted :
  exists fr total s w, prefix_closed (sget fr) /\ sane (sget fr) total /\ length w = 1 /\
    In w (fst (cut numQ demo_hmm (mode_of false false) fr total [] s)) /\
    ~ In w (fst (cut numQ demo_hmm (mode_of true false) fr total [] s)).
Proof.
  exists (sset abc_fr [c_bei] 20%Z), 100%Z, [c_bei; c_jing; c_da], [c_bei]. split; [apply prefix_closedb_ok; vm_compute; reflexivity|].
  split; [apply saneb_ok; vm_compute; reflexivity|]. split; [reflexivity|]. split; [vm_compute; auto|].
  vm_compute. intros [E|[E|[]]]; discriminate E.
Qed.

Example C111_nonvacuous :
  prefix_closed (sget demo_fr) /\ sane (sget demo_fr) demo_total /\
  let w := [c_da; c_xue] in
  In w (fst (cut_for_search numQ demo_hmm false demo_fr demo_total [] [c_da; c_xue; c_sheng])) /\
  ~ In w (fst (cut numQ demo_hmm (mode_of false false) demo_fr demo_total [] [c_da; c_xue; c_sheng])) /\
  In w (fst (cut numQ demo_hmm (mode_of true false) demo_fr demo_total [] [c_da; c_xue; c_sheng])) /\
  is_word (sget demo_fr) w /\ Forall (fun c => word_char c = true /\ is_alnum c = false) w.
Proof.
  split; [apply prefix_closedb_ok; vm_compute; reflexivity|]. split; [apply saneb_ok; vm_compute; reflexivity|]. cbv zeta.
  split; [vm_compute; auto|]. split; [vm_compute; intros [E|[]]; discriminate E|]. split; [vm_compute; auto|].
  split; [apply wordb_is_word; vm_compute; reflexivity|]. repeat constructor.
Qed.

Print Assumptions C111_dictionary_words.
Print Assumptions C111_without_hmm.
Print Assumptions C111_full_in_search_refuted.
Print Assumptions C111_hmm_words_refuted.
Print Assumptions C111_single_characters_refuted.
