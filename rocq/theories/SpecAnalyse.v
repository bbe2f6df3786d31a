(** * Independent descriptions of what the keyword extractors return *)
From Coq Require Import Reals Permutation.
From Verif Require Import PyBase PyNum SpecNum ModelFinalseg ModelSeg ModelDict ModelApi ModelPosseg
  ModelAnalyse.

(** ** Rankings *)

(** [x] stands before [y] in [l] *)
Definition before {A} (l : list A) (x y : A) : Prop :=
  exists a b c, l = a ++ x :: b ++ y :: c.

(** [r] has the elements of [l], the larger values first; elements with equal values
    stand as in [l] *)
Definition best_first {A} (val : A -> R) (l r : list A) : Prop :=
  Permutation l r /\
  forall x y, before r x y -> (val y < val x)%R \/ (val y = val x /\ before l x y).

(** [r] is the part of [all] that is asked for with [topK=k]: everything for [None]
    and 0; the first [k]; for a negative [k] all but the last [-k] *)
Definition top_part {A} (k : option Z) (all r : list A) : Prop :=
  exists rest, all = r ++ rest /\
    Z.of_nat (length r) =
    match k with
    | None => Z.of_nat (length all)
    | Some k =>
        if (k =? 0)%Z then Z.of_nat (length all)
        else if (0 <? k)%Z then Z.min k (Z.of_nat (length all))
        else Z.max 0 (Z.of_nat (length all) + k)
    end.

(** [c] lists what occurs in [l], once each, in the order of the first occurrences *)
Definition first_occurrences {A} (l c : list A) : Prop :=
  NoDup c /\ (forall x, In x c <-> In x l) /\
  forall x y, before c x y -> exists u v, l = u ++ x :: v /\ ~ In y u /\ y <> x.

(** ** TF-IDF *)

(** at least two characters that are not white space *)
Definition two_chars (w : str) : Prop :=
  2 <= length (filter (fun c => negb (is_space c)) w).

(** a word as it was cut, and whether it counts: for an empty [allow] every tag does *)
Definition counts (lower : str -> str) (stop allow : list str) (t : term) : Prop :=
  two_chars (term_word t) /\ ~ In (lower (term_word t)) stop /\
  (allow = [] \/ exists w f, t = TPair w f /\ In f allow).

(** the name it is counted under *)
Definition named (allow : list str) (withFlag : bool) (t : term) : term :=
  match allow with
  | [] => t
  | _ => if withFlag then t else TWord (term_word t)
  end.

(** [occ] are the names of the words that count, in order *)
Inductive counted (lower : str -> str) (stop allow : list str) (withFlag : bool)
  : list term -> list term -> Prop :=
| counted_nil : counted lower stop allow withFlag [] []
| counted_yes t ts occ :
    counts lower stop allow t -> counted lower stop allow withFlag ts occ ->
    counted lower stop allow withFlag (t :: ts) (named allow withFlag t :: occ)
| counted_no t ts occ :
    ~ counts lower stop allow t -> counted lower stop allow withFlag ts occ ->
    counted lower stop allow withFlag (t :: ts) occ.

(** number of occurrences *)
Definition term_eq_dec (a b : term) : {a = b} + {a <> b}.
Proof. decide equality; apply (list_eq_dec N.eq_dec). Defined.
Definition times (k : term) (occ : list term) : nat := count_occ term_eq_dec occ k.

(** what is extracted from: the words of [cut] if no tags are asked for, the tagged
    words of the tagger otherwise *)
Definition words_for (num : Num) (H : hmm num) (T : ptables num) (ord : orders)
           (w : pworld) (allow : list str) (s : str) (ts : list term) : Prop :=
  (allow = [] /\
   exists ws, cut num H (mode_of false true) (d_freq (pw_d w)) (d_total (pw_d w)) (d_force (pw_d w)) s = gof ws /\
     ts = map TWord ws) \/
  (allow <> [] /\
   exists ps, snd (do_pop num H T ord w (PCut 0 true s)) = PWords (gof ps) /\
     ts = map (fun p => TPair (fst p) (snd p)) ps).

(** what the number type must satisfy: small integers are exact, and weights computed
    from acceptable IDF values are comparable *)
Record NumCount (num : Num) (O : NumOrder num) := {
  c_lim : Z -> Prop;
  c_lim_le : forall n m, (0 <= n <= m)%Z -> c_lim m -> c_lim n;
  c_zero : lit num 0 = f_zero num;
  c_add : forall n m, (0 <= n)%Z -> (0 <= m)%Z -> c_lim (n + m) ->
    f_add num (lit num n) (lit num m) = lit num (n + m);
  c_nz : forall n, (0 < n)%Z -> c_lim n -> f_eq num (lit num n) (f_zero num) = false;
  c_idf : F num -> Prop;
  c_dom : forall x n t, c_idf x -> (0 < n <= t)%Z -> c_lim t ->
    o_dom O (f_mul num (lit num n) (f_div num x (lit num t)));
}.
Arguments c_lim {num O}. Arguments c_idf {num O}.

(** the IDF value of a word: from the table, or else the median *)
Definition idf_of {num} (x : tfidf num) (w : str) : F num :=
  match sget (tf_freq x) w with Some v => v | None => tf_median x end.

Definition idf_ok {num} {O : NumOrder num} (C : NumCount num O) (x : tfidf num) : Prop :=
  forall w, c_idf C (idf_of x w).

(** occurrences * (idf / all occurrences) *)
Definition tfidf_weight {num} (x : tfidf num) (occ : list term) (k : term) : F num :=
  f_mul num (lit num (Z.of_nat (times k occ)))
    (f_div num (idf_of x (term_word k)) (lit num (Z.of_nat (length occ)))).

(** ** IDF tables *)

(** a line of an IDF file: a word and a number with one space between them *)
Definition idf_line {num} (float_of : str -> option (F num)) (line : str) (e : str * F num) : Prop :=
  exists f, str_strip line = fst e ++ 32%N :: f /\ ~ In 32%N (fst e) /\ ~ In 32%N f /\
    float_of f = Some (snd e).

(** the last value given for a word *)
Definition last_value {V} (es : list (str * V)) (w : str) (v : V) : Prop :=
  exists a b, es = a ++ (w, v) :: b /\ ~ In w (map fst b).

(** one value for every word, the last one *)
Definition word_values {V} (es : list (str * V)) (vs : list V) : Prop :=
  exists ws, NoDup ws /\ (forall w, In w ws <-> In w (map fst es)) /\
    Forall2 (last_value es) ws vs.

(** with the [n] values in order, the one at [n // 2] *)
Definition upper_median {A} (val : A -> R) (vs : list A) (m : A) : Prop :=
  exists lo hi, Permutation vs (lo ++ m :: hi) /\ length lo = length vs / 2 /\
    Forall (fun v => (val v <= val m)%R) lo /\ Forall (fun v => (val m <= val v)%R) hi.

(** ** TextRank *)

(** a tagged word that can be a keyword *)
Definition passes (lower : str -> str) (stop allow : list str) (p : tagged) : Prop :=
  In (snd p) allow /\ two_chars (fst p) /\ ~ In (lower (fst p)) stop.

(** the name it is ranked under *)
Definition ranked_as (allow : list str) (withFlag : bool) (p : tagged) : term :=
  if withFlag then (match allow with [] => TWord (fst p) | _ => TPair (fst p) (snd p) end)
  else TWord (fst p).

(** Rounded arithmetic with relative error [u] as long as the numbers involved are
    within [G^8] and [G^-8]; integers up to [G] are exact, and [G] roundings cost at
    most 5%. *)
Record NumRound (num : Num) (O : NumOrder num) := {
  r_u : R;
  r_G : R;
  r_rnd : R -> R;
  r_u_pos : (0 <= r_u <= 1 / 1000)%R;
  r_G_big : (100 <= r_G)%R;
  r_steps : forall k, (INR k <= r_G)%R -> ((1 + r_u) ^ k <= 105 / 100)%R;
  r_mono : forall x y, (x <= y)%R -> (r_rnd x <= r_rnd y)%R;
  r_rel : forall x, (/ r_G ^ 8 <= x <= r_G ^ 8)%R ->
    ((1 - r_u) * x <= r_rnd x <= (1 + r_u) * x)%R;
  r_int : forall z, (0 <= z)%Z -> (IZR z <= r_G)%R -> r_rnd (IZR z) = IZR z;
  r_lit : forall z, (0 <= z)%Z -> (IZR z <= r_G)%R -> o_fin O (lit num z) /\ o_val O (lit num z) = IZR z;
  r_add : forall x y, o_fin O x -> o_fin O y -> (Rabs (o_val O x + o_val O y) <= r_G ^ 8)%R ->
    o_fin O (f_add num x y) /\ o_val O (f_add num x y) = r_rnd (o_val O x + o_val O y)%R;
  r_sub : forall x y, o_fin O x -> o_fin O y -> (Rabs (o_val O x - o_val O y) <= r_G ^ 8)%R ->
    o_fin O (f_sub num x y) /\ o_val O (f_sub num x y) = r_rnd (o_val O x - o_val O y)%R;
  r_mul : forall x y, o_fin O x -> o_fin O y -> (Rabs (o_val O x * o_val O y) <= r_G ^ 8)%R ->
    o_fin O (f_mul num x y) /\ o_val O (f_mul num x y) = r_rnd (o_val O x * o_val O y)%R;
  r_div : forall x y, o_fin O x -> o_fin O y -> o_val O y <> 0%R ->
    (Rabs (o_val O x / o_val O y) <= r_G ^ 8)%R ->
    o_fin O (f_div num x y) /\ o_val O (f_div num x y) = r_rnd (o_val O x / o_val O y)%R;
  r_zero : o_val O (f_zero num) = 0%R;
  r_max : o_fin O (float_max num) /\ (2 <= o_val O (float_max num))%R;
  r_min : o_fin O (float_min num) /\ (0 <= o_val O (float_min num) <= 1 / 100)%R;
}.
Arguments r_u {num O}. Arguments r_G {num O}. Arguments r_rnd {num O}.

(** two words that can be keywords occur fewer than [span] words apart, and [n] is
    the name of one of them *)
Definition ranked (lower : str -> str) (stop allow : list str) (span : nat) (withFlag : bool)
           (words : list tagged) (n : term) : Prop :=
  exists i j p q, nth_error words i = Some p /\ nth_error words j = Some q /\ i < j < i + span /\
    passes lower stop allow p /\ passes lower stop allow q /\
    (n = ranked_as allow withFlag p \/ n = ranked_as allow withFlag q).
