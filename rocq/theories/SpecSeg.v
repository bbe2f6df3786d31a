(** * Specification vocabulary for segmentation *)
From Verif Require Import PyBase SpecBase.

(** A dictionary as a finite function from words to frequencies. *)
Definition dictionary := str -> option Z.

(** [w] is a word of the dictionary: it has a non-zero frequency *)
Definition is_word (D : dictionary) (w : str) : Prop :=
  exists n, D w = Some n /\ n <> 0%Z.

(** every non-empty prefix of an entry is an entry *)
Definition prefix_closed (D : dictionary) : Prop :=
  forall u v, u <> [] -> D (u ++ v) <> None -> D u <> None.

(** non-negative frequencies and a positive total *)
Definition sane (D : dictionary) (total : Z) : Prop :=
  (0 < total)%Z /\ forall w n, D w = Some n -> (0 <= n)%Z.

(** [ws] is a division of [s] into non-empty words *)
Definition partition (s : str) (ws : list str) : Prop :=
  concat ws = s /\ Forall (fun w => w <> []) ws.

(** no dictionary word starts at the beginning of [s] *)
Definition no_word_starts (D : dictionary) (s : str) : Prop :=
  forall u, u <> [] -> prefix_of u s -> ~ is_word D u.

(** A candidate segmentation of a run [s]: each piece is a dictionary word, or a
    single character at a place where no dictionary word starts. *)
Fixpoint candidate (D : dictionary) (s : str) (ws : list str) : Prop :=
  match ws with
  | [] => s = []
  | w :: ws' =>
      exists s', s = w ++ s' /\ w <> []
        /\ (is_word D w \/ (length w = 1 /\ no_word_starts D s))
        /\ candidate D s' ws'
  end.

(** frequency used for scoring: absent and zero count as 1 *)
Definition weight_of (D : dictionary) (w : str) : Z :=
  match D w with Some n => if (n =? 0)%Z then 1%Z else n | None => 1%Z end.

(** ** Search mode *)

Definition wordb (D : dictionary) (w : str) : bool :=
  match D w with Some n => negb (n =? 0)%Z | None => false end.

(** the substring of [w] of length [n] at [i] *)
Definition sub (w : str) (i n : nat) : str := firstn n (skipn i w).

(** start positions, in increasing order, of the dictionary words of length [n]
    properly inside [w] *)
Definition inner_words (D : dictionary) (n : nat) (w : str) : list nat :=
  if n <? length w then filter (fun i => wordb D (sub w i n)) (seq 0 (length w - n + 1)) else [].

(** a word preceded by the shorter dictionary words inside it *)
Definition expand (D : dictionary) (w : str) : list str :=
  map (fun i => sub w i 2) (inner_words D 2 w)
  ++ map (fun i => sub w i 3) (inner_words D 3 w) ++ [w].

(** ** Offsets *)

(** consecutive words with their offsets, from [a] to [b] *)
Fixpoint tiles (a b : nat) (toks : list (str * nat * nat)) : Prop :=
  match toks with
  | [] => a = b
  | (w, x, y) :: toks' => x = a /\ y = a + length w /\ tiles y b toks'
  end.

(** the token is the text between its offsets *)
Definition located (s : str) (t : str * nat * nat) : Prop :=
  let '(w, x, y) := t in
  exists u v, s = u ++ w ++ v /\ length u = x /\ y = x + length w.
