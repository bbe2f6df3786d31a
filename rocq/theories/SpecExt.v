(** * What a segmentation can see of a dictionary *)
From Verif Require Import PyBase SpecBase SpecSeg.

(** the frequency of a word, absent words counting as zero *)
Definition freq_of (D : dictionary) (w : str) : Z := match D w with Some n => n | None => 0%Z end.

(** the same frequency for everything that occurs in the text *)
Definition same_in (s : str) (D D' : dictionary) : Prop :=
  forall u, substring u s -> freq_of D u = freq_of D' u.

(** the same members among what occurs in the text *)
Definition same_members (s : str) (l l' : list str) : Prop :=
  forall u, substring u s -> (In u l <-> In u l').

(** the same tag for everything that occurs in the text; a word without a tag has the tag x (120) *)
Definition same_tags (s : str) (T T' : str -> option str) : Prop :=
  forall u, substring u s ->
    match T u with Some t => t | None => [120]%N end = match T' u with Some t => t | None => [120]%N end.
