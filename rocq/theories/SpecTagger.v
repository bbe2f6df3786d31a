(** * Specification vocabulary: what the tagger's tables have seen *)
From Verif Require Import PyBase ModelPosseg SpecTagging ModelPosEmit.

(** twenty-eight tags: a ag b c d f g j k m n ng nr p q r tg u ud ug uj ul uv uz v vg x y *)
Definition one_char_tags : list str :=
  [[97]; [97; 103]; [98]; [99]; [100]; [102]; [103]; [106]; [107]; [109]; [110]; [110; 103]; [110; 114]; [112]; [113];
   [114]; [116; 103]; [117]; [117; 100]; [117; 103]; [117; 106]; [117; 108]; [117; 118]; [117; 122]; [118]; [118; 103];
   [120]; [121]]%N.

(** prob_emit.py has seen the character in the state *)
Definition has_number (c : char) (y : pstate) : Prop := exists me, pos_emit_num y c = Some me.

(** The character has been seen as a word of one of these tags.  The three characters
    U+6E6E, U+77FD and U+8E60 are left out: char_state_tab.py does not have these states
    for them. *)
Definition common (c : char) : Prop :=
  ~ In c [0x6e6e; 0x77fd; 0x8e60]%N /\ exists t, In t one_char_tags /\ has_number c (l_S, t).

(** every character has been seen at its place in its word, with the tag of the word; the
    first word is no piece of a word that began before *)
Definition attested (r : str) (ws : list tagged) : Prop :=
  exists ys, spelled false ws ys /\ Forall2 has_number r ys.
