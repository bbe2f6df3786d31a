(** * The stop words the keyword extractors start with, in readable form *)
From Coq Require Import String Ascii.
From Verif Require Import PyBase.

(** the text of a literal in plain ASCII *)
Definition text_of (s : string) : str := map (fun c => N_of_ascii c) (list_ascii_of_string s).

(** the words every extractor leaves out *)
Definition english_words : list string :=
  ["the"; "of"; "is"; "and"; "to"; "in"; "that"; "we"; "for"; "an"; "are"; "by"; "be"; "as"; "on";
   "with"; "can"; "if"; "from"; "which"; "you"; "it"; "this"; "then"; "at"; "have"; "all"; "not";
   "one"; "has"; "or"]%string.
