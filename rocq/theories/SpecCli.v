(** * Lines of a text, for the command line *)
From Verif Require Import PyBase.

Definition no_newline (l : str) : Prop := ~ In 10%N l /\ ~ In 13%N l.

(** [nl] ends a line when the text goes on with [rest]: LF, CR LF, or a CR alone *)
Definition newline (nl rest : str) : Prop :=
  nl = [10]%N \/ nl = [13; 10]%N \/ (nl = [13]%N /\ forall r, rest <> 10%N :: r).

(** the lines of a text, without their ends; the last one may have no end *)
Inductive lines_of : str -> list str -> Prop :=
| lo_nil : lines_of [] []
| lo_last l : l <> [] -> no_newline l -> lines_of l [l]
| lo_line l nl rest ls : no_newline l -> newline nl rest -> lines_of rest ls ->
    lines_of (l ++ nl ++ rest) (l :: ls).

(** the words with [sep] between them *)
Definition between (sep : str) (ws : list str) : str :=
  match ws with
  | [] => []
  | w :: ws' => w ++ concat (map (fun x => sep ++ x) ws')
  end.

Definition printed (ls : list str) : str := concat (map (fun l => l ++ [10%N]) ls).
