(** Vocabulary for statements about source text. *)
From Coq Require Import String Ascii.
From Verif Require Import Lib.Py Model.SourceText.
Local Open Scope nat_scope.

Definition spaces (s : text) : Prop := forall c, c ∈ s -> is_space c = true.
(** a line that, blanks around it ignored, begins with "def " *)
Definition def_line (l : text) : Prop :=
  exists lead rest c, l = lead ++ T "def " ++ rest /\ spaces lead /\ c ∈ rest /\ is_space c = false.
(** names neither begin nor end with a blank and contain no parenthesis *)
Definition proper_name (n : text) : Prop :=
  (exists c n', n = c :: n' /\ is_space c = false) /\ (exists c n', n = n' ++ [c] /\ is_space c = false) /\ "("%char ∉ n.
Definition no_lf (l : text) : Prop := LF ∉ l.

(** The only whitespace characters are blanks, tabs and line feeds (no form feeds, no carriage returns ...). *)
Definition plain (code : text) : Prop := forall c, c ∈ code -> is_space c = true -> c = SP \/ c = TAB \/ c = LF.
Definition blank_line (l : text) : Prop := forall c, c ∈ l -> c = SP \/ c = TAB.
(** [cleaned indent ls ls']: ls' is ls without its blank lines and without [indent] in front of the others. *)
Inductive cleaned (indent : text) : list text -> list text -> Prop :=
  | cleaned_end : cleaned indent [] []
  | cleaned_blank l ls ls' : blank_line l -> cleaned indent ls ls' -> cleaned indent (l :: ls) ls'
  | cleaned_keep l ls ls' : ~ blank_line (indent ++ l) -> cleaned indent ls ls' -> cleaned indent ((indent ++ l) :: ls) (l :: ls').
Definition unindented (l : text) : Prop := exists c l', l = c :: l' /\ is_space c = false.

(** The value of the first triple-quoted string of a source text: what stands between the quotes. *)
Definition quotes : text := ["""";"""";""""]%char.
Fixpoint up_to_quotes (s : text) : text := if startswith quotes s then [] else match s with [] => [] | c :: s' => c :: up_to_quotes s' end.
Fixpoint string_value (s : text) : option text :=
  if startswith quotes s then Some (up_to_quotes (drop 3 s)) else match s with [] => None | c :: s' => string_value s' end.
(** lines of a source text *)
Definition lines (ls : list string) : text := join_lf (map T ls).
