(** What the text of an augmented source must satisfy to be read back: specification. *)
From Coq Require Import String Ascii.
From Verif Require Import Lib.Py Model.Registry Model.AugText.
Local Open Scope string_scope.

(** a name without quotes, backslashes and line ends (in particular every name of letters, digits and any of _ - . = ~ ( ) ) *)
Definition quotable (s : string) : Prop :=
  forall a c b, s = a +:+ String c b -> c <> quote /\ c <> backslash /\ c <> nl /\ c <> cr.
(** no line of the text starts with '@' *)
Definition no_decorator_line (s : string) : Prop :=
  (forall b, s <> String "@" b) /\ (forall a b, s <> a +:+ String nl (String "@" b)).
Definition readable_decor (d : decor) : Prop :=
  match d with
  | DAut _ i => quotable i
  | DPure i g => quotable i /\ forall l x, g = Some l -> x ∈ l -> quotable x
  end.
Definition readable (e : entry) : Prop := readable_decor (fst e) /\ no_decorator_line (snd e).

(** What Python takes the text between single quotes for: ordinary characters for themselves; a backslash with n, t, r for a line feed, a tab,
    a carriage return; a backslash with a quote (single or double) or a backslash for that character; a backslash before a line feed
    for nothing; a backslash before any of the other letters and signs in [kept] for both characters.  (Octal, hexadecimal and unicode escapes are not covered.) *)
Definition kept (c : ascii) : Prop := c ∈ list_ascii_of_string "cdeghijklmpqswyzABCDEFGHIJKLMOPQRSTVWXYZ .-_()[]".
Inductive literal_means : string -> string -> Prop :=
  | lit_end : literal_means "" ""
  | lit_plain c s v : c <> quote -> c <> backslash -> c <> nl -> c <> cr -> literal_means s v -> literal_means (String c s) (String c v)
  | lit_n s v : literal_means s v -> literal_means (String backslash (String "n" s)) (String (ascii_of_nat 10) v)
  | lit_t s v : literal_means s v -> literal_means (String backslash (String "t" s)) (String (ascii_of_nat 9) v)
  | lit_r s v : literal_means s v -> literal_means (String backslash (String "r" s)) (String (ascii_of_nat 13) v)
  | lit_quote s v : literal_means s v -> literal_means (String backslash (String "'" s)) (String "'" v)
  | lit_dquote s v : literal_means s v -> literal_means (String backslash (String (ascii_of_nat 34) s)) (String (ascii_of_nat 34) v)
  | lit_backslash s v : literal_means s v -> literal_means (String backslash (String backslash s)) (String backslash v)
  | lit_continued s v : literal_means s v -> literal_means (String backslash (String (ascii_of_nat 10) s)) v
  | lit_kept c s v : kept c -> literal_means s v -> literal_means (String backslash (String c s)) (String backslash (String c v)).
