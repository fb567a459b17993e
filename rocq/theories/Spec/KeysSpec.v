(** Vocabulary of C127: keys that a dictionary on disk accepts. *)
From Coq Require Import String Ascii.
From stdpp Require Import list.
From Verif Require Import Model.Stamps Spec.Numerals.
Local Open Scope nat_scope.

(** letters, digits and the underscore *)
Definition word_char (c : ascii) : bool :=
  let n := nat_of_ascii c in (65 <=? n) && (n <=? 90) || (97 <=? n) && (n <=? 122) || (48 <=? n) && (n <=? 57) || (n =? 95).
(** A dictionary accepts a key if no part of it is empty and all characters are among those it allows; every dictionary
    allows letters, digits and underscores. *)
Definition allows_words (allowed : ascii -> bool) : Prop := forall c, word_char c = true -> allowed c = true.
Definition accepted (allowed : ascii -> bool) (key : list string) : Prop :=
  Forall (fun part => part <> ""%string /\ all_chars allowed part = true) key.
(** the names under which someone logs *)
Definition names_of (w : logger) : list string :=
  match w with ByPortal => [] | ByOrdinary f => [f] | ByAutonomous f i | ByPure f i => [f; i] end.
