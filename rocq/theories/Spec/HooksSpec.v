(** Vocabulary of C119. *)
From Coq Require Import String.
From stdpp Require Import list.
From Verif Require Import Lib.Py Model.Logging Model.Hooks.
Local Open Scope nat_scope.

(** No portal has been created since the last reset through LoggingPortal or a subclass (or since the start) *)
Definition none_since_reset (es : list event) : Prop :=
  forall before later, es = before ++ NewPortal :: later -> Reset true ∈ later.
(** no shell ever starts *)
Definition no_shells (es : list event) : Prop := forall i, ShellChange i ∈ es -> i = NoShell.
(** the shell is never left *)
Definition one_shell (es : list event) : Prop := forall i, ShellChange i ∉ es.
