(** What "the session is as before" means, and the places where a storage failure undoes it. *)
From Verif.Lib Require Import Py.
From Verif.Model Require Import Frames.

Definition same_session (s s' : fstate) : Prop :=
  opened s' = opened s /\ stdout s' = stdout s /\ forall f, frames s' f = frames s f.
(** storage never fails for accesses of kind k *)
Definition reliable (faults : kind -> nat -> bool) (k : kind) : Prop := forall n, faults k n = false.
