(** What the stores contain after a collection of runs. *)
From Verif.Lib Require Import Py.
From Verif.Model Require Import Records.
From Coq Require Import Ascii.

Section Spec.
  Context {Ctx Crash Val : Type}.
  (** [h] holds the entries of the runs [rs], in any order *)
  Definition holds (dec : nat -> text) (rs : list (run_log Ctx Crash Val)) (h : history Ctx Crash Val) : Prop :=
    h_attempts h ≡ₚ map attempt_entry rs /\ h_outputs h ≡ₚ flat_map output_entries rs /\
    h_results h ≡ₚ flat_map result_entries rs /\ h_crashes h ≡ₚ flat_map (crash_entries dec) rs.

  (** [a] is a contiguous part of [b] *)
  Definition part_of (a b : text) : Prop := exists x y, b = x ++ a ++ y.

  (** session ids as the library makes them: "run" followed by a signature over [0-9a-v] *)
  Definition signature_char (c : ascii) : Prop := c <> "_"%char.
  Definition session_like (sid : text) : Prop :=
    exists sig, sid = lit "run" ++ sig /\ Forall (fun c => c <> "_"%char) sig.
End Spec.
