(** Vocabulary of C125: a queue that others keep changing. *)
From Verif.Lib Require Import Py.
From Verif.Model Require Import Retry Swarming.
From Coq Require Import QArith.
Local Open Scope nat_scope.

Section Spec.
  Context {A : Type} `{EqDecision A}.
  (** the requests from which one cycle of a worker chooses, of a queue in the order in which it is listed: the first max + 1
      that need execution and are let through by their guards *)
  Definition wants (guards : A -> bool) (now : Q) (s : wstate A) (a : A) : bool :=
    needs_execution (bool_decide (a ∈ w_results s)) (w_attempts s a) now && guards a.
  Definition considered (guards : A -> bool) (c : cycle) (s : wstate A) : list A :=
    take (S (cy_max c)) (filter (fun a => wants guards (cy_now c) s a = true) (w_requests s)).
  (** the cycle chooses a *)
  Definition chooses (guards : A -> bool) (c : cycle) (s : wstate A) (a : A) : Prop :=
    considered guards c s !! (cy_pick c mod length (considered guards c s)) = Some a.
  (** what all others did (new requests, other workers, ...) left a asked for, or gave it a result; they may have started it *)
  Definition leaves_asked (a : A) (s s' : wstate A) : Prop :=
    a ∈ w_results s' \/ (a ∈ w_requests s' /\ exists more, w_attempts s' a = more ++ w_attempts s a).
  (** A history: at time n either this worker makes the cycle [ev n], or the others act. *)
  Definition history (guards : A -> bool) (a : A) (st : nat -> wstate A) (ev : nat -> option cycle) : Prop :=
    forall n, match ev n with
              | Some c => st (S n) = worker_cycle guards (cy_max c) (cy_pick c) (cy_now c) (cy_finishes c) (st n)
              | None => leaves_asked a (st n) (st (S n))
              end.
  (** the worker comes by again and again, ever later, and while a is asked for finds at most max other requests listed before a *)
  Definition comes_by (a : A) (st : nat -> wstate A) (ev : nat -> option cycle) : Prop :=
    forall n t, exists m c, n <= m /\ ev m = Some c /\ (t <= cy_now c)%Q /\
      (a ∈ w_requests (st m) -> exists before after, w_requests (st m) = before ++ a :: after /\ length before <= cy_max c).
  (** fair choices: from any time on, a is chosen at some later time, or from some later time on is not among the requests
      from which the worker chooses.  (Random choices are fair with probability 1: lists have at most 5001 entries.) *)
  Definition fair (guards : A -> bool) (a : A) (st : nat -> wstate A) (ev : nat -> option cycle) : Prop :=
    forall n, exists m, n <= m /\
      ((exists c, ev m = Some c /\ chooses guards c (st m) a) \/
       (forall k c, m <= k -> ev k = Some c -> a ∉ considered guards c (st k))).
End Spec.
