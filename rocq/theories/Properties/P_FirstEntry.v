(** C13, C14: first-entry dictionaries (sequential use, transient backend errors included). *)
From Verif.Lib Require Import Py.
From Verif.Model Require Import FirstEntry.
From Verif.Spec Require Import FirstEntrySpec.
From Verif.Proofs Require Import FirstEntryP.
From Coq Require Import QArith.
Local Open Scope nat_scope.

(** C13: after any sequence of assignments (each meeting at most one transient backend error) every key holds
    the value of its first assignment, and the length is the number of distinct keys. *)
Theorem C13_first_value_wins : forall (K V : Type) (eqK : EqDecision K) (same : V -> V -> bool),
  (forall v, same v v = true) -> forall p (l : list (assignment K V)), Forall one_fault l ->
  let s := fst (set_items same (new_fed p) l) in
  (forall k, dict_get k (wrapped s) = first_assigned k l)
  /\ len s = length (remove_dups (map a_key l)).
Proof. exact @first_wins. Qed.
Print Assumptions C13_first_value_wins.

(** C13: what a reader sees: d[k] is the first value or KeyError, 'k in d' says which. *)
Theorem C13_reads : forall (K V : Type) (eqK : EqDecision K) (same : V -> V -> bool),
  (forall v, same v v = true) -> forall p (l : list (assignment K V)) k, Forall one_fault l ->
  let s := fst (set_items same (new_fed p) l) in
  get_item s k = match first_assigned k l with Some v => Ok v | None => Err KeyError end
  /\ (contains s k = true <-> exists a, a ∈ l /\ a_key a = k).
Proof. exact @reads. Qed.
Print Assumptions C13_reads.

(** C14: re-assigning raises exactly when a check is drawn and the value differs; the store never changes. *)
Theorem C14_reassignment_check_exact : forall (K V : Type) (eqK : EqDecision K) (same : V -> V -> bool),
  (forall v, same v v = true) -> forall p (l : list (assignment K V)) a v0, Forall one_fault l ->
  first_assigned (a_key a) l = Some v0 ->
  let s := fst (set_items same (new_fed p) l) in
  is_ok (snd (set_item same s a)) = negb (check_drawn p (a_draw a) && negb (same v0 (a_value a)))
  /\ wrapped (fst (set_item same s a)) = wrapped s.
Proof. exact @reassign_exact. Qed.
Print Assumptions C14_reassignment_check_exact.

(** C14: a first assignment never raises. *)
Theorem C14_first_assignment_succeeds : forall (K V : Type) (eqK : EqDecision K) (same : V -> V -> bool),
  (forall v, same v v = true) -> forall p (l : list (assignment K V)) a, Forall one_fault l -> one_fault a ->
  first_assigned (a_key a) l = None ->
  let s := fst (set_items same (new_fed p) l) in
  is_ok (snd (set_item same s a)) = true
  /\ dict_get (a_key a) (wrapped (fst (set_item same s a))) = Some (a_value a).
Proof. exact @first_assignment_ok. Qed.
Print Assumptions C14_first_assignment_succeeds.

(** C14: parameter None or 0 means no check is ever drawn; parameter 1 means every draw of [0,1) is a check. *)
Theorem C14_no_checks : forall p u, p = None \/ (exists q, p = Some q /\ (q <= 0)%Q) -> check_drawn p u = false.
Proof. exact never_checks. Qed.
Print Assumptions C14_no_checks.
Theorem C14_always_checks : forall u, (0 <= u)%Q -> (u < 1)%Q -> check_drawn (Some 1%Q) u = true.
Proof. exact always_checks. Qed.
Print Assumptions C14_always_checks.

(** C14: the counters: checks minus successful checks = number of failed assignments; both only grow. *)
Theorem C14_counters : forall (K V : Type) (eqK : EqDecision K) (same : V -> V -> bool),
  (forall v, same v v = true) -> forall (l : list (assignment K V)) s, Forall one_fault l ->
  let '(s', rs) := set_items same s l in
  successful_checks s' + (total_checks s + length (List.filter is_err rs)) = total_checks s' + successful_checks s
  /\ total_checks s <= total_checks s' /\ successful_checks s <= successful_checks s'.
Proof. exact @counters. Qed.
Print Assumptions C14_counters.

Example C13_C14_example :
  let l := [Assign 1 10 (1#2) NoFault NoFault; Assign 2 20 (1#2) FailBefore NoFault;
            Assign 1 11 (9#10) NoFault NoFault; Assign 1 11 (1#2) NoFault NoFault;
            Assign 3 30 (1#2) FailAfter NoFault; Assign 1 10 (1#2) NoFault NoFault] in
  let '(s, rs) := set_items Nat.eqb (new_fed (Some (3#4)%Q)) l in
  Forall one_fault l /\ wrapped s = [(1, 10); (2, 20); (3, 30)]
  /\ rs = [Ok tt; Ok tt; Ok tt; Err AssertionError; Ok tt; Ok tt] /\ total_checks s = 3 /\ successful_checks s = 2.
Proof. vm_compute. split; [|auto]. repeat (constructor; [auto|]). constructor. Qed.
