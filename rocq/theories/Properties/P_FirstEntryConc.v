(** C15, C16: concurrent assignments to a first-entry dictionary.
    [sys_run same atomic (start st0 ps) sched]: the processes [ps] (key, value, check probability, draw) all call
    [__setitem__] on a store that contains [st0]; [sched] is any interleaving of single steps and kills. *)
From Verif.Lib Require Import Py.
From Verif.Model Require Import FirstEntryConc.
From Verif.Spec Require Import FirstEntryConcSpec.
From Verif.Proofs Require Import FirstEntryConcP.
From Coq Require Import QArith.
Local Open Scope nat_scope.

(** C15: over an atomic backend, in every schedule, a key holds its old value if it had one, otherwise the value
    of the first write to it; and there is at most one write per key (none if it was present). *)
Theorem C15_first_write_wins : forall (K V : Type) (eqK : EqDecision K) (same : V -> V -> bool) st0 ps sched,
  let c := sys_run same true (start st0 ps) sched in
  forall k : K, dict_get k (c_store c) =
    match dict_get k st0 with Some v => Some v | None => first_write k (c_log c) end.
Proof. exact @first_write_wins. Qed.
Print Assumptions C15_first_write_wins.

Theorem C15_at_most_one_write : forall (K V : Type) (eqK : EqDecision K) (same : V -> V -> bool) st0 ps sched (k : K),
  let c := sys_run same true (start st0 ps) sched in
  length (List.filter (fun kv => bool_decide (fst kv = k)) (c_log c)) <=
    match dict_get k st0 with Some _ => 0 | None => 1 end.
Proof. exact @at_most_one_write. Qed.
Print Assumptions C15_at_most_one_write.

(** C15: once present, a value stays for ever. *)
Theorem C15_append_only : forall (K V : Type) (eqK : EqDecision K) (same : V -> V -> bool) st0 ps s1 s2 (k : K) v,
  dict_get k (c_store (sys_run same true (start st0 ps) s1)) = Some v ->
  dict_get k (c_store (sys_run same true (start st0 ps) (s1 ++ s2))) = Some v.
Proof. exact @append_only. Qed.
Print Assumptions C15_append_only.

(** C15: a finished assignment sees its key present, and it has failed only if a drawn consistency check found a
    different value; never because of the race. *)
Theorem C15_no_failure_from_races : forall (K V : Type) (eqK : EqDecision K) (same : V -> V -> bool) st0
    (ps : list (K * V * option Q * Q)) sched i p r,
  let c := sys_run same true (start st0 ps) sched in
  c_procs c !! i = Some p -> p_pc p = Finished r ->
  exists v : V, dict_get (p_key p) (c_store c) = Some v /\
    (r = Ok tt \/ (r = Err AssertionError /\ same v (p_val p) = false /\
                   exists q, p_check p = Some q /\ (0 < q)%Q /\ (p_draw p < q)%Q)).
Proof. exact @outcome_drawn. Qed.
Print Assumptions C15_no_failure_from_races.

(** C15: process i is the i-th given assignment, and its outcome, once there, stays. *)
Theorem C15_outcomes_stay : forall (K V : Type) (eqK : EqDecision K) (same : V -> V -> bool) atomic st0
    (ps : list (K * V * option Q * Q)) s1 s2 i k v q u, ps !! i = Some (k, v, q, u) ->
  exists x, c_procs (sys_run same atomic (start st0 ps) s1) !! i = Some (Proc k v q u x) /\
    forall r, x = Finished r -> c_procs (sys_run same atomic (start st0 ps) (s1 ++ s2)) !! i = Some (Proc k v q u (Finished r)).
Proof. exact @outcomes_stay. Qed.
Print Assumptions C15_outcomes_stay.

(** C15: no assignment blocks: a process that is not killed finishes after at most seven of its own steps,
    whatever the others do and over both kinds of backend. *)
Theorem C15_wait_free : forall (K V : Type) (eqK : EqDecision K) (same : V -> V -> bool) atomic st0
    (ps : list (K * V * option Q * Q)) sched i,
  i < length ps -> Kill i ∉ sched -> 7 <= length (List.filter (is_run i) sched) ->
  exists p r, c_procs (sys_run same atomic (start st0 ps) sched) !! i = Some p /\ p_pc p = Finished r.
Proof. exact @finishes. Qed.
Print Assumptions C15_wait_free.

(** C16: over either backend, if every key is the address of its value then this stays so in every schedule ... *)
Theorem C16_content_addressed_safe : forall (K V : Type) (eqK : EqDecision K) (same : V -> V -> bool) (addr : V -> K),
  (forall a b, addr a = addr b -> same a b = true) ->
  forall atomic st ps sched,
  (forall k v, dict_get k st = Some v -> addr v = k) ->
  Forall (fun '(k, v, _, _) => addr v = k) ps ->
  forall k v, dict_get k (c_store (sys_run same atomic (start st ps) sched)) = Some v -> addr v = k.
Proof. exact @content_safe. Qed.
Print Assumptions C16_content_addressed_safe.

(** ... readers never see a change (for collision-free addresses) ... *)
Theorem C16_content_addressed_stable : forall (K V : Type) (eqK : EqDecision K) (same : V -> V -> bool) (addr : V -> K),
  (forall a b, addr a = addr b -> same a b = true) ->
  forall atomic st ps s1 s2 k v, (forall a b, addr a = addr b -> a = b) ->
  (forall k v, dict_get k st = Some v -> addr v = k) ->
  Forall (fun '(k, v, _, _) => addr v = k) ps ->
  dict_get k (c_store (sys_run same atomic (start st ps) s1)) = Some v ->
  dict_get k (c_store (sys_run same atomic (start st ps) (s1 ++ s2))) = Some v.
Proof. exact @content_stable. Qed.
Print Assumptions C16_content_addressed_stable.

(** ... and no assignment fails. *)
Theorem C16_content_addressed_no_failure : forall (K V : Type) (eqK : EqDecision K) (same : V -> V -> bool) (addr : V -> K),
  (forall a b, addr a = addr b -> same a b = true) ->
  forall atomic st (ps : list (K * V * option Q * Q)) sched i p r,
  (forall k v, dict_get k st = Some v -> addr v = k) ->
  Forall (fun '(k, v, _, _) => addr v = k) ps ->
  let c := sys_run same atomic (start st ps) sched in
  c_procs c !! i = Some p -> p_pc p = Finished r -> r = Ok tt /\ dict_mem (p_key p) (c_store c) = true.
Proof. exact @content_outcome. Qed.
Print Assumptions C16_content_addressed_no_failure.

(** For arbitrary keys over a check-then-write backend the first writer can lose: a reader sees 10, then 20. *)
Theorem C16_arbitrary_keys_refuted : exists ps s1 s2,
  dict_get 1 (c_store (sys_run Nat.eqb false (start [] ps) s1)) = Some 10 /\
  dict_get 1 (c_store (sys_run Nat.eqb false (start [] ps) (s1 ++ s2))) = Some 20.
Proof.
  exists [(1, 10, None, 0%Q); (1, 20, None, 0%Q)], [Run 0; Run 1; Run 0; Run 1; Run 0], [Run 1]. vm_compute. auto.
Qed.
Print Assumptions C16_arbitrary_keys_refuted.

(** Three racing writers, one killed before its write, one losing the race with a check drawn. *)
Example C15_example :
  let c := sys_run Nat.eqb true (start [(7, 70)] [(1, 10, Some 1%Q, 0%Q); (1, 20, Some 1%Q, 0%Q); (1, 30, None, 0%Q)])
     [Run 0; Run 1; Run 2; Kill 2; Run 1; Run 0; Run 1; Run 0; Run 0; Run 0] in
  c_store c = [(7, 70); (1, 20)] /\ map p_pc (c_procs c) = [Finished (Err AssertionError); Finished (Ok tt); Dead].
Proof. vm_compute. auto. Qed.
(** Content addresses over a check-then-write backend: both racing writers write, nobody notices. *)
Example C16_example :
  let c := sys_run Nat.eqb false (start [] [(10, 10, Some 1%Q, 0%Q); (10, 10, Some 1%Q, 0%Q)])
     [Run 0; Run 1; Run 0; Run 1; Run 0; Run 1; Run 0; Run 1] in
  c_store c = [(10, 10)] /\ c_log c = [(10, 10); (10, 10)] /\ map p_pc (c_procs c) = [Finished (Ok tt); Finished (Ok tt)].
Proof. vm_compute. auto. Qed.
