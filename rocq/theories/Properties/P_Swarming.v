(** C50, C51, C59, C60: retry policy, background workers, runtime records. *)
From Verif.Lib Require Import Py.
From Verif.Model Require Import Retry Swarming.
From Verif.Spec Require Import SwarmingSpec.
From Verif.Proofs Require Import RetryP SwarmingP.
From Coq Require Import QArith.
From stdpp Require Import sets sorting.
Local Open Scope nat_scope.

(** C50: exactly when a call needs execution. *)
Theorem C50_retry_policy : forall ready attempts now,
  needs_execution ready attempts now = true <->
  ready = false /\
  (attempts = [] \/
   (1 <= length attempts <= 5 /\
    exists t, In t attempts /\ (forall x, In x attempts -> (x <= t)%Q)
      /\ (10 * inject_Z (2 ^ Z.of_nat (length attempts)) < now - t)%Q)).
Proof. exact needs_execution_iff. Qed.
Print Assumptions C50_retry_policy.
Theorem C50_six_attempts_never_again : forall attempts ready now,
  6 <= length attempts -> needs_execution ready attempts now = false.
Proof. exact six_never. Qed.
Print Assumptions C50_six_attempts_never_again.
Example C50_example : needs_execution false [100; 120]%Q 161 = true /\ needs_execution false [100; 120]%Q 160 = false
  /\ needs_execution false [120; 100]%Q 161 = true /\ needs_execution true [] 0 = false.
Proof. vm_compute. auto. Qed.

(** C51 is false: six executions killed in the middle, and the requested, executable call is never executed again,
    although a worker keeps running for ever (any further cycles [more], any clock). *)
Theorem C51_eventual_execution_refuted : exists (guards : nat -> bool) (s : wstate nat) cs,
  guards 7 = true /\ w_requests s = [7] /\ w_results s = [] /\
  forall more, let s' := worker_run guards (cs ++ more) s in
    7 ∈ w_requests s' /\ 7 ∉ w_results s'.
Proof.
  exists (fun _ => true), (WState [7] [] (fun _ => [])).
  exists (map (fun t => Cycle 200 0 t false) [0; 1000; 2000; 3000; 4000; 5000]%Q).
  split; [done|]. split; [done|]. split; [done|]. intros more. unfold worker_run. rewrite fold_left_app.
  set (s6 := fold_left _ _ (WState [7] [] _)). fold (worker_run (fun _ : nat => true) more s6).
  assert (H1 : w_requests s6 = [7]) by (vm_compute; reflexivity).
  assert (H2 : w_results s6 = []) by (vm_compute; reflexivity).
  assert (H3 : length (w_attempts s6 7) = 6) by (vm_compute; reflexivity).
  clearbody s6.
  destruct (stuck (fun _ => true) 7 more s6) as [Hr Ha]; [rewrite H2; apply not_elem_of_nil|rewrite H3; done|].
  split; [|done]. clear -H1 H2 Hr H3.
  assert (Hgen : forall more s, 7 ∈ w_requests s -> 7 ∉ w_results (worker_run (fun _ => true) more s) ->
     7 ∈ w_requests (worker_run (fun _ => true) more s)).
  { clear. induction more as [|c more IH]; intros s Hq Hr; cbn [worker_run fold_left] in *; [done|]. apply IH; [|done].
    destruct (cycle_spec (fun _ : nat => true) (cy_max c) (cy_pick c) (cy_now c) (cy_finishes c) s) as [(x & Hx & _ & _ & E)|[E _]];
      rewrite E; [|done]. cbn. destruct (cy_finishes c) eqn:Ef; [|done]. apply elem_of_list_filter. split; [|done].
    intros E7. apply Hr. clear IH Hr. rewrite E, <- E7.
    assert (Hkeep : forall more s x, x ∈ w_results s -> x ∈ w_results (worker_run (fun _ : nat => true) more s)).
    { clear. induction more as [|c more IH]; intros s x Hx; cbn [worker_run fold_left]; [done|]. apply IH.
      destruct (cycle_spec (fun _ : nat => true) (cy_max c) (cy_pick c) (cy_now c) (cy_finishes c) s) as [(y & _ & _ & _ & E)|[E _]];
      rewrite E; [|done]. cbn. destruct (cy_finishes c); set_solver. }
    apply Hkeep. cbn. set_solver. }
  apply Hgen; [rewrite H1; set_solver|done].
Qed.
Print Assumptions C51_eventual_execution_refuted.

(** C51, what holds: if executions finish, a worker executes every queued call (not attempted before, accepted by its
    guards) exactly once within as many cycles as there are calls, whatever its random choices. *)
Theorem C51_queue_drained_partial : forall (A : Type) (eqA : EqDecision A) (guards : A -> bool) cs s,
  NoDup (w_requests s) ->
  (forall a, a ∈ w_requests s -> guards a = true /\ a ∉ w_results s /\ w_attempts s a = []) ->
  Forall (fun c => cy_finishes c = true) cs -> length (w_requests s) <= length cs ->
  let s' := worker_run guards cs s in
  w_requests s' = [] /\ (forall a, a ∈ w_results s' <-> a ∈ w_results s \/ a ∈ w_requests s)
  /\ (forall a, a ∈ w_requests s -> length (w_attempts s' a) = 1).
Proof. exact @queue_drained. Qed.
Print Assumptions C51_queue_drained_partial.

(** C51, what holds: up to five killed executions are survived: the call is executed by the next cycle that is late
    enough; and a call is started at most six times in total. *)
Theorem C51_five_failures_survived_partial : forall (A : Type) (eqA : EqDecision A) (guards : A -> bool) a,
  guards a = true -> forall s, w_requests s = [a] -> a ∉ w_results s -> length (w_attempts s a) <= 5 ->
  exists T, forall c, (T <= cy_now c)%Q -> cy_finishes c = true -> a ∈ w_results (worker_run guards [c] s).
Proof. exact @single_executed. Qed.
Print Assumptions C51_five_failures_survived_partial.
Theorem C51_at_most_six_starts : forall (A : Type) (eqA : EqDecision A) (guards : A -> bool) a cs s,
  length (w_attempts s a) <= 6 -> length (w_attempts (worker_run guards cs s) a) <= 6.
Proof. exact @attempts_bound. Qed.
Print Assumptions C51_at_most_six_starts.

Example C51_example : let s := worker_run (fun _ => true) [Cycle 200 1 0 true; Cycle 200 5 0 true; Cycle 200 0 0 true; Cycle 200 0 0 true]
    (WState [1; 2; 3] [] (fun _ => [])) in w_requests s = [] /\ w_results s = [1; 3; 2].
Proof. vm_compute. auto. Qed.

(** C60: whatever the environment does between passes ([looks]), every execution made by a worker was seen in a pass
    in which the parent was live, the call was requested, had no result, satisfied the retry policy and its guards
    accepted; there is at most one execution per cycle, and executions come from different passes. *)
Theorem C60_only_eligible_requests : forall (A : Type) (looks : nat -> look A) max_addresses pick fuel cycles t,
  let executed := background_worker looks max_addresses pick cycles fuel t in
  length executed <= cycles /\
  Forall (fun '(t', a) => t < t' /\ l_live (looks t') = true /\ a ∈ l_requests (looks t') /\
      needs_execution (l_ready (looks t') a) (l_attempts (looks t') a) (l_now (looks t')) = true /\
      l_guards (looks t') a = true) executed /\
  StronglySorted (fun x y : nat * A => fst x < fst y) executed.
Proof. exact @worker_sound. Qed.
Print Assumptions C60_only_eligible_requests.

(** C60: the worker ends when it sees the parent gone at the start of a cycle ... *)
Theorem C60_stops_without_parent : forall (A : Type) (looks : nat -> look A) max_addresses pick fuel cycles t,
  l_live (looks t) = false -> background_worker looks max_addresses pick cycles fuel t = [].
Proof. exact @worker_stops. Qed.
Print Assumptions C60_stops_without_parent.
(** ... and a pass that sees an eligible request executes something. *)
Theorem C60_progress : forall (A : Type) (looks : nat -> look A) max_addresses pick fuel t a,
  l_live (looks t) = true -> a ∈ l_requests (looks t) ->
  needs_execution (l_ready (looks t) a) (l_attempts (looks t) a) (l_now (looks t)) = true /\ l_guards (looks t) a = true ->
  exists b, process_random_execution_request looks max_addresses pick (S fuel) t = AExecute t b.
Proof. exact @process_progress. Qed.
Print Assumptions C60_progress.

(** two calls requested, one not accepted by its guard; the parent dies after pass 3 *)
Example C60_example :
  let looks := fun t => Look (t <=? 3) [1; 2] (fun a => bool_decide (a = 2) && (3 <=? t)) (fun _ => []) 0 (fun a => bool_decide (a = 2)) in
  background_worker looks (fun _ => 200) (fun t => t) 5 10 0 = [(1, 2)].
Proof. vm_compute. auto. Qed.

(** C59: a portal that drew its own id is live as long as no later event claims its node's record (a new portal with its own
    id over the same location and node) or deletes it (clearing ANY portal created over the same location on this node, or
    the exit of a process of this node that has a portal over the location). *)
Theorem C59_live_until_record_changes_partial :
  forall (Loc Node Rid : Type) (eqL : EqDecision Loc) (eqN : EqDecision Node) (eqR : EqDecision Rid)
    (h1 h2 : list (revent Loc Node Rid)) pr l n r c,
  (forall h e h', h2 = h ++ e :: h' -> let before := h1 ++ [RNew pr l n None r] ++ h in
     ~ claims e l n /\ ~ (exists i q rid, e = RClear i /\ created before !! i = Some (q, l, n, rid))
     /\ ~ (exists q, e = RProcessExit q n /\ exists i m rid, created before !! i = Some (q, l, m, rid))) ->
  parent_runtime_is_live (rrun (h1 ++ [RNew pr l n None r] ++ h2)) (SPortal l n r c) n = true.
Proof. exact @live_until_bool. Qed.
Print Assumptions C59_live_until_record_changes_partial.

(** C59: a live id was drawn by a portal created over this location on this node, and since then no other portal claimed
    the record and nothing deleted it; so workers of every older runtime see a dead parent. *)
Theorem C59_live_only_if_newest :
  forall (Loc Node Rid : Type) (eqL : EqDecision Loc) (eqN : EqDecision Node) (eqR : EqDecision Rid)
    (h : list (revent Loc Node Rid)) l m n r c,
  parent_runtime_is_live (rrun h) (SPortal l m r c) n = true ->
  exists h1 pr h2, h = h1 ++ RNew pr l n None r :: h2 /\
    forall h e h', h2 = h ++ e :: h' -> ~ claims e l n /\ ~ deletes (h1 ++ [RNew pr l n None r] ++ h) e l n.
Proof. exact @live_only_if. Qed.
Print Assumptions C59_live_only_if_newest.

(** C59 as stated is false: clearing the OLDER of two portals over one location deletes the newer one's record. *)
Theorem C59_clearing_old_portal_kills_new_refuted : exists h : list (revent nat nat nat),
  let s := rrun h in
  portals s = [(0, SPortal 1 1 10 true); (0, SPortal 1 1 20 false)] /\
  parent_runtime_is_live s (SPortal 1 1 20 false) 1 = false.
Proof. exists [RNew 0 1 1 None 10; RNew 0 1 1 None 20; RClear 0]. vm_compute. auto. Qed.
Print Assumptions C59_clearing_old_portal_kills_new_refuted.

Example C59_example :
  let h := [RNew 0 1 1 None 10; RNew 1 1 1 (Some 10) 0; RNew 0 2 1 None 30; RNew 5 1 2 None 40; RClear 2; RProcessExit 5 2] in
  let s := rrun h in
  parent_runtime_is_live s (SPortal 1 1 10 false) 1 = true /\ parent_runtime_is_live s (SPortal 2 1 30 true) 1 = false
  /\ parent_runtime_is_live s (SPortal 1 2 40 false) 2 = false.
Proof. vm_compute. auto. Qed.
