(** Model of _090_swarming_portals/swarming_portals.py: liveness records of runtimes and background workers. *)
From Verif.Lib Require Import Py.
From Verif.Model Require Import Retry.
From Coq Require Import QArith.
Local Open Scope nat_scope.

(** ** Runtime ids (lines 32-76, 101-118, 131-135, 229-243) *)
Section Runtimes.
  (** storage locations (root_dict), nodes (get_node_signature()), runtime ids (random signatures) *)
  Context {Loc Node Rid : Type} `{EqDecision Loc} `{EqDecision Node} `{EqDecision Rid}.

  (** A SwarmingPortal object: where it stores, the node it was created on, its runtime id; [sp_cleared] after _clear() *)
  Record sportal := SPortal { sp_loc : Loc; sp_node : Node; sp_rid : Rid; sp_cleared : bool }.

  (** [records]: compute_nodes.pkl[[node, "runtime_id"]] of every storage location; [portals]: all portal objects of all
      processes, in order of creation, tagged with the process that holds them *)
  Record rstate := RState { records : dict (Loc * Node) Rid; portals : list (nat * sportal) }.

  Inductive revent :=
  | RNew (proc : nat) (l : Loc) (n : Node) (given : option Rid) (draw : Rid)  (* SwarmingPortal(root_dict=l, runtime_id=given) *)
  | RClear (i : nat)                       (* i-th portal: _clear() *)
  | RProcessExit (proc : nat) (n : Node).  (* atexit of a main process: _clean_runtime_id() *)

  (** lines 32-76  __init__: a portal that is given no runtime id draws one and records it.
      lines 131-135  _clear: deletes the node's record, whoever wrote it.
      lines 229-243  _clean_runtime_id: deletes the node's record in all portals of the process (cleared portals have
      left all_portals; line 67-68 registers it only for a process whose first portal has its own id). *)
  Definition rstep (s : rstate) (e : revent) : rstate :=
    match e with
    | RNew pr l n given draw =>
        match given with
        | None => RState (dict_set (l, n) draw (records s)) (portals s ++ [(pr, SPortal l n draw false)])
        | Some r => RState (records s) (portals s ++ [(pr, SPortal l n r false)])
        end
    | RClear i =>
        match portals s !! i with
        | Some (pr, p) => RState (dict_del (sp_loc p, sp_node p) (records s))
                             (<[i := (pr, SPortal (sp_loc p) (sp_node p) (sp_rid p) true)]> (portals s))
        | None => s
        end
    | RProcessExit pr n =>
        RState (fold_left (fun d '(q, p) => if decide (q = pr /\ sp_cleared p = false) then dict_del (sp_loc p, n) d else d)
                  (portals s) (records s)) (portals s)
    end.
  Definition rrun (h : list revent) : rstate := fold_left rstep h (RState [] []).

  (** lines 101-118  parent_runtime_is_live, called on node [n] (a worker runs on its parent's node) *)
  Definition parent_runtime_is_live (s : rstate) (p : sportal) (n : Node) : bool :=
    match dict_get (sp_loc p, n) (records s) with
    | Some r => bool_decide (r = sp_rid p)
    | None => false
    end.
End Runtimes.
Arguments rstate : clear implicits.
Arguments revent : clear implicits.
Arguments sportal : clear implicits.

(** ** Background workers (lines 177-226) *)
Section Workers.
  Context {A : Type} `{EqDecision A}.   (* result addresses *)

  (** What a worker sees during one pass over the queue; other processes may change everything between passes. *)
  Record look := Look {
    l_live : bool;                  (* parent_runtime_is_live() *)
    l_requests : list A;            (* iteration over portal.execution_requests *)
    l_ready : A -> bool;
    l_attempts : A -> list Q;
    l_now : Q;
    l_guards : A -> bool            (* can_be_executed *)
  }.

  (** lines 212-222  one pass of the for loop *)
  Fixpoint scan (l : look) (max_addresses : nat) (reqs acc : list A) : list A :=
    match reqs with
    | [] => acc
    | a :: reqs' =>
        if negb (needs_execution (l_ready l a) (l_attempts l a) (l_now l)) then scan l max_addresses reqs' acc
        else if negb (l_guards l a) then scan l max_addresses reqs' acc
        else let acc' := acc ++ [a] in
             if max_addresses <? length acc' then acc' else scan l max_addresses reqs' acc'
    end.

  (** what one run of _process_random_execution_request does *)
  Inductive action := AExecute (t : nat) (a : A) | AParentGone (t : nat) | AStillWaiting.

  (** lines 205-226: passes number t, t+1, ... until there is a candidate; [pick] is the random choice of line 225 *)
  Fixpoint process_random_execution_request (looks : nat -> look) (max_addresses : nat) (pick : nat -> nat)
      (fuel t : nat) : action :=
    match fuel with
    | 0 => AStillWaiting
    | S fuel' =>
        if l_live (looks t) then
          let candidates := scan (looks t) max_addresses (l_requests (looks t)) [] in
          match nth_error candidates (pick t mod length candidates) with
          | Some a => AExecute t a
          | None => process_random_execution_request looks max_addresses pick fuel' (S t)
          end
        else AParentGone t
    end.

  (** lines 177-195  _background_worker: every cycle starts one process that handles at most one request. Result: the executions made, in order. *)
  Fixpoint background_worker (looks : nat -> look) (max_addresses : nat -> nat) (pick : nat -> nat)
      (cycles fuel t : nat) : list (nat * A) :=
    match cycles with
    | 0 => []
    | S cycles' =>
        if l_live (looks t) then
          match process_random_execution_request looks (max_addresses t) pick fuel (S t) with
          | AExecute t' a => (t', a) :: background_worker looks max_addresses pick cycles' fuel (S t')
          | AParentGone t' => background_worker looks max_addresses pick cycles' fuel (S t')
          | AStillWaiting => []
          end
        else []
    end.

  (** ** A closed system: one worker, a queue, nobody else.  [outcome]: does the i-th execution of the run finish
      (true: result stored, request dropped; false: the worker process is killed in the middle, leaving its attempt
      record) -- pure_core_classes.py:423-442, 955-958. *)
  Record wstate := WState { w_requests : list A; w_results : list A; w_attempts : A -> list Q }.

  Definition look_of (s : wstate) (guards : A -> bool) (now : Q) : look :=
    Look true (w_requests s) (fun a => bool_decide (a ∈ w_results s)) (w_attempts s) now guards.

  Definition worker_cycle (guards : A -> bool) (max_addresses pick : nat) (now : Q) (finishes : bool) (s : wstate)
    : wstate :=
    let candidates := scan (look_of s guards now) max_addresses (w_requests s) [] in
    match nth_error candidates (pick mod length candidates) with
    | None => s
    | Some a =>
        let attempts := fun b => if decide (b = a) then now :: w_attempts s b else w_attempts s b in
        if finishes
        then WState (filter (fun b => b <> a) (w_requests s)) (a :: w_results s) attempts
        else WState (w_requests s) (w_results s) attempts
    end.

  Record cycle := Cycle { cy_max : nat; cy_pick : nat; cy_now : Q; cy_finishes : bool }.
  Definition worker_run (guards : A -> bool) (cs : list cycle) (s : wstate) : wstate :=
    fold_left (fun s c => worker_cycle guards (cy_max c) (cy_pick c) (cy_now c) (cy_finishes c) s) cs s.
End Workers.
Arguments look : clear implicits.
Arguments wstate : clear implicits.
