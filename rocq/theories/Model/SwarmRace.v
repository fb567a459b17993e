(** Model of several processes executing the calls of one location at the same time: background workers
    (_090_swarming_portals/swarming_portals.py:197-226) and programs that call or run functions directly
    (_070_pure_functions/pure_core_classes.py:404-442, 637-656, 794-819, 941-967, 969-979).  Between the check of
    needs_execution (swarming_portals.py:217) and the record of the attempt (pure_core_classes.py:955-958) other processes
    may do anything.  Simplifications: one location, no consistency checks (p_consistency_checks None), the guards as in
    Swarming.v; a body that raises and a process that is killed have the same effect here (attempt and request stay). *)
From Verif.Lib Require Import Py.
From Verif.Model Require Import Retry.
From Coq Require Import QArith.
Local Open Scope nat_scope.

Section Race.
  Context {A : Type} `{EqDecision A} (guards : A -> bool).

  (** what one process is doing *)
  Inductive phase :=
  | Idle
  | Picked (a : A) (checked : Q)                   (* needs_execution was True at time [checked]; not started yet *)
  | Running (a : A) (checked : option Q) (started : Q).   (* inside the frame, attempt recorded at time [started] *)

  Record rstate := RState {
    requests : list A; results : list A;
    attempts : A -> list Q;                        (* timestamps of the attempt records, newest first *)
    workers : list phase }.

  Inductive event :=
  | Request (a : A)                 (* swarm: request_execution, lines 648-656 *)
  | Check (w : nat) (a : A) (now : Q)   (* a worker finds the call worth executing and will choose it, lines 212-225 *)
  | Start (w : nat) (now : Q)       (* random_address.execute(), line 226, up to register_execution_attempt *)
  | Call (w : nat) (a : A) (now : Q)    (* a program calls the function: the same, without the check *)
  | Finish (w : nat)                (* the result is stored and the request dropped, lines 431-441 *)
  | Stop (w : nat).                 (* the process is killed, or the body raises *)

  Definition add_request (a : A) (s : rstate) : list A :=
    if decide (a ∈ results s) then filter (fun b => b <> a) (requests s)
    else if decide (a ∈ requests s) then requests s else a :: requests s.
  (** lines 416-425 of pure_core_classes.py: a stored result is used; otherwise the attempt is recorded and the request renewed *)
  Definition begin_execution (w : nat) (a : A) (checked : option Q) (now : Q) (s : rstate) : rstate :=
    if decide (a ∈ results s) then RState (requests s) (results s) (attempts s) (<[w := Idle]> (workers s))
    else RState (add_request a s) (results s) (fun b => if decide (b = a) then now :: attempts s b else attempts s b)
           (<[w := Running a checked now]> (workers s)).

  Definition step (s : rstate) (e : event) : rstate :=
    match e with
    | Request a => RState (add_request a s) (results s) (attempts s) (workers s)
    | Check w a now =>
        match workers s !! w with
        | Some Idle => if decide (a ∈ requests s) then
                         if needs_execution (bool_decide (a ∈ results s)) (attempts s a) now && guards a
                         then RState (requests s) (results s) (attempts s) (<[w := Picked a now]> (workers s)) else s
                       else s
        | _ => s
        end
    | Start w now => match workers s !! w with Some (Picked a checked) => begin_execution w a (Some checked) now s | _ => s end
    | Call w a now => match workers s !! w with Some Idle => begin_execution w a None now s | _ => s end
    | Finish w =>
        match workers s !! w with
        | Some (Running a _ _) => RState (filter (fun b => b <> a) (requests s)) (a :: results s) (attempts s) (<[w := Idle]> (workers s))
        | _ => s
        end
    | Stop w => RState (requests s) (results s) (attempts s) (<[w := Idle]> (workers s))
    end.
  Definition run (s : rstate) (es : list event) : rstate := fold_left step es s.
  (** [n] processes, nothing requested, attempted or stored yet *)
  Definition initial (n : nat) : rstate := RState [] [] (fun _ => []) (replicate n Idle).
End Race.
Arguments phase : clear implicits.
Arguments rstate : clear implicits.
Arguments event : clear implicits.
