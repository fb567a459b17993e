(** Model of PureFnExecutionResultAddr.get (_070_pure_functions/pure_core_classes.py:671-718): polling with
    exponential backoff until a timeout. Times are rational numbers of seconds. *)
From Verif.Lib Require Import Py.
From Coq Require Import QArith.

(** What the environment decides. [e_ready i]: whether the i-th look at the stores finds the result (another process
    may store it at any time); [e_delay i] >= 0: by how much the i-th sleep (and the work around it) takes longer than
    asked; [e_jitter i]: the i-th draw of entropy_infuser.uniform(-0.5, 0.5). *)
Record env := Env { e_ready : nat -> bool; e_delay : nat -> Q; e_jitter : nat -> Q }.

Inductive outcome :=
| Returned          (* the stored value is returned *)
| TimedOut          (* TimeoutError *)
| Rejected          (* the assertion on the timeout failed *)
| StillWaiting.     (* the model ran out of fuel *)

Record run := Run {
  r_outcome : outcome;
  r_clock : Q;           (* time.time() at the end *)
  r_requested : bool;    (* is the call in portal.execution_requests at the end *)
  r_sleeps : list Q      (* the durations asked of time.sleep, in order *)
}.

Definition Qgtb (a b : Q) : bool := negb (Qle_bool a b).          (* a > b *)
Definition Qmax1 (b : Q) : Q := if Qle_bool 1 b then b else 1.    (* max(1.0, b) *)

(** lines 702-718  the while loop; [n] is the number of sleeps so far; looks number 2, 3, ... are made here
    (looks 0 and 1 happen at line 688 and inside request_execution). *)
Fixpoint wait_loop (e : env) (fuel n : nat) (clock backoff : Q) (stop : option Q) (slept : list Q) : run :=
  match fuel with
  | O => Run StillWaiting clock true slept
  | S fuel' =>
      if e_ready e (2 + n) then Run Returned clock false slept                (* 703-707, request dropped *)
      else
        let clock' := (clock + backoff + e_delay e n)%Q in                    (* 709 *)
        let slept' := slept ++ [backoff] in
        let b := (backoff * 2 + e_jitter e n)%Q in                            (* 710-711 *)
        match stop with
        | Some s =>                                                           (* 712-717 *)
            let b := if Qgtb (clock' + b) s then (s - clock')%Q else b in
            if Qgtb clock' s then Run TimedOut clock' true slept'
            else wait_loop e fuel' (S n) clock' (Qmax1 b) stop slept'
        | None => wait_loop e fuel' (S n) clock' (Qmax1 b) stop slept'
        end
  end.

(** lines 671-718  get(timeout).  [cached]: the object already has _result (683-684); [requested]: is the call already
    requested.  Once [ready] was seen it stays cached in the object (lines 625-635), so look 1 after a positive look 0
    does not occur.  Simplification: line 712 tests the truth of stop_time, which is non-zero for real clocks. *)
Definition get (e : env) (fuel : nat) (start : Q) (timeout : option Q) (cached requested : bool) : run :=
  let bad := match timeout with Some t => Qgtb 0 t | None => false end in
  if bad then Run Rejected start requested []                                 (* 682 *)
  else if cached then Run Returned start requested []                         (* 683-684 *)
  else if e_ready e 0 then Run Returned start requested []                    (* 688-691 *)
  else if e_ready e 1 then Run Returned start false []                        (* 693, then 703 with _ready cached *)
  else wait_loop e fuel 0 start 1 (option_map (fun t => start + t)%Q timeout) [].
