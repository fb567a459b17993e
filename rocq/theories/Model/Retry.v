(** Model of PureFnExecutionResultAddr.needs_execution (_070_pure_functions/pure_core_classes.py:793-820). *)
From Verif.Lib Require Import Py.
From Coq Require Import QArith.
Local Open Scope nat_scope.

Definition DEFAULT_EXECUTION_TIME : Q := 10.   (* line 800 *)
Definition MAX_EXECUTION_ATTEMPTS : nat := 5.  (* line 801 *)

Definition Qmax (a b : Q) : Q := if Qle_bool a b then b else a.
(** max(timestamps) of lines 813-814; only called on a non-empty list *)
Fixpoint latest (l : list Q) (acc : Q) : Q :=
  match l with [] => acc | x :: l' => latest l' (Qmax acc x) end.

(** lines 793-820.  [attempts]: timestamps of the recorded attempts of this call; [now]: time.time() *)
Definition needs_execution (ready : bool) (attempts : list Q) (now : Q) : bool :=
  if ready then false
  else
    let n_past_attempts := length attempts in
    match attempts with
    | [] => true
    | t :: ts =>
        if MAX_EXECUTION_ATTEMPTS <? n_past_attempts then false
        else
          let most_recent := latest ts t in
          negb (Qle_bool (now - most_recent) (DEFAULT_EXECUTION_TIME * inject_Z (2 ^ Z.of_nat n_past_attempts)))
    end.
