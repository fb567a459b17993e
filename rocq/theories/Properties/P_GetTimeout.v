(** C49: get(timeout).  The environment ([env]) decides when another process stores the result, how late each sleep
    returns and the random jitter; [fuel] only bounds the model's recursion (any fuel above the timeout suffices). *)
From Verif.Lib Require Import Py.
From Verif.Model Require Import GetTimeout.
From Verif.Proofs Require Import GetTimeoutP.
From Coq Require Import QArith.
Local Open Scope Q_scope.

(** For every environment and every timeout t >= 0: the call ends; it returns not later than t after the start and
    only if the result was seen (or cached); or it raises TimeoutError strictly after t, at most one second plus the
    lateness of the last sleep later, with the call still requested and the result not seen in any look.  Every sleep
    lasts at least one second and there are at most t+1 sleeps. *)
Theorem C49_get_ends_in_time : forall e, (forall i, 0 <= e_delay e i) -> forall start t fuel cached requested,
  0 <= t -> t < inject_Z (Z.of_nat fuel) ->
  let r := get e fuel start (Some t) cached requested in
  match r_outcome r with
  | Returned => (cached = true \/ exists i, e_ready e i = true) /\ r_clock r <= start + t
  | TimedOut => start + t < r_clock r
      /\ r_clock r <= start + t + 1 + e_delay e (pred (length (r_sleeps r)))
      /\ r_requested r = true /\ cached = false
      /\ forall i, (i < 2 + length (r_sleeps r))%nat -> e_ready e i = false
  | Rejected | StillWaiting => False
  end
  /\ Forall (fun b => 1 <= b) (r_sleeps r) /\ inject_Z (Z.of_nat (length (r_sleeps r))) <= t + 1.
Proof. exact get_timeout. Qed.
Print Assumptions C49_get_ends_in_time.

(** Without a timeout it never raises, and it returns at the first look that sees the result. *)
Theorem C49_no_timeout_waits : forall e start k fuel requested,
  e_ready e k = true -> (forall i, (i < k)%nat -> e_ready e i = false) -> (k <= fuel)%nat ->
  let r := get e (S fuel) start None false requested in
  r_outcome r = Returned /\ length (r_sleeps r) = (k - 2)%nat.
Proof. exact get_forever. Qed.
Print Assumptions C49_no_timeout_waits.
Theorem C49_no_timeout_never_raises : forall e start fuel cached requested,
  let o := r_outcome (get e fuel start None cached requested) in o = Returned \/ o = StillWaiting.
Proof. exact get_no_timeout. Qed.
Print Assumptions C49_no_timeout_never_raises.

(** Finding: TimeoutError can be raised although the result is stored: there is no look after the last sleep. *)
Theorem C49_stored_but_timeout : exists e, (forall i, 0 <= e_delay e i) /\ e_ready e 3 = true /\
  let r := get e 10 0 (Some (1#2)) false false in r_outcome r = TimedOut /\ length (r_sleeps r) = 1%nat.
Proof.
  exists (Env (fun i => Nat.leb 3 i) (fun _ => 0) (fun _ => 0)). split; [intros; apply Qle_refl|]. vm_compute. auto.
Qed.
Print Assumptions C49_stored_but_timeout.

(** sleeps of 1, 2.5 and then the remaining 6.5 seconds *)
Example C49_example :
  let e := Env (fun _ => false) (fun _ => 1#10) (fun _ => 1#2) in
  let r := get e 20 0 (Some 10) false false in
  r_outcome r = TimedOut /\ map Qred (r_sleeps r) = [1; 5#2; 11#2; 1] /\ Qred (r_clock r) = 52#5.
Proof. vm_compute. auto. Qed.
Example C49_example_returned :
  let e := Env (fun i => Nat.leb 4 i) (fun _ => 0) (fun _ => 0) in
  let r := get e 20 0 (Some 10) false false in
  r_outcome r = Returned /\ map Qred (r_sleeps r) = [1; 2] /\ Qred (r_clock r) = 3 /\ r_requested r = false.
Proof. vm_compute. auto. Qed.
