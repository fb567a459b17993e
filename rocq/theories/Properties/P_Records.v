(** C61: execution records.  [holds dec rs h]: the run history [h] of a call holds what the runs [rs] logged, in any
    storage order; [dec] is Python's str() on integers. *)
From Verif.Lib Require Import Py.
From Verif.Model Require Import Records.
From Verif.Spec Require Import RecordsSpec.
From Verif.Proofs Require Import RecordsP.
From Coq Require Import Ascii.
From stdpp Require Import sets.

(** There is exactly one record per run. *)
Theorem C61_one_record_per_run : forall Ctx Crash Val dec (rs : list (run_log Ctx Crash Val)) h,
  holds dec rs h -> execution_records h ≡ₚ map session_id rs.
Proof. intros *. apply records_list. Qed.
Print Assumptions C61_one_record_per_run.

(** Full claim: each record shows its own run's context, output, result and crashes.  Proved when the session ids are
    "run" + a signature without '_', are distinct and all of one length [n] (22-digit signatures: true unless the
    random number is below 32^21, see C03), and no session id occurs inside a name of a recorded exception.
    MISSING: the claim without the equal length assumption, which is false (C61_record_mixup_refuted). *)
Theorem C61_records_show_own_run_partial : forall Ctx Crash Val dec (rs : list (run_log Ctx Crash Val)) h n,
  (forall i, "r"%char ∉ dec i) ->
  NoDup (map session_id rs) -> (forall r, r ∈ rs -> session_like (session_id r) /\ length (session_id r) = n) ->
  (forall r r' c, r ∈ rs -> r' ∈ rs -> c ∈ crashes r' -> ~ part_of (session_id r) (c_name c)) ->
  holds dec rs h ->
  forall r, r ∈ rs ->
    record_context h (session_id r) = Some (context r)
    /\ record_output h (session_id r) = output r
    /\ record_result h (session_id r) = match result r with Some v => Ok v | None => Err AssertionError end
    /\ record_crashes h (session_id r) ≡ₚ map c_data (crashes r).
Proof.
  intros * Hdec Hn Hs Hnames Hh r Hr.
  assert (separated rs) by (apply (equal_length_separated rs n); [done|]; intros q Hq; by destruct (Hs q Hq)).
  assert (forall r, r ∈ rs -> session_like (session_id r)) by (intros q Hq; by destruct (Hs q Hq)).
  split_and!.
  - by eapply record_context_own.
  - by eapply record_output_own.
  - by eapply record_result_own.
  - eapply record_crashes_own; eauto.
Qed.
Print Assumptions C61_records_show_own_run_partial.

(** Two runs with ids as the library makes them, one of them a run that was killed and has a short random signature
    that is part of the other's: its record shows the other run's output. *)
Definition killed : run_log nat nat nat := RunLog (lit "runab") 0 None [] None.
Definition normal : run_log nat nat nat := RunLog (lit "runabc") 1 (Some (lit "hello")) [] (Some 5).
Definition mixed : history nat nat nat :=
  History [(lit "runab_a", 0); (lit "runabc_a", 1)] [(lit "runabc_output", lit "hello")] [(lit "runabc", 5)] [].
Theorem C61_record_mixup_refuted : exists (rs : list (run_log nat nat nat)) h r, r ∈ rs /\
  (forall dec, holds dec rs h) /\ NoDup (map session_id rs) /\ (forall r, r ∈ rs -> session_like (session_id r)) /\
  output r = None /\ record_output h (session_id r) = Some (lit "hello") /\
  result r = None /\ record_result h (session_id r) = Ok 5.
Proof.
  exists [killed; normal], mixed, killed. split_and!; try done.
  - set_solver.
  - repeat constructor; set_solver.
  - intros r [->|[->|Hr]%elem_of_cons]%elem_of_cons; [| |set_solver].
    + exists (lit "ab"). split; [done|]. repeat constructor; done.
    + exists (lit "abc"). split; [done|]. repeat constructor; done.
Qed.
Print Assumptions C61_record_mixup_refuted.

(** The hypotheses hold for a failed run and a successful one. *)
Example C61_example :
  let dec := fun n => replicate n "1"%char in
  let r1 := RunLog (lit "runab1") 0 (Some (lit "oops")) [CrashRec (lit "ValueError_f_isl") 7] (None : option nat) in
  let r2 := RunLog (lit "runab2") 1 (Some (lit "fine")) [] (Some 42) in
  let h := History [(lit "runab2_a", 1); (lit "runab1_a", 0)] [(lit "runab1_output", lit "oops"); (lit "runab2_output", lit "fine")]
             [(lit "runab2", 42)] [(lit "ValueError_f_isl_runab1_", 7)] in
  (forall i, "r"%char ∉ dec i) /\ holds dec [r1; r2] h
  /\ (forall r r' c, r ∈ [r1; r2] -> r' ∈ [r1; r2] -> c ∈ crashes r' -> ~ part_of (session_id r) (c_name c))
  /\ record_crashes h (lit "runab1") = [7] /\ record_result h (lit "runab2") = Ok 42
  /\ record_result h (lit "runab1") = Err AssertionError.
Proof.
  cbn zeta. split_and!; try done.
  - intros i [? _]%elem_of_replicate. done.
  - split_and!; try done. constructor.
  - intros r r' c Hr Hr' Hc Hp. apply occurs_in_iff in Hp.
    assert (c = CrashRec (lit "ValueError_f_isl") 7) as ->.
    { apply elem_of_cons in Hr' as [->|Hr']; [set_solver|]. apply elem_of_list_singleton in Hr' as ->. set_solver. }
    apply elem_of_cons in Hr as [->|Hr]; [by vm_compute in Hp|]. apply elem_of_list_singleton in Hr as ->. by vm_compute in Hp.
Qed.
