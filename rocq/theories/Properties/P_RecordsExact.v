(** C131: exactly what an execution record shows.  [holds dec rs h]: the run history [h] holds what the runs [rs] logged, in some
    storage order; [part_of a b]: text a occurs in text b. *)
From Verif.Lib Require Import Py.
From Verif.Model Require Import Records.
From Verif.Spec Require Import RecordsSpec.
From Verif.Proofs Require Import RecordsP RecordsExactP.
From Coq Require Import Ascii.
From stdpp Require Import sets.

(** The output that the record of a session shows is that of a run whose session id contains the record's; the order of storage
    decides which one, and each of them is shown in some order.  None is shown exactly if there is none. *)
Theorem C131_output_exactly : forall Ctx Crash Val dec (rs : list (run_log Ctx Crash Val)) sid, session_like sid ->
  (forall o, (exists h, holds dec rs h /\ record_output h sid = Some o) <-> exists r, r ∈ rs /\ part_of sid (session_id r) /\ output r = Some o) /\
  (forall h, holds dec rs h -> record_output h sid = None <-> forall r, r ∈ rs -> part_of sid (session_id r) -> output r = None).
Proof.
  intros Ctx Crash Val dec rs sid Hs. split.
  - intros o. rewrite <- output_parts, <- find_first_possible by done. split.
    + intros (h & (_ & Ho & _) & H). by exists (h_outputs h).
    + intros (d & Hd & H). exists (History (map attempt_entry rs) d (flat_map result_entries rs) (flat_map (crash_entries dec) rs)). done.
  - intros h (_ & Ho & _). unfold record_output. rewrite find_first_none_iff. split.
    + intros H r Hr Hp. destruct (output r) as [o|] eqn:Eo; [|done]. exfalso.
      destruct (proj2 (output_parts rs sid o Hs)) as (k & Hk & Hpk); [by exists r|]. rewrite <- Ho in Hk. by eapply H.
    + intros H k v Hk Hp. rewrite Ho in Hk. destruct (proj1 (output_parts rs sid v Hs)) as (r & Hr & Hpr & E); [by exists k|].
      by rewrite (H r Hr Hpr) in E.
Qed.
Print Assumptions C131_output_exactly.
(** The same for results *)
Theorem C131_result_exactly : forall Ctx Crash Val dec (rs : list (run_log Ctx Crash Val)) sid, session_like sid ->
  (forall v, (exists h, holds dec rs h /\ record_result h sid = Ok v) <-> exists r, r ∈ rs /\ part_of sid (session_id r) /\ result r = Some v) /\
  (forall h, holds dec rs h -> record_result h sid = Err AssertionError <-> forall r, r ∈ rs -> part_of sid (session_id r) -> result r = None).
Proof.
  intros Ctx Crash Val dec rs sid Hs. split.
  - intros v. rewrite <- result_parts, <- find_first_possible. unfold record_result. split.
    + intros (h & (_ & _ & Ho & _) & H). exists (h_results h). split; [done|]. destruct (find_first sid (h_results h)) as [w|]; [|done]. by injection H as ->.
    + intros (d & Hd & H). exists (History (map attempt_entry rs) (flat_map output_entries rs) d (flat_map (crash_entries dec) rs)). split; [done|].
      cbn [h_results]. by rewrite H.
  - intros h (_ & _ & Ho & _). unfold record_result. transitivity (find_first sid (h_results h) = None).
    { destruct (find_first sid (h_results h)); done. }
    rewrite find_first_none_iff. split.
    + intros H r Hr Hp. destruct (result r) as [o|] eqn:Eo; [|done]. exfalso.
      destruct (proj2 (result_parts rs sid o)) as (k & Hk & Hpk); [by exists r|]. rewrite <- Ho in Hk. by eapply H.
    + intros H k v Hk Hp. rewrite Ho in Hk. destruct (proj1 (result_parts rs sid v)) as (r & Hr & Hpr & E); [by exists k|].
      by rewrite (H r Hr Hpr) in E.
Qed.
Print Assumptions C131_result_exactly.
(** ... and for contexts, which every run has. *)
Theorem C131_context_exactly : forall Ctx Crash Val dec (rs : list (run_log Ctx Crash Val)) sid, session_like sid ->
  (forall c, (exists h, holds dec rs h /\ record_context h sid = Some c) <-> exists r, r ∈ rs /\ part_of sid (session_id r) /\ context r = c) /\
  (forall h, holds dec rs h -> record_context h sid = None <-> forall r, r ∈ rs -> ~ part_of sid (session_id r)).
Proof.
  intros Ctx Crash Val dec rs sid Hs. split.
  - intros c. rewrite <- attempt_parts, <- find_first_possible by done. split.
    + intros (h & (Ho & _) & H). by exists (h_attempts h).
    + intros (d & Hd & H). exists (History d (flat_map output_entries rs) (flat_map result_entries rs) (flat_map (crash_entries dec) rs)). done.
  - intros h (Ho & _). unfold record_context. rewrite find_first_none_iff. split.
    + intros H r Hr Hp. destruct (proj2 (attempt_parts rs sid (context r) Hs)) as (k & Hk & Hpk); [by exists r|]. rewrite <- Ho in Hk. by eapply H.
    + intros H k v Hk Hp. rewrite Ho in Hk. destruct (proj1 (attempt_parts rs sid v Hs)) as (r & Hr & Hpr & E); [by exists k|]. by eapply H.
Qed.
Print Assumptions C131_context_exactly.
(** The crashes that a record shows are those of the runs whose session ids contain the record's, and those whose exception, function or
    island names contain it. *)
Theorem C131_crashes_exactly : forall Ctx Crash Val dec (rs : list (run_log Ctx Crash Val)) h sid,
  (forall i, "r"%char ∉ dec i) -> session_like sid -> holds dec rs h ->
  record_crashes h sid ≡ₚ flat_map (fun r => map c_data (filter (fun c => part_of sid (session_id r) \/ part_of sid (c_name c)) (crashes r))) rs.
Proof. intros Ctx Crash Val dec rs h sid Hd Hs Hh. by apply (crashes_exact dec). Qed.
Print Assumptions C131_crashes_exactly.

(** Hence a record shows its own run's data in all storage orders exactly if all runs whose ids contain its id have the same data or (for
    outputs and results) none. *)
Theorem C131_own_data_exactly : forall Ctx Crash Val dec (rs : list (run_log Ctx Crash Val)) r, r ∈ rs -> session_like (session_id r) ->
  let like r' := r' ∈ rs /\ part_of (session_id r) (session_id r') in
  ((forall h, holds dec rs h -> record_output h (session_id r) = output r) <-> forall r' o, like r' -> output r' = Some o -> output r = Some o) /\
  ((forall h, holds dec rs h -> record_result h (session_id r) = match result r with Some v => Ok v | None => Err AssertionError end) <->
    forall r' v, like r' -> result r' = Some v -> result r = Some v) /\
  ((forall h, holds dec rs h -> record_context h (session_id r) = Some (context r)) <-> forall r', like r' -> context r' = context r).
Proof.
  intros Ctx Crash Val dec rs r Hr Hs like. split; [|split].
  - destruct (C131_output_exactly Ctx Crash Val dec rs _ Hs) as [P1 P2]. split.
    + intros H r' o [Hr' Hp] Ho. destruct (proj2 (P1 o)) as (h & Hh & E); [by exists r'|]. by rewrite (H h Hh) in E.
    + intros H h Hh. destruct (record_output h (session_id r)) as [o|] eqn:E.
      * destruct (proj1 (P1 o)) as (r' & Hr' & Hp & Ho); [by exists h|]. symmetry. by apply (H r').
      * symmetry. apply (proj1 (P2 h Hh) E r Hr). apply part_refl.
  - destruct (C131_result_exactly Ctx Crash Val dec rs _ Hs) as [P1 P2]. split.
    + intros H r' o [Hr' Hp] Ho. destruct (proj2 (P1 o)) as (h & Hh & E); [by exists r'|]. rewrite (H h Hh) in E. destruct (result r); [|done].
      by injection E as ->.
    + intros H h Hh. destruct (record_result h (session_id r)) as [o|e] eqn:E.
      * destruct (proj1 (P1 o)) as (r' & Hr' & Hp & Ho); [by exists h|]. by rewrite (H r' o).
      * assert (e = AssertionError) as ->.
        { unfold record_result in E. destruct (find_first _ _); [done|]. by injection E. }
        by rewrite (proj1 (P2 h Hh) E r Hr (part_refl _)).
  - destruct (C131_context_exactly Ctx Crash Val dec rs _ Hs) as [P1 P2]. split.
    + intros H r' [Hr' Hp]. destruct (proj2 (P1 (context r'))) as (h & Hh & E); [by exists r'|]. rewrite (H h Hh) in E. by injection E.
    + intros H h Hh. destruct (record_context h (session_id r)) as [o|] eqn:E.
      * destruct (proj1 (P1 o)) as (r' & Hr' & Hp & <-); [by exists h|]. f_equal. by apply H.
      * exfalso. apply (proj1 (P2 h Hh) E r Hr). apply part_refl.
Qed.
Print Assumptions C131_own_data_exactly.

(** A killed run without output and a later one whose id contains its id: its record shows the other's output, whatever the order. *)
Example C131_example :
  let r1 := RunLog (lit "runab") 0 None [] (None : option nat) in
  let r2 := RunLog (lit "runcrunab") 1 (Some (lit "hello")) [CrashRec (lit "E_f_isl") 7] (Some 5) in
  session_like (session_id r1) /\ session_like (session_id r2) /\ part_of (session_id r1) (session_id r2) /\ ~ part_of (session_id r2) (session_id r1) /\
  forall dec h, (forall i, "r"%char ∉ dec i) -> holds dec [r1; r2] h -> record_crashes h (session_id r1) = [7] /\ record_output h (session_id r1) = Some (lit "hello").
Proof.
  cbn zeta. assert (S1 : session_like (lit "runab")) by (exists (lit "ab"); split; [done|repeat constructor; done]).
  assert (P1 : part_of (lit "runab") (lit "runcrunab")) by (exists (lit "runc"), []; done).
  split; [done|]. split; [exists (lit "crunab"); split; [done|repeat constructor; done]|]. split; [done|].
  split; [intros H%part_len; cbn in H; lia|]. intros dec h Hd Hh. split.
  - pose proof (C131_crashes_exactly _ _ _ dec _ h (lit "runab") Hd S1 Hh) as P. cbn [flat_map map crashes session_id] in P.
    rewrite filter_cons, decide_True in P by (by left). cbn in P. by apply Permutation_length_1_inv, eq_sym in P || (symmetry in P; by apply Permutation_length_1_inv in P).
  - destruct (C131_output_exactly nat nat nat dec [RunLog (lit "runab") 0 None [] None; RunLog (lit "runcrunab") 1 (Some (lit "hello")) [CrashRec (lit "E_f_isl") 7] (Some 5)] (lit "runab") S1) as [Q1 Q2].
    destruct (record_output h (lit "runab")) as [o|] eqn:E.
    + destruct (proj1 (Q1 o)) as (r & Hr & _ & Ho); [by exists h|]. apply elem_of_cons in Hr as [->|Hr]; [discriminate Ho|]. apply elem_of_list_singleton in Hr as ->. transitivity (Some o); [exact E|symmetry; exact Ho].
    + specialize (proj1 (Q2 h Hh) E _ (elem_of_list_further _ _ _ (elem_of_list_here _ _)) P1). discriminate.
Qed.
