(** C53 - C56, C64, C65: crash histories and event logs.  [h] is the exception being handled around the program (None if
    none); [separate place]: no two portals keep their files at the same place; [log_ok] (Spec/LoggingSpec.v) holds of
    new logs and is preserved by every program. *)
From Verif.Lib Require Import Py DictLemmas.
From Verif.Model Require Import Logging.
From Verif.Spec Require Import LoggingSpec.
From Verif.Proofs Require Import LoggingP.
From stdpp Require Import gmap pretty.
Local Open Scope nat_scope.

Definition older_than_next {V} (h : option nat) (s : lstate (V := V)) : Prop := forall e, h = Some e -> e < next_exn s.

(** log_ok is not an extra assumption: new logs have it, every program keeps it. *)
Theorem C53_logs_stay_ok : forall V place, separate place ->
  log_ok place (fresh_logs (V := V)) /\
  forall (pr : prog (V := V)) h s s' r, log_ok place s -> older_than_next h s -> exec place h pr s = (s', r) ->
    log_ok place s' /\ older_than_next r s' /\ opened s' = opened s.
Proof.
  intros * Hs. split.
  - split_and!; cbn; try (intros * H; by apply elem_of_nil in H). intros; cbn; lia.
  - intros * Hok Hh E. destruct (exec_block place Hs pr 0 h s s' r I ltac:(lia) Hok Hh E) as (G & O & B). split_and!; [apply G|done|done].
Qed.
Print Assumptions C53_logs_stay_ok.
(** Nothing is ever recorded twice, in any portal, in any section. *)
Theorem C53_at_most_once : forall V place, separate place -> forall (pr : prog (V := V)) s' r,
  exec place None pr fresh_logs = (s', r) -> forall e q section, records place s' e q section <= 1.
Proof.
  intros * Hs * E. destruct (C53_logs_stay_ok V place Hs) as [H0 H1]. destruct (H1 pr None _ _ _ H0 ltac:(done) E) as ((_ & _ & _ & H & _) & _). exact H.
Qed.
Print Assumptions C53_at_most_once.
(** An exception that leaves a 'with' block and has not been logged before goes on, and is now recorded once in the
    "__CATCH_ALL__" section of exactly the portals entered at that moment.  (What is missing: see the refutations.) *)
Theorem C53_first_boundary_partial : forall V place, separate place ->
  forall (body : prog (V := V)) h s p s1 e, log_ok place s -> older_than_next h s ->
  exec place h body (with_opened (p :: opened s) s) = (s1, Some e) -> e ∉ marked s1 ->
  exists s', exec place h (PWith p body) s = (s', Some e) /\
    (forall q, records place s' e q None = if decide (q ∈ p :: opened s) then 1 else 0) /\
    (forall e' q section, e' <> e -> records place s' e' q section = records place s1 e' q section) /\ e ∈ marked s'.
Proof.
  intros * Hs * Hok Hh E Hm. destruct (exec_block place Hs body 0 h _ _ _ I ltac:(lia) (log_ok_opened place s _ Hok) ltac:(exact Hh) E) as (G & O & B).
  cbn in O. destruct (logger_ok place Hs (Some e) s1 (proj1 G) B) as (s2 & E2 & G2 & O2 & _ & _ & _ & _ & H1 & H2).
  exists (with_opened (opened s) s2). cbn [exec]. unfold run_with. rewrite E. unfold exit_with. rewrite E2, O2, O. split; [done|].
  destruct (H1 e eq_refl) as [H3 H4]. split_and!; [|intros; apply H2; left; congruence|done]. intros q. rewrite <- O. exact (H4 Hm q None).
Qed.
Print Assumptions C53_first_boundary_partial.
(** The same for an exception that leaves a function first: also once in the function's own section. *)
Theorem C53_function_boundary_partial : forall V place, separate place ->
  forall (body : prog (V := V)) h s f s1 e, log_ok place s -> older_than_next h s ->
  exec place h body s = (s1, Some e) -> e ∉ marked s1 ->
  exists s', exec place h (POrdinary f body) s = (s', Some e) /\
    (forall q, records place s' e q None = if decide (q ∈ opened s) then 1 else 0) /\
    (forall q, records place s' e q (Some f) = if decide (q ∈ opened s) then 1 else 0) /\ e ∈ marked s'.
Proof.
  intros * Hs * Hok Hh E Hm. destruct (exec_block place Hs body 0 h _ _ _ I ltac:(lia) Hok Hh E) as (G & O & B).
  destruct (persist_ok place Hs e [OfFn f; CatchAll (today s1)] (inl f) s1 (proj1 G) (B _ eq_refl) ltac:(repeat constructor; set_solver) I (fn_once _ _))
    as (s2 & E2 & _ & _ & _ & _ & _ & _ & _ & H1 & _ & _ & H2 & _).
  exists s2. cbn [exec]. unfold run_function. rewrite E, E2. specialize (H2 Hm). split_and!; [by destruct (needs_processing e s1)| | |done].
  - intros q. rewrite H2, O. cbn. lia.
  - intros q. rewrite H2, O. cbn. rewrite String.eqb_refl. cbn. lia.
Qed.
Print Assumptions C53_function_boundary_partial.
(** Autonomous and pure functions run their bodies inside 'with' their portal, so that portal has it too. *)
Theorem C53_autonomous_function_partial : forall V place, separate place ->
  forall (body : prog (V := V)) h s f p s1 e, log_ok place s -> older_than_next h s ->
  exec place h body (with_opened (p :: opened s) s) = (s1, Some e) -> e ∉ marked s1 ->
  exists s', exec place h (PAutonomous f p body) s = (s', Some e) /\
    forall q section, section = None \/ section = Some f -> records place s' e q section = if decide (q ∈ p :: opened s) then 1 else 0.
Proof.
  intros * Hs * Hok Hh E Hm.
  destruct (C53_function_boundary_partial V place Hs body h (with_opened (p :: opened s) s) f s1 e Hok Hh E Hm) as (s2 & E2 & R1 & R2 & M2).
  destruct (exec_block place Hs (POrdinary f body) 0 h _ _ _ I ltac:(lia) (log_ok_opened place s (p :: opened s) Hok) ltac:(exact Hh) E2) as (G & O & B).
  destruct (logger_ok place Hs (Some e) s2 (proj1 G) B) as (s3 & E3 & G3 & O3 & _ & _ & _ & _ & H1 & H2).
  cbn [exec] in E2 |- *. exists (with_opened (opened s) s3). unfold run_with. rewrite E2. unfold exit_with. rewrite E3, O3, O. split; [done|].
  intros q section Hk. change (records place s3 e q section = if decide (q ∈ p :: opened s) then 1 else 0). rewrite H2 by (by right).
  destruct Hk as [->| ->]; [apply R1|apply R2].
Qed.
Print Assumptions C53_autonomous_function_partial.
(** Once marked (by its first boundary), an exception is never recorded again, whatever else it passes or is raised through. *)
Theorem C53_never_again : forall V place, separate place ->
  forall (pr : prog (V := V)) h s s' r e, log_ok place s -> older_than_next h s -> e ∈ marked s ->
  exec place h pr s = (s', r) -> (forall q section, records place s' e q section = records place s e q section) /\ e ∈ marked s'.
Proof.
  intros * Hs * Hok Hh Hm E. destruct (exec_block place Hs pr 0 h _ _ _ I ltac:(lia) Hok Hh E) as ((_ & _ & _ & Hm' & _ & new & Hc & Hn) & _).
  split; [|auto]. intros q k. unfold records. rewrite Hc, List.filter_app, app_length.
  assert (cnt place new e q k = 0) as H0.
  { apply cnt_none. intros c Hx <-. by apply (Hn c Hx). }
  unfold cnt in H0. lia.
Qed.
Print Assumptions C53_never_again.
(** The plain case: an exception raised inside any nest of portals. *)
Theorem C53_nested_portals : forall V place, separate place -> forall ps p (s : lstate (V := V)) h, log_ok place s -> older_than_next h s ->
  exists s', exec place h (nest (p :: ps) PRaise) s = (s', Some (next_exn s)) /\
    forall q, records place s' (next_exn s) q None = if decide (q ∈ (p :: ps) ++ opened s) then 1 else 0.
Proof.
  intros V place Hs ps. induction ps as [|p' ps IH]; intros p s h Hok Hh.
  - destruct (C53_first_boundary_partial V place Hs PRaise h s p _ _ Hok Hh eq_refl) as (s' & E & R & _).
    + cbn. intros Hin. apply Hok in Hin. lia.
    + exists s'. cbn [nest]. split; [done|]. exact R.
  - destruct (IH p' (with_opened (p :: opened s) s) h Hok Hh) as (s1 & E1 & R1). cbn in E1, R1.
    destruct (exec_block place Hs (nest (p' :: ps) PRaise) 0 h _ _ _ I ltac:(lia) (log_ok_opened place s (p :: opened s) Hok) ltac:(exact Hh) E1) as (G & O & B).
    assert (Hm : next_exn s ∈ marked s1).
    { specialize (R1 p'). rewrite decide_True in R1 by left. destruct (decide (next_exn s ∈ marked s1)) as [|Hn]; [done|]. exfalso.
      assert (cnt place (crashes s1) (next_exn s) p' None = 0) as H0; [|unfold cnt in H0; unfold records in R1; lia].
      apply cnt_none. intros c Hc Hx. apply Hn. rewrite <- Hx. exact (proj1 (proj2 (proj1 G)) c Hc). }
    destruct (logger_ok place Hs (Some (next_exn s)) s1 (proj1 G) B) as (s3 & E3 & G3 & O3 & _ & _ & _ & _ & H1 & H2).
    exists (with_opened (opened s) s3). change (nest (p :: p' :: ps) PRaise) with (PWith (V := V) p (nest (p' :: ps) PRaise)). cbn [exec]. unfold run_with.
    cbn in E1. cbn [exec nest] in E1 |- *. rewrite E1. unfold exit_with. rewrite E3, O3, O. split; [done|].
    intros q. change (records place s3 (next_exn s) q None = if decide (q ∈ (p :: p' :: ps) ++ opened s) then 1 else 0). rewrite H2 by (by right). rewrite R1.
    destruct (decide _) as [Hd|Hd], (decide _) as [Hd'|Hd']; try done; exfalso; set_solver.
Qed.
Print Assumptions C53_nested_portals.
(** A crash of a pure function's body is also in the run history of the call. *)
Theorem C53_run_history_partial : forall V place, separate place ->
  forall (g body after : prog (V := V)) h s f p s1 s2 e, log_ok place s -> older_than_next h s ->
  (* the guards accept and the body raises e, inside the two blocks of the call *)
  exec place h g (with_opened (p :: p :: opened s) (fst (new_sig (with_opened (p :: opened s) s)))) = (s1, None) ->
  exec place h body (with_opened (p :: opened s1) s1) = (s2, Some e) -> e ∉ marked s2 ->
  exists s', exec place h (PPure f p g body after) s = (s', Some e) /\ (place p, next_sig s, e) ∈ run_crashes s' /\
    forall q section, section = None \/ section = Some f -> records place s' e q section = if decide (q ∈ p :: opened s) then 1 else 0.
Proof.
  intros * Hs * Hok Hh Eg Eb Hm.
  set (s0 := fst (new_sig (with_opened (p :: opened s) s))) in *.
  assert (K0 : log_ok place s0) by (apply (new_sig_ok place (with_opened (p :: opened s) s)), Hok).
  destruct (exec_block place Hs g (S (next_sig s)) h (with_opened (p :: p :: opened s) s0) _ _ I (le_n (S (next_sig s))) (log_ok_opened place s0 (p :: p :: opened s) K0) ltac:(exact Hh) Eg) as (G1 & O1 & _).
  assert (U1 : unused (next_sig s) s1).
  { eapply unused_good; [|exact G1]. split; [cbn; lia|]. cbn. intros c Hc. pose proof (proj1 Hok c Hc). lia. }
  assert (Hh1 : older_than_next h s1) by (intros x Hx; specialize (Hh x Hx); destruct G1 as (_ & Hle & _); cbn in Hle; lia).
  destruct (exec_block place Hs body (S (next_sig s)) h (with_opened (p :: opened s1) s1) _ _ I (proj1 U1) (log_ok_opened place s1 (p :: opened s1) (proj1 G1)) ltac:(exact Hh1) Eb) as (G2 & O2 & B2).
  assert (U2 : unused (next_sig s) s2) by (eapply unused_good; [|exact G2]; destruct U1; by split).
  destruct (persist_ok place Hs e [OfFn f; CatchAll (today s2)] (inr (InFrame f (next_sig s) 0)) s2 (proj1 G2) (B2 _ eq_refl) ltac:(repeat constructor; set_solver))
    as (s3 & E3 & K3 & O3 & N3 & _ & _ & _ & _ & M3 & _ & _ & R3 & _).
  { split; [|apply U2]. intros c Hc. apply (proj2 U2 c Hc). }
  { apply fn_once. }
  assert (needs_processing e s2 = true) as Hnp by (unfold needs_processing; by rewrite bool_decide_false). rewrite Hnp in E3.
  set (s4 := with_run_crash (place p, next_sig s, e) s3).
  assert (K4 : log_ok place s4) by exact K3.
  assert (B4 : forall s' : lstate (V := V), next_exn s' = next_exn s4 -> bounded (Some e) s') by (intros s' Hn x [= <-]; rewrite Hn; cbn; rewrite N3; by apply B2).
  (* three exits, all without effect on e *)
  assert (Hexit : forall sx : lstate (V := V), log_ok place sx -> bounded (Some e) sx -> e ∈ marked sx ->
    exists sy, exit_with place (Some e) sx = (sy, None) /\ opened sy = tail (opened sx) /\ log_ok place sy /\ bounded (Some e) sy /\ e ∈ marked sy /\
      run_crashes sy = run_crashes sx /\ forall q k, records place sy e q k = records place sx e q k).
  { intros sx Kx Bx Mx. destruct (logger_ok place Hs (Some e) sx Kx Bx) as (sy & Ey & Gy & Oy & _ & _ & Ry & _ & H1 & H2).
    exists (with_opened (tail (opened sx)) sy). unfold exit_with. rewrite Ey, Oy. split_and!; try done.
    - apply Gy.
    - eapply bounded_mono; [exact Bx|apply Gy].
    - apply Gy, Mx.
    - intros q k. apply H2. by right. }
  destruct (Hexit s4 K4 (B4 s4 eq_refl) M3) as (s5 & E5 & O5 & K5 & B5 & M5 & RC5 & R5).
  destruct (Hexit s5 K5 B5 M5) as (s6 & E6 & O6 & K6 & B6 & M6 & RC6 & R6).
  destruct (Hexit s6 K6 B6 M6) as (s7 & E7 & O7 & K7 & B7 & M7 & RC7 & R7).
  exists s7. cbn [exec]. split_and!.
  - unfold run_with at 1. cbn [new_sig with_opened opened marked next_exn next_sig today crashes events run_crashes].
    unfold run_with at 1. cbn [new_sig with_opened opened marked next_exn next_sig today crashes events run_crashes].
    unfold s0 in Eg. cbn [new_sig fst with_opened opened marked next_exn next_sig today crashes events run_crashes] in Eg. rewrite Eg.
    unfold run_with, run_function. rewrite Eb, E3. fold s4. by rewrite E5, E6, E7.
  - rewrite RC7, RC6, RC5. cbn. apply elem_of_app. right. left.
  - intros q k Hk. rewrite R7, R6, R5. change (records place s3 e q k = if decide (q ∈ p :: opened s) then 1 else 0). rewrite (R3 Hm).
    rewrite O2. cbn. rewrite O1. cbn. assert (H : forall x, length (List.filter (in_section k) [OfFn f; CatchAll (today s2)]) * x = x).
    { intros x. destruct Hk as [->| ->]; cbn; [lia|]. rewrite String.eqb_refl. cbn. lia. }
    rewrite H. destruct (decide _) as [Hd|Hd], (decide _) as [Hd'|Hd']; try done; exfalso; set_solver.
Qed.
Print Assumptions C53_run_history_partial.
(** Refutation 1: def f(): raise ...;  try: f()  except: (with portal: raise).  f ran outside any portal, where it marked
    the exception as processed without recording it; it then leaves the portal unrecorded. *)
Theorem C53_marked_outside_portals_refuted :
  let s' := exec (V := nat) id None (PTry (POrdinary "f" PRaise) (PWith 7 PReraise)) fresh_logs in
  snd s' = Some 0 /\ records id (fst s') 0 7 None = 0.
Proof. by vm_compute. Qed.
Print Assumptions C53_marked_outside_portals_refuted.
(** Refutation 2: two entered portals with the same files: logging itself fails, and the user gets another exception. *)
Theorem C53_shared_place_refuted :
  let '(s', r) := exec (V := nat) (fun _ => 0) None (PWith 1 (PWith 2 PRaise)) fresh_logs in
  r = Some 2 /\ r <> Some 0.
Proof. by vm_compute. Qed.
Print Assumptions C53_shared_place_refuted.
Example C53_example :
  let '(s', r) := exec (V := nat) id None
    (PWith 1 (PTry (PAutonomous "g" 2 (PWith 3 (PSeq (PLog None [5] [("k"%string, 6)] []) PRaise))) (PSeq (PWith 4 PSkip) PReraise))) fresh_logs in
  r = Some 0 /\ map (fun q => records id s' 0 q None) [1; 2; 3; 4] = [1; 1; 1; 0] /\ length (events s') = 3.
Proof. by vm_compute. Qed.

(** * C54 *)
(** Whatever names the user chose: every keyword keeps its value; the summary and the messages are under names derived from
    "execution_environment_summary" and "message_list" that the user did not use; there is nothing else. *)
Theorem C54_user_data_kept : forall V (args : list V) kwargs draws r rest, add_summary args kwargs draws = Some (r, rest) ->
  (forall k v, dict_get k kwargs = Some v -> dict_get k r = Some (User v)) /\
  (exists n1 n2, (n1 = "execution_environment_summary" \/ exists d : N, n1 = "execution_environment_summary" +:+ "_" +:+ pretty d)%string /\
     (n2 = "message_list" \/ exists d : N, n2 = "message_list" +:+ "_" +:+ pretty d)%string /\
     dict_get n1 kwargs = None /\ dict_get n2 kwargs = None /\ n1 <> n2 /\
     dict_get n1 r = Some Summary /\ dict_get n2 r = (match args with [] => None | _ => Some (Messages args) end) /\
     forall k, dict_get k kwargs = None -> k <> n1 -> k <> n2 -> dict_get k r = None).
Proof.
  intros * E. destruct (add_summary_spec args kwargs draws r rest E) as (n1 & n2 & H1 & H2 & Hne & D1 & D2 & Hr).
  apply dict_get_None in H1, H2. split.
  - intros k v Hk. rewrite Hr. rewrite !decide_False, Hk; [done|intros [-> _]; congruence|congruence].
  - exists n1, n2. split_and!; try done.
    + rewrite Hr. by rewrite decide_True by done.
    + rewrite Hr. rewrite decide_False by done. destruct args; [rewrite decide_False by (by intros [_ ?]); by rewrite H2|by rewrite decide_True by done].
    + intros k Hk Hk1 Hk2. rewrite Hr, decide_False by done. rewrite decide_False by (by intros [? _]). by rewrite Hk.
Qed.
Print Assumptions C54_user_data_kept.
(** The record is built as soon as the generator has given more different numbers than there are names. *)
Theorem C54_name_is_found : forall desired existing draws, NoDup draws -> length existing < length draws ->
  exists n rest, make_unique_name desired existing draws = Some (n, rest) /\ n ∉ existing.
Proof.
  intros * Hn Hl. destruct (make_unique_name_found desired existing draws Hn Hl) as [[n rest] E]. exists n, rest. split; [done|].
  by apply make_unique_name_spec in E as (H & _).
Qed.
Print Assumptions C54_name_is_found.
(** The record goes to every entered portal once, and to no other portal; no other entry changes. *)
Theorem C54_event_reaches_every_entered_portal : forall V place, separate place ->
  forall (args : list V) kwargs draws r rest h s event_id, log_ok place s -> add_summary args kwargs draws = Some (r, rest) ->
  (forall x p, event_id = Some x -> p ∈ opened s -> event_records place s p (today s) (Given x) = []) ->
  exists s' i, exec place h (PLog event_id args kwargs draws) s = (s', None) /\
    (i = match event_id with Some x => Given x | None => Drawn (next_sig s) end) /\
    (forall q, q ∈ opened s -> event_records place s' q (today s) i = [r]) /\
    (forall q day j, q ∉ opened s \/ day <> today s \/ j <> i -> event_records place s' q day j = event_records place s q day j) /\
    crashes s' = crashes s.
Proof.
  intros * Hs * Hok Er Hid. cbn [exec]. unfold log_event.
  set (i := match event_id with Some x => Given x | None => Drawn (next_sig s) end).
  assert (Hempty : forall p, p ∈ opened s -> evs place (events s) p (today s) i = []).
  { intros p Hp. destruct event_id as [x|]; [by apply (Hid x)|]. apply evs_none. intros v Hv (_ & _ & Hi). destruct Hok as (_ & _ & _ & _ & Hev).
    specialize (Hev v _ Hv Hi). lia. }
  assert (Hgo : forall s1, opened s1 = opened s -> today s1 = today s -> events s1 = events s -> crashes s1 = crashes s ->
    exists s', write_events place (entered s1) (today s1) i r s1 = (s', None) /\
    (forall q, q ∈ opened s -> event_records place s' q (today s) i = [r]) /\
    (forall q day j, q ∉ opened s \/ day <> today s \/ j <> i -> event_records place s' q day j = event_records place s q day j) /\
    crashes s' = crashes s).
  { intros s1 O1 T1 E1 C1. destruct (write_events_exact place (entered s1) (today s1) i r Hs s1) as (s' & E & Ev & Ec & _).
    - apply distinct_nodup.
    - intros p Hp. rewrite E1, T1. apply Hempty. unfold entered in Hp. rewrite distinct_in, O1 in Hp. done.
    - exists s'. rewrite E. split_and!; [done| | |congruence].
      + intros q Hq. change (evs place (events s') q (today s) i = [r]). rewrite Ev, evs_app, E1, T1, Hempty, evs_new by (done || apply distinct_nodup).
        rewrite decide_True; [done|]. split; [|done]. unfold entered. by rewrite distinct_in, O1.
      + intros q day j Hc. change (evs place (events s') q day j = evs place (events s) q day j). rewrite Ev, evs_app, E1, T1, evs_new by (done || apply distinct_nodup).
        rewrite decide_False; [by rewrite app_nil_r|]. intros (A & B & C). unfold entered in A. rewrite distinct_in, O1 in A. naive_solver. }
  destruct event_id as [x|]; cbn; rewrite Er.
  - destruct (Hgo s eq_refl eq_refl eq_refl eq_refl) as (s' & E & H). exists s', i. split_and!; try done; apply H.
  - destruct (Hgo (fst (new_sig s)) eq_refl eq_refl eq_refl eq_refl) as (s' & E & H). exists s', i. split_and!; try done; apply H.
Qed.
Print Assumptions C54_event_reaches_every_entered_portal.
Example C54_example :
  let kw := [("message_list", 1); ("execution_environment_summary", 2); ("execution_environment_summary_7", 3)]%string in
  exists rest, add_summary [9] kw [7; 8; 4]%N = Some
    ([("message_list", User 1); ("execution_environment_summary", User 2); ("execution_environment_summary_7", User 3);
      ("execution_environment_summary_8", Summary); ("message_list_4", Messages [9])]%string, rest).
Proof. eexists. by vm_compute. Qed.

(** * C55 *)
(** Without an event id logging never raises; with one it does not raise the first time in a day. *)
Theorem C55_logging_events_partial : forall V place, separate place ->
  forall (args : list V) kwargs draws h s event_id s' r, log_ok place s ->
  (forall x p, event_id = Some x -> p ∈ opened s -> event_records place s p (today s) (Given x) = []) ->
  exec place h (PLog event_id args kwargs draws) s = (s', r) -> r = None.
Proof.
  intros * Hs * Hok Hid E. destruct (add_summary args kwargs draws) as [[rec rest]|] eqn:Er.
  - destruct (C54_event_reaches_every_entered_portal V place Hs args kwargs draws rec rest h s event_id Hok Er Hid) as (s2 & i & E2 & _). congruence.
  - cbn [exec] in E. unfold log_event in E. rewrite Er in E. destruct event_id; cbn in E; congruence.
Qed.
Print Assumptions C55_logging_events_partial.
(** Refutation: the second event with the same id on the same day raises. *)
Theorem C55_same_id_twice_refuted :
  snd (exec (V := nat) id None (PWith 1 (PSeq (PLog (Some "saved"%string) [] [] []) (PLog (Some "saved"%string) [] [] []))) fresh_logs) <> None.
Proof. by vm_compute. Qed.
Print Assumptions C55_same_id_twice_refuted.

(** * C56 *)
(** A program without try/except that returns normally (and is not itself inside an exception handler) adds nothing. *)
Theorem C56_no_crash_records_partial : forall V place (pr : prog (V := V)) s s', no_try pr ->
  exec place None pr s = (s', None) -> crashes s' = crashes s /\ run_crashes s' = run_crashes s.
Proof. intros *. apply quiet. Qed.
Print Assumptions C56_no_crash_records_partial.
(** Refutation: ValueAddr.get, when the value is only in another portal (value_addresses.py:126-154): the lookup in the own
    portal 1 raises KeyError inside 'with'; the handler finds the value in portal 2 and copies it.  The call succeeds and
    leaves a crash record in portal 1. *)
Definition get_from_other_portal : prog (V := nat) :=
  PTry (PWith 1 PRaise) (PTry (PSeq (PWith 2 PSkip) (PWith 1 PSkip)) PReraise).
Theorem C56_successful_get_refuted :
  let '(s', r) := exec id None get_from_other_portal fresh_logs in r = None /\ records id s' 0 1 None = 1.
Proof. by vm_compute. Qed.
Print Assumptions C56_successful_get_refuted.
(** Entering a portal in an exception handler also records the exception being handled, though nothing failed in it. *)
Theorem C56_handler_refuted :
  let '(s', r) := exec (V := nat) id None (PTry PRaise (PWith 1 PSkip)) fresh_logs in r = None /\ records id s' 0 1 None = 1.
Proof. by vm_compute. Qed.
Print Assumptions C56_handler_refuted.
Example C56_example : no_try (V := nat) (PWith 1 (PSeq (POrdinary "f" PSkip) (PLog None [] [] []))) /\
  snd (exec (V := nat) id None (PWith 1 (PSeq (POrdinary "f" PSkip) (PLog None [] [] []))) fresh_logs) = None.
Proof. by vm_compute. Qed.

(** * C64 *)
(** Exceptions that end the program after leaving a 'with' block are recorded (by the block) ... *)
Theorem C64_uncaught_through_with_partial : forall V place, separate place -> forall (body : prog (V := V)) p s1 e,
  exec place None body (with_opened [p] fresh_logs) = (s1, Some e) -> e ∉ marked s1 ->
  records place (top_level place (PWith p body) fresh_logs) e p None = 1.
Proof.
  intros * Hs * E Hm. destruct (C53_logs_stay_ok V place Hs) as [H0 _].
  destruct (C53_first_boundary_partial V place Hs body None fresh_logs p s1 e H0 ltac:(done) E Hm) as (s' & E' & R & _).
  unfold top_level. rewrite E'. cbn. rewrite R. by rewrite decide_True by left.
Qed.
Print Assumptions C64_uncaught_through_with_partial.
(** ... but the registered hook records nothing: when it runs, no exception is being handled.  A program that entered a
    portal with __enter__() and dies leaves no record. *)
Theorem C64_hook_records_nothing_refuted : forall V place (s : lstate (V := V)), top_level place PRaise s = fst (exec place None PRaise s) /\
  crashes (top_level place PRaise s) = crashes s.
Proof. done. Qed.
Print Assumptions C64_hook_records_nothing_refuted.

(** * C65 *)
(** As long as a portal exists the hook is installed, and a hook the user installs later is left alone. *)
Theorem C65_hook_installed_partial : forall k, registered k = false -> sys_hook (new_logging_portal k) = PthHook /\
  forall n, sys_hook (new_logging_portal (Hooks (OtherHook n) (previous k) true)) = OtherHook n.
Proof. intros k Hk. unfold new_logging_portal. rewrite Hk. done. Qed.
Print Assumptions C65_hook_installed_partial.
(** Refutation: clearing everything does not put back the hook that was there before. *)
Theorem C65_hook_not_restored_refuted : forall h,
  sys_hook (logging_clear_all (new_logging_portal (Hooks h None false))) = PthHook.
Proof. done. Qed.
Print Assumptions C65_hook_not_restored_refuted.
