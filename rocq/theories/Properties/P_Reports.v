(** C107: the records of one exception agree in all portals.  C108: the exception counters shown by describe(). *)
From Verif.Lib Require Import Py DictLemmas.
From Verif.Model Require Import Logging.
From Verif.Spec Require Import LoggingSpec.
From Verif.Proofs Require Import LoggingP.
From Verif.Properties Require Import P_Logging P_LoggingExact.
From stdpp Require Import gmap pretty.
Local Open Scope nat_scope.

(** * C107 *)
(** Whatever a program does, what it adds to the crash histories (and run histories) is a sequence of reports, one per
    exception: a report consists of one record in the "__CATCH_ALL__" section of each portal of a non-empty list of different
    portals and, if the exception left a function first, one record in that function's section of the same portals; all with
    the same id, and the "__CATCH_ALL__" ones under the same day (one of the days of the program); if the function was the
    body of a pure function, also one entry in the run history of the innermost of them.  Different reports are about
    different exceptions and have different ids, never used before. *)
Theorem C107_reports : forall V place, separate place -> forall (pr : prog (V := V)) h s s' r, log_ok place s -> older_than_next h s ->
  exec place h pr s = (s', r) -> exists rs, reported place s s' rs.
Proof.
  intros * Hs * Hok Hh E. destruct (exec_block place Hs pr 0 h _ _ _ I ltac:(lia) Hok Hh E) as ((_ & _ & _ & _ & [_ H] & _) & _). exact H.
Qed.
Print Assumptions C107_reports.

Section R.
  Context {V : Type} (place : nat -> nat) (Hs : separate place).
  Lemma in_written r c : c ∈ written place r <-> exists p, p ∈ r_portals r /\ c_place c = place p /\ c_id c = r_id r /\ c_exn c = r_exn r /\
    (c_prefix c = CatchAll (r_day r) \/ exists f, r_function r = Some f /\ c_prefix c = OfFn f).
  Proof.
    unfold written. rewrite elem_of_app. split.
    - intros [H|H].
      + destruct (r_function r) as [f|]; [|by apply elem_of_nil in H]. apply elem_of_list_fmap in H as (p & -> & Hp). exists p. cbn. eauto 10.
      + apply elem_of_list_fmap in H as (p & -> & Hp). exists p. cbn. eauto 10.
    - intros (p & Hp & H1 & H2 & H3 & H4). destruct c as [a b c d]. cbn in *. subst. destruct H4 as [->|(f & Hf & ->)].
      + right. apply elem_of_list_fmap. by exists p.
      + left. rewrite Hf. apply elem_of_list_fmap. by exists p.
  Qed.
  Lemma in_reports rs c : c ∈ concat (map (written place) rs) <-> exists r, r ∈ rs /\ c ∈ written place r.
  Proof.
    rewrite elem_of_list_In, in_concat. split.
    - intros (l & Hl & Hc). apply in_map_iff in Hl as (r & <- & Hr). exists r. by rewrite !elem_of_list_In.
    - intros (r & Hr & Hc). exists (written place r). split; [apply in_map; by apply elem_of_list_In|by apply elem_of_list_In].
  Qed.
  Lemma same_exn rs r1 r2 : NoDup (map r_exn rs) -> r1 ∈ rs -> r2 ∈ rs -> r_exn r1 = r_exn r2 -> r1 = r2.
  Proof.
    intros Hn (i & Hi)%elem_of_list_lookup (j & Hj)%elem_of_list_lookup He. assert (i = j) as ->; [|congruence].
    eapply (NoDup_lookup (map r_exn rs) i j (r_exn r1)); [done| |]; change (map r_exn rs) with (r_exn <$> rs); rewrite list_lookup_fmap; [by rewrite Hi|rewrite Hj; cbn; by rewrite He].
  Qed.
  Lemma same_sig rs r1 r2 : NoDup (map (fun r => sig_of (r_id r)) rs) -> r1 ∈ rs -> r2 ∈ rs -> sig_of (r_id r1) = sig_of (r_id r2) -> r1 = r2.
  Proof.
    intros Hn (i & Hi)%elem_of_list_lookup (j & Hj)%elem_of_list_lookup He. assert (i = j) as ->; [|congruence].
    eapply (NoDup_lookup (map (fun r => sig_of (r_id r)) rs) i j (sig_of (r_id r1))); [done| |]; change (map (fun r => sig_of (r_id r)) rs) with ((fun r => sig_of (r_id r)) <$> rs);
      rewrite list_lookup_fmap; [by rewrite Hi|rewrite Hj; cbn; by rewrite He].
  Qed.
End R.

(** In an application, from its start: any two records of the same exception have the same id, records with the same id are
    of the same exception; every portal that has the exception has it in the "__CATCH_ALL__" section; if some portal has it in
    the section of a function, all of them do, and no portal has it in another function's section. *)
Theorem C107_records_agree : forall V place, separate place -> forall (pr : prog (V := V)) s r,
  exec place None pr fresh_logs = (s, r) ->
  (forall c c', c ∈ crashes s -> c' ∈ crashes s -> (c_exn c = c_exn c' <-> c_id c = c_id c')) /\
  (forall e q section, records place s e q section > 0 -> records place s e q None = 1) /\
  (forall e q q' f, records place s e q (Some f) > 0 -> records place s e q' None = 1 -> records place s e q' (Some f) = 1) /\
  (forall e q q' f f', records place s e q (Some f) > 0 -> records place s e q' (Some f') > 0 -> f' = f) /\
  (forall c c' d d', c ∈ crashes s -> c' ∈ crashes s -> c_exn c = c_exn c' -> c_prefix c = CatchAll d -> c_prefix c' = CatchAll d' -> d' = d).
Proof.
  intros V place Hs pr s r E. destruct (C53_logs_stay_ok V place Hs) as [H0 H1]. destruct (H1 pr None _ _ _ H0 ltac:(done) E) as (Hok & _ & _).
  destruct (C107_reports V place Hs pr None fresh_logs s r H0 ltac:(done) E) as (rs & Hc & Hrun & Hne & Hni & Hr). cbn in Hc.
  assert (Hin : forall c, c ∈ crashes s <-> exists r, r ∈ rs /\ c ∈ written place r) by (intros c; rewrite Hc; apply in_reports).
  assert (Hpos : forall e q k, records place s e q k > 0 <-> exists c, c ∈ crashes s /\ c_exn c = e /\ c_place c = place q /\ in_section k (c_prefix c) = true).
  { intros e q k. unfold records. split.
    - intros Hp. destruct (List.filter _ (crashes s)) as [|c l] eqn:Ef; [cbn in Hp; lia|]. assert (Hx : In c (c :: l)) by (by left). rewrite <- Ef in Hx.
      apply filter_In in Hx as [Hx Hb]. rewrite !andb_true_iff, !Nat.eqb_eq in Hb. exists c. rewrite elem_of_list_In. naive_solver.
    - intros (c & Hx & H2 & H3 & H4). apply elem_of_list_In in Hx. assert (In c (List.filter (fun c => (c_exn c =? e) && (c_place c =? place q) && in_section k (c_prefix c)) (crashes s))) as Hy.
      { apply filter_In. split; [done|]. rewrite !andb_true_iff, !Nat.eqb_eq. done. }
      destruct (List.filter _ (crashes s)); [done|cbn; lia]. }
  assert (Hone : forall e q k, records place s e q k > 0 -> records place s e q k = 1) by (intros e q k; pose proof (proj1 (proj2 (proj2 (proj2 Hok))) e q k); lia).
  assert (Hfind : forall e q k, records place s e q k > 0 <-> exists r, r ∈ rs /\ r_exn r = e /\ q ∈ r_portals r /\ match k with None => True | Some f => r_function r = Some f end).
  { intros e q k. rewrite Hpos. split.
    - intros (c & (r0 & Hr0 & (p & Hp & X1 & X2 & X3 & X4)%in_written)%Hin & Hx1 & Hx2 & Hx3). exists r0. rewrite X1 in Hx2. apply Hs in Hx2 as <-.
      split; [done|]. split; [congruence|]. split; [done|]. destruct k as [f|]; [|done]. destruct X4 as [X4|(f' & Hf & X4)]; rewrite X4 in Hx3; cbn in Hx3; [done|].
      apply String.eqb_eq in Hx3 as ->. done.
    - intros (r0 & Hr0 & He & Hp & Hk). exists (Crash (place q) (match k with None => CatchAll (r_day r0) | Some f => OfFn f end) (r_id r0) e). split.
      + apply Hin. exists r0. split; [done|]. apply in_written. exists q. cbn. split_and!; try done. destruct k as [f|]; [right; by exists f|by left].
      + cbn. split_and!; try done. destruct k; cbn; [apply String.eqb_refl|done]. }
  split; [|split; [|split; [|split]]].
  - intros c c' (r1 & Hr1 & (p & Hp & X1 & X2 & X3 & X4)%in_written)%Hin (r2 & Hr2 & (p' & Hp' & Y1 & Y2 & Y3 & Y4)%in_written)%Hin. split; intros H.
    + assert (r1 = r2) as -> by (eapply same_exn; [exact Hne|done|done|congruence]). congruence.
    + assert (r1 = r2) as -> by (eapply same_sig; [exact Hni|done|done|congruence]). congruence.
  - intros e q k (r1 & Hr1 & He & Hq & _)%Hfind. apply Hone, Hfind. by exists r1.
  - intros e q q' f (r1 & Hr1 & He & Hq & Hf)%Hfind H. assert (H' : records place s e q' None > 0) by lia. apply Hfind in H' as (r2 & Hr2 & He2 & Hq2 & _).
    assert (r1 = r2) as -> by (eapply same_exn; [exact Hne|done|done|congruence]). apply Hone, Hfind. by exists r2.
  - intros e q q' f f' (r1 & Hr1 & He & Hq & Hf)%Hfind (r2 & Hr2 & He2 & Hq2 & Hf2)%Hfind.
    assert (r1 = r2) as -> by (eapply same_exn; [exact Hne|done|done|congruence]). congruence.
  - intros c c' d d' (r1 & Hr1 & (p & Hp & X1 & X2 & X3 & X4)%in_written)%Hin (r2 & Hr2 & (p' & Hp' & Y1 & Y2 & Y3 & Y4)%in_written)%Hin He Hd Hd'.
    assert (r1 = r2) as -> by (eapply same_exn; [exact Hne|done|done|congruence]). destruct X4 as [X4|(? & _ & X4)], Y4 as [Y4|(? & _ & Y4)]; congruence.
Qed.
Print Assumptions C107_records_agree.
(** The run histories agree with the crash histories: an entry of a run (portal and session) is about an exception that this
    portal also has in its crash history, in the section of the function that ran, under an id with the same session; the
    exception of every such record has an entry in a run history; and a session has at most one entry. *)
Theorem C107_run_history_agrees : forall V place, separate place -> forall (pr : prog (V := V)) s r,
  exec place None pr fresh_logs = (s, r) ->
  (forall pl n e, (pl, n, e) ∈ run_crashes s -> exists f, Crash pl (OfFn f) (InFrame f n 0) e ∈ crashes s) /\
  (forall c f n k, c ∈ crashes s -> c_id c = InFrame f n k -> exists pl, (pl, n, c_exn c) ∈ run_crashes s) /\
  (forall pl n e pl' e', (pl, n, e) ∈ run_crashes s -> (pl', n, e') ∈ run_crashes s -> pl' = pl /\ e' = e).
Proof.
  intros V place Hs pr s r E. destruct (C53_logs_stay_ok V place Hs) as [H0 H1].
  destruct (C107_reports V place Hs pr None fresh_logs s r H0 ltac:(done) E) as (rs & Hc & Hrun & Hne & Hni & Hr). cbn in Hc, Hrun.
  assert (Hin : forall c, c ∈ crashes s <-> exists r, r ∈ rs /\ c ∈ written place r) by (intros c; rewrite Hc; apply in_reports).
  assert (Hrin : forall pl n e, (pl, n, e) ∈ run_crashes s <-> exists r f k p ps, r ∈ rs /\ r_id r = InFrame f n k /\ r_portals r = p :: ps /\ pl = place p /\ e = r_exn r).
  { intros pl n e. rewrite Hrun, elem_of_list_In, in_concat. split.
    - intros (l & Hl & Hx). apply in_map_iff in Hl as (r0 & <- & Hr0). apply elem_of_list_In in Hr0. unfold written_run in Hx.
      destruct (r_id r0) as [|f n' k] eqn:Ei; [done|]. destruct (r_portals r0) as [|p ps] eqn:Ep; [done|]. destruct Hx as [[= <- <- <-]|[]]. by exists r0, f, k, p, ps.
    - intros (r0 & f & k & p & ps & Hr0 & Hi & Hp & -> & ->). exists (written_run place r0). split; [by apply in_map, elem_of_list_In|].
      unfold written_run. rewrite Hi, Hp. by left. }
  split; [|split].
  - intros pl n e (r0 & f & k & p & ps & Hr0 & Hi & Hp & -> & ->)%Hrin. exists f. apply Hin. exists r0. split; [done|]. apply in_written.
    destruct (Hr r0 Hr0) as (_ & _ & _ & _ & _ & _ & _ & Hf). rewrite Hi in Hf. destruct Hf as [Hf ->].
    exists p. cbn. rewrite Hp. split; [left|]. split_and!; try done. right. by exists f.
  - intros c f n k (r0 & Hr0 & (p & Hp & X1 & X2 & X3 & X4)%in_written)%Hin Hi. destruct (r_portals r0) as [|p0 ps] eqn:Ep; [by apply elem_of_nil in Hp|].
    exists (place p0). apply Hrin. exists r0, f, k, p0, ps. split_and!; try done. congruence.
  - intros pl n e pl' e' (r1 & f & k & p & ps & Hr1 & Hi & Hp & -> & ->)%Hrin (r2 & f2 & k2 & p2 & ps2 & Hr2 & Hi2 & Hp2 & -> & ->)%Hrin.
    assert (r1 = r2) as -> by (eapply same_sig; [exact Hni|done|done|by rewrite Hi, Hi2]). split; congruence.
Qed.
Print Assumptions C107_run_history_agrees.
Definition C107_program : prog (V := nat) :=
  PWith 1 (PSeq (PTry (PPure "f" 2 PSkip (PAutonomous "g" 3 PRaise) PSkip) PSkip) (PSeq PTick
    (PSeq (PTry (PPure "f" 2 PSkip PRaise PSkip) PSkip) (PWith 4 PRaise)))).
Example C107_example : let '(s, r) := exec id None C107_program fresh_logs in
  r = Some 2 /\ length (crashes s) = 12 /\ length (run_crashes s) = 1 /\ map (fun q => records id s 0 q (Some "g"%string)) [1; 2; 3; 4] = [1; 1; 1; 0] /\
  map (fun q => records id s 2 q None) [1; 2; 3; 4] = [1; 0; 0; 1].
Proof. by vm_compute. Qed.

(** * C108 *)
(** the exceptions a portal has in its crash history; those recorded on a given day *)
Definition exceptions_of {V} (place : nat -> nat) (s : lstate (V := V)) (q : nat) : list nat :=
  c_exn <$> filter (fun c => c_place c = place q) (crashes s).
Definition exceptions_of_day {V} (place : nat -> nat) (s : lstate (V := V)) (q d : nat) : list nat :=
  c_exn <$> filter (fun c => c_place c = place q /\ c_prefix c = CatchAll d) (crashes s).
Section C.
  Context {V : Type} (place : nat -> nat) (Hs : separate place).
  (** counting over reports *)
  Definition in_report (q : nat) (r : report) : bool := bool_decide (q ∈ r_portals r).
  Lemma count_one (g : xprefix -> bool) q r : NoDup (r_portals r) -> (forall f, g (OfFn f) = false) ->
    length (List.filter (fun c => (c_place c =? place q) && g (c_prefix c)) (written place r)) = if in_report q r && g (CatchAll (r_day r)) then 1 else 0.
  Proof.
    intros Hn Hg. unfold written. rewrite List.filter_app, app_length.
    assert (forall ps f, length (List.filter (fun c => (c_place c =? place q) && g (c_prefix c)) (map (fun p => Crash (place p) (OfFn f) (r_id r) (r_exn r)) ps)) = 0) as Hz.
    { induction ps as [|p ps IH]; intros f; [done|]. cbn. rewrite Hg, andb_false_r. apply IH. }
    replace (length (List.filter _ match r_function r with Some f => _ | None => _ end)) with 0 by (destruct (r_function r); [by rewrite Hz|done]). cbn [Nat.add].
    unfold in_report. induction (r_portals r) as [|p ps IH]; [done|]. apply NoDup_cons in Hn as [Hp Hn]. cbn. specialize (IH Hn).
    destruct (place p =? place q) eqn:Ep; cbn.
    - apply Nat.eqb_eq, Hs in Ep as ->. rewrite bool_decide_true by left. cbn. rewrite bool_decide_false in IH by done. cbn in IH.
      destruct (g (CatchAll (r_day r))); cbn; lia.
    - rewrite IH. assert (p <> q) by (intros ->; by rewrite Nat.eqb_refl in Ep).
      replace (bool_decide (q ∈ p :: ps)) with (bool_decide (q ∈ ps)); [done|]. apply bool_decide_ext. rewrite elem_of_cons. naive_solver.
  Qed.
  Lemma count_all (g : xprefix -> bool) q rs : (forall r, r ∈ rs -> NoDup (r_portals r)) -> (forall f, g (OfFn f) = false) ->
    length (List.filter (fun c => (c_place c =? place q) && g (c_prefix c)) (concat (map (written place) rs))) =
    length (List.filter (fun r => in_report q r && g (CatchAll (r_day r))) rs).
  Proof.
    intros Hn Hg. induction rs as [|r rs IH]; [done|]. cbn [map concat List.filter]. rewrite List.filter_app, app_length, IH by (intros r' Hr'; apply Hn; by right).
    rewrite count_one by (done || apply Hn; left). destruct (in_report q r && g (CatchAll (r_day r))); done.
  Qed.
  Lemma nodup_filter_map (g : report -> bool) rs : NoDup (map r_exn rs) -> NoDup (map r_exn (List.filter g rs)).
  Proof.
    induction rs as [|r rs IH]; [done|]. cbn. rewrite NoDup_cons. intros [H1 H2]. destruct (g r); cbn; [|auto]. apply NoDup_cons. split; [|auto].
    intros (r' & Hx & Hr')%elem_of_list_fmap. apply H1. apply elem_of_list_fmap. exists r'. split; [done|]. apply elem_of_list_In in Hr'. apply filter_In in Hr' as [Hr' _]. by apply elem_of_list_In.
  Qed.
  Lemma count_size (g : report -> bool) rs (l : list nat) : NoDup (map r_exn rs) -> (forall e, e ∈ l <-> exists r, r ∈ rs /\ g r = true /\ r_exn r = e) ->
    length (List.filter g rs) = size (list_to_set l : gset nat).
  Proof.
    intros Hn Hl. rewrite <- (map_length r_exn). rewrite <- (size_list_to_set (C := gset nat)) by (by apply nodup_filter_map). f_equal. apply set_eq. intros e.
    rewrite !elem_of_list_to_set, Hl, elem_of_list_fmap. split.
    - intros (r & -> & Hr). apply elem_of_list_In, filter_In in Hr as [Hr Hg]. exists r. by rewrite elem_of_list_In.
    - intros (r & Hr & Hg & <-). exists r. split; [done|]. apply elem_of_list_In, filter_In. by rewrite <- elem_of_list_In.
  Qed.
End C.
(** describe() counts every exception once: "Exceptions, total" is the number of different exceptions this portal has in its
    crash history, in whatever section; "Exceptions, today" the number of those recorded today. *)
Theorem C108_counters : forall V place, separate place -> forall (pr : prog (V := V)) s r q,
  exec place None pr fresh_logs = (s, r) ->
  exceptions_total place s q = size (list_to_set (exceptions_of place s q) : gset nat) /\
  exceptions_today place s q = size (list_to_set (exceptions_of_day place s q (today s)) : gset nat) /\
  exceptions_today place s q <= exceptions_total place s q.
Proof.
  intros V place Hs pr s r q E. destruct (C53_logs_stay_ok V place Hs) as [H0 H1].
  destruct (C107_reports V place Hs pr None fresh_logs s r H0 ltac:(done) E) as (rs & Hc & Hrun & Hne & Hni & Hr). cbn in Hc, Hrun.
  assert (Hn : forall r, r ∈ rs -> NoDup (r_portals r)) by (intros r0 Hr0; destruct (Hr r0 Hr0) as (_ & _ & _ & _ & _ & X & _); exact X).
  assert (Hin : forall c, c ∈ crashes s <-> exists r, r ∈ rs /\ c ∈ written place r) by (intros c; rewrite Hc; apply in_reports).
  unfold exceptions_total, exceptions_today. split; [|split].
  - rewrite Hc, (count_all place Hs (fun x => match x with CatchAll _ => true | OfFn _ => false end)) by done. apply count_size; [done|]. intros e. unfold exceptions_of. rewrite elem_of_list_fmap. split.
    + intros (c & -> & [Hp (r0 & Hr0 & (p & X0 & X1 & X2 & X3 & X4)%in_written)%Hin]%elem_of_list_filter). exists r0. split; [done|]. split; [|done].
      rewrite X1 in Hp. apply Hs in Hp as ->. unfold in_report. by rewrite bool_decide_true.
    + intros (r0 & Hr0 & Hq & <-). rewrite andb_true_r in Hq. apply bool_decide_eq_true in Hq. exists (Crash (place q) (CatchAll (r_day r0)) (r_id r0) (r_exn r0)). split; [done|].
      apply elem_of_list_filter. split; [done|]. apply Hin. exists r0. split; [done|]. apply in_written. exists q. cbn. eauto 10.
  - rewrite Hc, (count_all place Hs (fun x => match x with CatchAll d => (d =? today s)%nat | OfFn _ => false end)) by done. apply count_size; [done|]. intros e. unfold exceptions_of_day. rewrite elem_of_list_fmap. split.
    + intros (c & -> & [[Hp Hd] (r0 & Hr0 & (p & X0 & X1 & X2 & X3 & X4)%in_written)%Hin]%elem_of_list_filter). exists r0. split; [done|]. split; [|done].
      rewrite X1 in Hp. apply Hs in Hp as ->. unfold in_report. rewrite bool_decide_true by done. destruct X4 as [X4|(f & _ & X4)]; [|congruence].
      rewrite X4 in Hd. injection Hd as ->. by rewrite Nat.eqb_refl.
    + intros (r0 & Hr0 & [Hq Hd]%andb_true_iff & <-). apply bool_decide_eq_true in Hq. apply Nat.eqb_eq in Hd. exists (Crash (place q) (CatchAll (r_day r0)) (r_id r0) (r_exn r0)). split; [done|].
      apply elem_of_list_filter. split; [cbn; by rewrite Hd|]. apply Hin. exists r0. split; [done|]. apply in_written. exists q. cbn. eauto 10.
  - clear. induction (crashes s) as [|c cs IH]; [done|]. cbn. destruct (c_place c =? place q); [|done]. destruct (c_prefix c) as [d|]; [|done]. cbn. destruct (d =? today s); cbn; lia.
Qed.
Print Assumptions C108_counters.
(** How they change: an exception that leaves a 'with' block and was not logged before adds one to both counters of exactly the
    portals entered at that moment. *)
Theorem C108_counting : forall V place, separate place ->
  forall (body : prog (V := V)) h s p s1 e, log_ok place s -> older_than_next h s ->
  exec place h body (with_opened (p :: opened s) s) = (s1, Some e) -> e ∉ marked s1 ->
  exists s', exec place h (PWith p body) s = (s', Some e) /\ forall q,
    exceptions_total place s' q = exceptions_total place s1 q + (if decide (q ∈ p :: opened s) then 1 else 0) /\
    exceptions_today place s' q = exceptions_today place s1 q + (if decide (q ∈ p :: opened s) then 1 else 0).
Proof.
  intros * Hs * Hok Hh E Hm. destruct (exec_block place Hs body 0 h _ _ _ I ltac:(lia) (log_ok_opened place s _ Hok) ltac:(exact Hh) E) as (G & O & B). cbn in O.
  destruct (persist_ok place Hs e [CatchAll (today s1)] (inl ""%string) s1 (proj1 G) (B _ eq_refl) ltac:(repeat constructor; set_solver) I (catch_all_once _))
    as (s2 & E2 & _ & O2 & _ & _ & T2 & _).
  destruct (persist_exact place Hs e [CatchAll (today s1)] (inl ""%string) s1 s2 None _ (proj1 G) ltac:(repeat constructor; set_solver) I E2) as [_ Hc].
  rewrite (proj2 (needs_iff e s1) Hm) in Hc.
  exists (with_opened (opened s) s2). cbn [exec]. unfold run_with. rewrite E. unfold exit_with, exception_logger. rewrite E2, O2, O. split; [done|]. intros q.
  set (r := Report e (today s1) None (chosen_id (inl ""%string) s1) (entered s1)).
  assert (Hw : new_records place (entered s1) [CatchAll (today s1)] (chosen_id (inl ""%string) s1) e = written place r) by (unfold new_records, written; cbn; by rewrite app_nil_r).
  assert (Hd : in_report q r = bool_decide (q ∈ p :: opened s)) by (unfold in_report, r; cbn; unfold entered; rewrite O; apply bool_decide_ext, distinct_in).
  unfold exceptions_total, exceptions_today. cbn [crashes today with_opened]. rewrite T2, Hc, Hw, !List.filter_app, !app_length. split; f_equal.
  - rewrite (count_one place Hs (fun x => match x with CatchAll _ => true | OfFn _ => false end)) by (done || apply distinct_nodup). rewrite Hd, andb_true_r. by destruct (decide _), (bool_decide_reflect (q ∈ p :: opened s)).
  - rewrite (count_one place Hs (fun x => match x with CatchAll d => (d =? today s1)%nat | OfFn _ => false end)) by (done || apply distinct_nodup). rewrite Hd. cbn. rewrite Nat.eqb_refl, andb_true_r. by destruct (decide _), (bool_decide_reflect (q ∈ p :: opened s)).
Qed.
Print Assumptions C108_counting.
(** The total never falls (for all programs, also when portals share their files); a successful program without try/except
    does not change it; midnight leaves it alone and sets "today" to zero. *)
Theorem C108_total_never_falls : forall V place (pr : prog (V := V)) h s s' r q, exec place h pr s = (s', r) ->
  exceptions_total place s q <= exceptions_total place s' q /\
  (no_try pr -> h = None -> r = None -> exceptions_total place s' q = exceptions_total place s q).
Proof.
  intros V place pr h s s' r q E. unfold exceptions_total. split.
  - destruct (C92_logs_only_grow V place pr h s s' r E) as ((new & ->) & _). rewrite List.filter_app, app_length. lia.
  - intros Hn -> ->. by rewrite (proj1 (C56_no_crash_records_partial V place pr s s' Hn E)).
Qed.
Print Assumptions C108_total_never_falls.
Theorem C108_new_day : forall V place, separate place -> forall (pr : prog (V := V)) s r s' r' q,
  exec place None pr fresh_logs = (s, r) -> exec place None PTick s = (s', r') ->
  exceptions_today place s' q = 0 /\ exceptions_total place s' q = exceptions_total place s q.
Proof.
  intros V place Hs pr s r s' r' q E [= <- <-]. destruct (C53_logs_stay_ok V place Hs) as [H0 H1].
  destruct (C107_reports V place Hs pr None fresh_logs s r H0 ltac:(done) E) as (rs & Hc & Hrun & Hne & Hni & Hr). cbn in Hc. split; [|done].
  assert (Hday : forall c d, c ∈ crashes s -> c_prefix c = CatchAll d -> d <= today s).
  { intros c d. rewrite Hc, in_reports. intros (r0 & Hr0 & (p & X0 & X1 & X2 & X3 & X4)%in_written) Hd. destruct (Hr r0 Hr0) as (_ & _ & _ & [_ X] & _).
    destruct X4 as [X4|(f & _ & X4)]; rewrite X4 in Hd; [|done]. injection Hd as <-. exact X. }
  unfold exceptions_today. cbn [crashes today tick]. clear -Hday. induction (crashes s) as [|c cs IH]; [done|]. cbn [List.filter].
  assert (Hz : match c_prefix c with CatchAll d => d =? S (today s) | OfFn _ => false end = false).
  { destruct (c_prefix c) as [d|] eqn:Ed; [|done]. apply Nat.eqb_neq. specialize (Hday c d ltac:(left) Ed). lia. }
  rewrite Hz, andb_false_r. apply IH. intros c' d Hc' Hd. apply (Hday c' d); [by right|done].
Qed.
Print Assumptions C108_new_day.
Example C108_example : let '(s, r) := exec id None C107_program fresh_logs in
  map (exceptions_total id s) [1; 2; 3; 4] = [3; 2; 1; 1] /\ map (exceptions_today id s) [1; 2; 3; 4] = [2; 1; 0; 1].
Proof. by vm_compute. Qed.
