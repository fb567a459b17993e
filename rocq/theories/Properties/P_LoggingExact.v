(** C91: exactly when logging an event fails.  C92: logs only grow, and no entry is ever overwritten. *)
From Verif.Lib Require Import Py DictLemmas.
From Verif.Model Require Import Logging.
From Verif.Spec Require Import LoggingSpec.
From Verif.Proofs Require Import LoggingP.
From Verif.Properties Require Import P_Logging.
From stdpp Require Import gmap pretty.
Local Open Scope nat_scope.

(** * C91 *)
Section E.
  Context {V : Type} (place : nat -> nat).
  Notation lstate := (lstate (V := V)).
  Lemma taken_iff (s : lstate) p d i : existsb (fun c => bool_decide (e_place c = place p /\ e_day c = d /\ e_id c = i)) (events s) = true <->
    evs place (events s) p d i <> [].
  Proof.
    rewrite existsb_exists. split.
    - intros (v & Hv & Hb%bool_decide_eq_true) E. apply (proj1 (evs_none place _ _ _ _) E v); [by apply elem_of_list_In|done].
    - intros H. destruct (existsb (fun c => bool_decide (e_place c = place p /\ e_day c = d /\ e_id c = i)) (events s)) eqn:Eb; [by apply existsb_exists in Eb|].
      exfalso. apply H. apply evs_none. intros v Hv X. assert (existsb (fun c => bool_decide (e_place c = place p /\ e_day c = d /\ e_id c = i)) (events s) = true); [|congruence].
      apply existsb_exists. exists v. split; [by apply elem_of_list_In|by apply bool_decide_eq_true].
  Qed.
  Lemma write_events_fails ps d i r : separate place -> NoDup ps -> forall (s : lstate) s' o, write_events place ps d i r s = (s', o) ->
    (o <> None <-> exists p, p ∈ ps /\ evs place (events s) p d i <> []) /\
    exists done, done `prefix_of` ps /\ events s' = events s ++ map (fun p => Evt (place p) d i r) done /\ crashes s' = crashes s /\ opened s' = opened s /\
      (o = None -> done = ps) /\ (forall p, p ∈ done -> evs place (events s) p d i = []) /\
      (o <> None -> exists p rest, ps = done ++ p :: rest /\ evs place (events s) p d i <> []).
  Proof.
    intros Hsep. induction ps as [|p ps IH]; intros Hn s s' o; cbn [write_events].
    - intros [= <- <-]. split; [split; [done|intros (p & ?%elem_of_nil & _); done]|]. exists []. rewrite app_nil_r. split_and!; try done. by intros p ?%elem_of_nil.
    - apply NoDup_cons in Hn as [Hp Hn]. destruct (existsb _ _) eqn:Eb.
      + intros [= <- <-]. apply taken_iff in Eb. split; [split; [intros _; exists p; split; [left|done]|done]|].
        exists []. cbn. rewrite app_nil_r. split_and!; try done; [apply prefix_nil|by intros q ?%elem_of_nil|]. intros _. by exists p, ps.
      + intros E. destruct (IH Hn _ _ _ E) as [Ho (dn & Hpre & Hev & Hc & Hop & Hnone & Hdone & Hfail)]. cbn [events crashes opened with_event] in *.
        assert (Hfree : evs place (events s) p d i = []).
        { destruct (evs place (events s) p d i) eqn:Ee; [done|]. enough (false = true) by done. rewrite <- Eb. apply taken_iff. by rewrite Ee. }
        assert (Hsame : forall q, q ∈ ps -> evs place (events s ++ [Evt (place p) d i r]) q d i = evs place (events s) q d i).
        { intros q Hq. rewrite evs_app. replace (evs place [Evt (place p) d i r] q d i) with (@nil (event_rec V)); [by rewrite app_nil_r|].
          symmetry. apply evs_none. intros v ->%elem_of_list_singleton (X & _ & _). cbn in X. apply Hsep in X. by subst. }
        split.
        * rewrite Ho. split.
          -- intros (q & Hq & H). exists q. split; [by right|]. by rewrite <- Hsame.
          -- intros (q & Hq & H). apply elem_of_cons in Hq as [->|Hq]; [done|]. exists q. split; [done|]. by rewrite Hsame.
        * exists (p :: dn). split_and!; try done; [by apply prefix_cons|cbn; by rewrite Hev, <- app_assoc|intros ->; by rewrite Hnone| |].
          -- intros q Hq. apply elem_of_cons in Hq as [->|Hq]; [done|]. rewrite <- Hsame; [by apply Hdone|]. destruct Hpre as [k ->]. apply elem_of_app. by left.
          -- intros Hne. destruct (Hfail Hne) as (q & rest & -> & Hq). exists q, rest. split; [done|]. rewrite <- Hsame; [done|]. set_solver.
  Qed.
End E.
(** An event is refused exactly if an id was given under which some entered portal already has an entry of today.  The
    entries written before that are kept (those of the portals entered inside it); no other entry is touched. *)
Theorem C91_logging_fails_exactly : forall V place, separate place ->
  forall (args : list V) kwargs draws rec rest h s event_id s' r, log_ok place s -> add_summary args kwargs draws = Some (rec, rest) ->
  exec place h (PLog event_id args kwargs draws) s = (s', r) ->
  (r <> None <-> exists x p, event_id = Some x /\ p ∈ opened s /\ event_records place s p (today s) (Given x) <> []) /\
  (forall q day j, event_records place s q day j <> [] -> event_records place s' q day j = event_records place s q day j) /\
  (forall q day j, event_records place s q day j = [] ->
     event_records place s' q day j = [] \/
     q ∈ opened s /\ day = today s /\ (j = match event_id with Some x => Given x | None => Drawn (next_sig s) end) /\ event_records place s' q day j = [rec]) /\
  crashes s' = crashes s /\ opened s' = opened s.
Proof.
  intros V place Hsep args kwargs draws rec rest h s event_id s' r Hok Er E. cbn [exec] in E. unfold log_event in E.
  set (i := match event_id with Some x => Given x | None => Drawn (next_sig s) end).
  assert (Hs1 : exists s1, events s1 = events s /\ opened s1 = opened s /\ crashes s1 = crashes s /\ today s1 = today s /\ write_events place (entered s1) (today s1) i rec s1 = (s', r)).
  { destruct event_id as [x|]; [exists s|exists (fst (new_sig s))]; cbn in E |- *; rewrite Er in E; done. }
  destruct Hs1 as (s1 & E1 & E2 & E3 & E4 & Hw). rewrite E4 in Hw.
  destruct (write_events_fails place (entered s1) (today s) i rec Hsep (distinct_nodup _) s1 s' r Hw) as [Ho (dn & Hpre & Hev & Hc & Hop & Hnone & Hdone & Hfail)].
  rewrite E1 in *. assert (Hent : forall p, p ∈ entered s1 <-> p ∈ opened s) by (intros p; unfold entered; by rewrite distinct_in, E2).
  assert (Hnd : NoDup dn). { destruct Hpre as [k Hk]. pose proof (distinct_nodup (opened s1)) as Hx. fold (entered s1) in Hx. rewrite Hk in Hx. by apply NoDup_app in Hx as [? _]. }
  assert (Hall : forall q day j, event_records place s' q day j = event_records place s q day j ++ (if decide (q ∈ dn /\ day = today s /\ j = i) then [rec] else [])).
  { intros q day j. change (evs place (events s') q day j = evs place (events s) q day j ++ (if decide (q ∈ dn /\ day = today s /\ j = i) then [rec] else [])). rewrite Hev, evs_app, evs_new by done. done. }
  split; [|split; [|split; [|split; congruence]]].
  - rewrite Ho. split.
    + intros (p & Hp & H). destruct event_id as [x|]; [exists x, p; split; [done|]; split; [by apply Hent|done]|].
      exfalso. apply H. apply evs_none. intros v Hv (_ & _ & Hi). destruct Hok as (_ & _ & _ & _ & Hev'). specialize (Hev' v _ Hv Hi). lia.
    + intros (x & p & -> & Hp & H). exists p. split; [by apply Hent|done].
  - intros q day j H. rewrite Hall. rewrite decide_False; [by rewrite app_nil_r|]. intros (Hq & -> & ->). apply H. by apply Hdone.
  - intros q day j H. rewrite Hall, H. destruct (decide _) as [(Hq & -> & ->)|]; [right|by left]. split_and!; try done. apply Hent. destruct Hpre as [k ->]. apply elem_of_app. by left.
Qed.
Print Assumptions C91_logging_fails_exactly.
Example C91_example : let once := PWith (V := nat) 1 (PLog (Some "saved"%string) [] [] []) in
  snd (exec id None once fresh_logs) = None /\ snd (exec id None (PSeq once once) fresh_logs) <> None /\
  snd (exec id None (PSeq once (PSeq PTick once)) fresh_logs) = None /\
  snd (exec id None (PSeq once (PWith 2 (PLog (Some "saved"%string) [] [] []))) fresh_logs) = None.
Proof. by vm_compute. Qed.

(** * C92 *)
(** where an entry of the crash history, or of the event log, is kept *)
Definition crash_key (c : crash) := (c_place c, c_prefix c, c_id c).
Definition event_key {V} (v : evt (V := V)) := (e_place v, e_day v, e_id v).
Definition one_entry_per_key {V} (s : lstate (V := V)) : Prop := NoDup (map crash_key (crashes s)) /\ NoDup (map event_key (events s)).
Definition grown {V} (s s' : lstate (V := V)) : Prop :=
  crashes s `prefix_of` crashes s' /\ events s `prefix_of` events s' /\ run_crashes s `prefix_of` run_crashes s' /\
  (forall e, e ∈ marked s -> e ∈ marked s') /\ (one_entry_per_key s -> one_entry_per_key s').
Section G.
  Context {V : Type} (place : nat -> nat).
  Notation lstate := (lstate (V := V)).
  Implicit Types s t : lstate.
  Lemma grown_refl s : grown s s.
  Proof. unfold grown. auto. Qed.
  Lemma grown_trans s t u : grown s t -> grown t u -> grown s u.
  Proof. intros (A & B & C & D & E) (A' & B' & C' & D' & E'). split; [by etrans|]. split; [by etrans|]. split; [by etrans|]. auto. Qed.
  Lemma grown_same s t : crashes t = crashes s -> events t = events s -> run_crashes t = run_crashes s -> (forall e, e ∈ marked s -> e ∈ marked t) -> grown s t.
  Proof. intros A B C D. unfold grown, one_entry_per_key. rewrite A, B, C. auto. Qed.
  Lemma write_crash_grown pl pre i e s s' o : write_crash pl pre i e s = (s', o) -> grown s s'.
  Proof.
    unfold write_crash. destruct (existsb _ _) eqn:Eb; [intros [= <- <-]; by apply grown_same|]. intros [= <- <-].
    split; [by eexists|]. split; [done|]. split; [done|]. split; [done|]. intros [H1 H2]. split; [|done]. cbn. rewrite map_app. apply NoDup_app. split; [done|].
    split; [|apply NoDup_singleton]. intros k Hk ->%elem_of_list_singleton. apply elem_of_list_fmap in Hk as (c & Hk & Hc). unfold crash_key in Hk. cbn in Hk. injection Hk as K1 K2 K3.
    enough (existsb (fun c => bool_decide (c_place c = pl /\ c_prefix c = pre /\ c_id c = i)) (crashes s) = true) by congruence.
    apply existsb_exists. exists c. split; [by apply elem_of_list_In|by apply bool_decide_eq_true].
  Qed.
  Lemma write_all_grown ps pre i e : forall s s' o, write_all place ps pre i e s = (s', o) -> grown s s'.
  Proof.
    induction ps as [|p ps IH]; intros s s' o; cbn; [intros [= <- <-]; apply grown_refl|]. destruct (write_crash _ _ _ _ s) as [s1 [e'|]] eqn:E1.
    - intros [= <- <-]. by eapply write_crash_grown.
    - intros E. eapply grown_trans; [by eapply write_crash_grown|by eapply IH].
  Qed.
  Lemma write_prefixes_grown pres i e : forall s s' o, write_prefixes place pres i e s = (s', o) -> grown s s'.
  Proof.
    induction pres as [|p ps IH]; intros s s' o; cbn; [intros [= <- <-]; apply grown_refl|]. destruct (write_all _ _ _ _ _ s) as [s1 [e'|]] eqn:E1.
    - intros [= <- <-]. by eapply write_all_grown.
    - intros E. eapply grown_trans; [by eapply write_all_grown|by eapply IH].
  Qed.
  Lemma persist_grown e pres i s s' o b : persist place e pres i s = (s', o, b) -> grown s s'.
  Proof.
    unfold persist. destruct (needs_processing e s); [|intros [= <- <- <-]; apply grown_refl].
    assert (H : forall s1 i1, grown s s1 -> match write_prefixes place pres i1 e s1 with (s2, None) => (with_mark e s2, None, true) | (s2, Some e') => (s2, Some e', false) end = (s', o, b) -> grown s s').
    { intros s1 i1 G. destruct (write_prefixes place pres i1 e s1) as [s2 [e'|]] eqn:Ew.
      - intros [= <- <- <-]. eapply grown_trans; [exact G|by eapply write_prefixes_grown].
      - intros [= <- <- <-]. eapply grown_trans; [exact G|]. eapply grown_trans; [by eapply write_prefixes_grown|]. apply grown_same; try done. cbn. set_solver. }
    destruct i as [text|x]; cbn; apply H; [by apply grown_same|apply grown_refl].
  Qed.
  Lemma logger_grown h s s' o : exception_logger place h s = (s', o) -> grown s s'.
  Proof.
    unfold exception_logger. destruct h as [e|]; [|intros [= <- <-]; apply grown_refl]. destruct (persist _ _ _ _ _) as [[s1 r] b] eqn:E. intros [= <- <-]. by eapply persist_grown.
  Qed.
  Lemma exit_grown h s s' o : exit_with place h s = (s', o) -> grown s s'.
  Proof.
    unfold exit_with. destruct (exception_logger place h s) as [s1 [e|]] eqn:E; intros [= <- <-]; [by eapply logger_grown|].
    eapply grown_trans; [by eapply logger_grown|by apply grown_same].
  Qed.
  Definition growing (f : lstate -> lstate * option nat) : Prop := forall s s' o, f s = (s', o) -> grown s s'.
  Lemma with_grown h p body : growing body -> growing (run_with place h p body).
  Proof.
    intros Hb s s' o. unfold run_with. destruct (body _) as [s1 [e|]] eqn:E1.
    - destruct (exit_with place (Some e) s1) as [s2 [e'|]] eqn:E2; intros [= <- <-]; (eapply grown_trans; [|eapply grown_trans; [by eapply Hb|by eapply exit_grown]]); by apply grown_same.
    - intros E2. eapply grown_trans; [|eapply grown_trans; [by eapply Hb|by eapply exit_grown]]. by apply grown_same.
  Qed.
  Lemma function_grown f i ses body : growing body -> growing (run_function place f i ses body).
  Proof.
    intros Hb s s' o. unfold run_function. destruct (body s) as [s1 [e|]] eqn:E1; [|intros [= <- <-]; by eapply Hb].
    destruct (persist _ _ _ _ _) as [[s2 [e'|]] dn] eqn:E2.
    - intros [= <- <-]. eapply grown_trans; [by eapply Hb|by eapply persist_grown].
    - intros E. eapply grown_trans; [by eapply Hb|]. eapply grown_trans; [by eapply persist_grown|].
      destruct ses as [[pl n]|]; [destruct dn|]; injection E as <- <-; try apply grown_refl.
      split; [done|]. split; [done|]. split; [by eexists|]. done.
  Qed.
  Lemma events_grown ps d i r : growing (write_events place ps d i r).
  Proof.
    induction ps as [|p ps IH]; intros s s' o; cbn; [intros [= <- <-]; apply grown_refl|]. destruct (existsb _ _) eqn:Eb; [intros [= <- <-]; by apply grown_same|].
    intros E. eapply grown_trans; [|by eapply IH]. split; [done|]. split; [by eexists|]. split; [done|]. split; [done|]. intros [H1 H2]. split; [done|].
    cbn. rewrite map_app. apply NoDup_app. split; [done|].
    split; [|apply NoDup_singleton]. intros k Hk ->%elem_of_list_singleton. apply elem_of_list_fmap in Hk as (c & Hk & Hc). unfold event_key in Hk. cbn in Hk. injection Hk as K1 K2 K3.
    enough (existsb (fun c => bool_decide (e_place c = place p /\ e_day c = d /\ e_id c = i)) (events s) = true) by congruence.
    apply existsb_exists. exists c. split; [by apply elem_of_list_In|by apply bool_decide_eq_true].
  Qed.
  Lemma exec_grown pr : forall h, growing (exec place h pr).
  Proof.
    induction pr as [|p IHp q IHq| | |b IHb k IHk|p b IHb|f b IHb|f p b IHb|f p g IHg b IHb k IHk|i args kw draws|]; intros h s s' o; cbn [exec].
    - intros [= <- <-]. apply grown_refl.
    - destruct (exec place h p s) as [s1 [e|]] eqn:E1; [intros [= <- <-]; by eapply IHp|]. intros E. eapply grown_trans; [by eapply IHp|by eapply IHq].
    - intros [= <- <-]. by apply grown_same.
    - destruct h; intros [= <- <-]; by apply grown_same.
    - destruct (exec place h b s) as [s1 [e|]] eqn:E1; [|intros [= <- <-]; by eapply IHb]. intros E. eapply grown_trans; [by eapply IHb|by eapply IHk].
    - apply with_grown, IHb.
    - apply function_grown, IHb.
    - apply with_grown, function_grown, IHb.
    - apply with_grown. intros s1 s2 o2 E. destruct (new_sig s1) as [s3 n] eqn:En. unfold new_sig in En. injection En as <- <-.
      eapply grown_trans; [|eapply with_grown; [|exact E]]; [by apply grown_same|].
      intros s4 s5 o5. destruct (exec place h g s4) as [s6 [e|]] eqn:E6; [intros [= <- <-]; by eapply IHg|].
      destruct (run_with place h p _ s6) as [s7 [e|]] eqn:E7.
      + intros [= <- <-]. eapply grown_trans; [by eapply IHg|]. eapply with_grown; [|exact E7]. apply function_grown, IHb.
      + intros E8. eapply grown_trans; [by eapply IHg|]. eapply grown_trans; [|by eapply IHk]. eapply with_grown; [|exact E7]. apply function_grown, IHb.
    - unfold log_event. destruct i as [x|]; cbn; destruct (add_summary args kw draws) as [[r rest]|].
      + apply events_grown.
      + intros [= <- <-]. apply grown_refl.
      + intros E. eapply grown_trans; [|by eapply events_grown]. by apply grown_same.
      + intros [= <- <-]. by apply grown_same.
    - intros [= <- <-]. by apply grown_same.
  Qed.
End G.
(** Whatever a program does (portals sharing their files or not, exceptions inside handlers, failing logs), the crash
    histories and event logs only grow at the end; an entry once written stays as it was, and no two entries ever have the
    same place, section and id. *)
Theorem C92_logs_only_grow : forall V place (pr : prog (V := V)) h s s' r, exec place h pr s = (s', r) ->
  (exists new, crashes s' = crashes s ++ new) /\ (exists new, events s' = events s ++ new) /\
  (exists new, run_crashes s' = run_crashes s ++ new) /\ (forall e, e ∈ marked s -> e ∈ marked s') /\
  (one_entry_per_key s -> one_entry_per_key s').
Proof. intros V place pr h s s' r E. exact (exec_grown place pr h s s' r E). Qed.
Print Assumptions C92_logs_only_grow.
Example C92_new_logs : forall V, one_entry_per_key (fresh_logs (V := V)).
Proof. split; constructor. Qed.
(* run a second time the same day, logging the same id is refused, and that failure is logged as one more crash *)
Example C92_example :
  let pr := PWith (V := nat) 1 (PSeq (PTry (POrdinary "f" PRaise) PSkip) (PLog (Some "saved"%string) [7] [] [])) in
  let s := fst (exec id None pr fresh_logs) in
  length (crashes s) = 2 /\ length (events s) = 1 /\ length (crashes (fst (exec id None pr s))) = 5 /\ length (events (fst (exec id None pr s))) = 1.
Proof. by vm_compute. Qed.
