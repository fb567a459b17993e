(** C80-C82: what result-address objects answer, through their whole life.  Histories ([run]) may create portals, enter and
    leave them, create, copy, pickle and invalidate address objects, ask any of them, run functions, and let other processes
    store results. *)
From Verif.Lib Require Import Py DictLemmas.
From stdpp Require Import sets list_numbers.
From Verif.Model Require Import ResultCache.
From Verif.Spec Require Import ResultCacheSpec.
From Verif.Proofs Require Import ResultCacheP.

Section C.
  Context {A V : Type} `{EqDecision A}.
  Implicit Types (w : world A V) (a : A) (v : V) (sg : nat -> list A) (st : nat -> dict A V) (h : list (op A V)).

  Lemma has_iff w p a : p < length (places (fst w)) -> (has (fst w) p a <-> exists v, holds w p a v).
  Proof. intros Hp. split; [by apply has_holds|]. intros [v Hv]. by eapply holds_has. Qed.

  (** ** C80: ready and get *)
  (** Once ready has said True, get returns a value, whatever happens in between. *)
  Theorem C80_ready_then_get w w1 i h : reachable w -> step w (OReady i) = (w1, IsReady (Ok true)) ->
    exists v, snd (step (run w1 h) (OGet i)) = Value (Ok v).
  Proof.
    intros Hr E. pose proof (reachable_inv _ Hr) as Hw. destruct (ready_ok_bound w i w1 Hw E) as (a & p & Hb & Hh).
    pose proof (proj1 (step_facts w (OReady i) Hw)) as Hw1. rewrite E in Hw1. cbn in Hw1.
    eapply get_own_stored; [by apply run_facts|by eapply bound_later|]. apply has_later; [done|by eapply bound_lt|done].
  Qed.
  (** Once get or execute has returned a value, ready says True, whatever happens in between. *)
  Theorem C80_get_then_ready w w1 i v h : reachable w -> step w (OGet i) = (w1, Value (Ok v)) ->
    snd (step (run w1 h) (OReady i)) = IsReady (Ok true).
  Proof.
    intros Hr E. pose proof (reachable_inv _ Hr) as Hw. destruct (get_ok_bound w i w1 v Hw E) as (a & p & Hb & Hh).
    pose proof (proj1 (step_facts w (OGet i) Hw)) as Hw1. rewrite E in Hw1. cbn in Hw1.
    eapply ready_own_stored; [by apply run_facts|by eapply bound_later|]. apply has_later; [done|by eapply bound_lt|done].
  Qed.
  Theorem C80_executed_then_ready w w1 i outcome mid v h : reachable w -> step w (OExecute i outcome mid) = (w1, Value (Ok v)) ->
    snd (step (run w1 h) (OReady i)) = IsReady (Ok true) /\ exists v', snd (step (run w1 h) (OGet i)) = Value (Ok v').
  Proof.
    intros Hr E. pose proof (reachable_inv _ Hr) as Hw. destruct (exec_ok_bound w i outcome mid w1 v Hw E) as (a & p & Hb & Hh).
    pose proof (proj1 (step_facts w (OExecute i outcome mid) Hw)) as Hw1. rewrite E in Hw1. cbn in Hw1.
    assert (Hh' : has (fst (run w1 h)) p a) by (apply has_later; [done|by eapply bound_lt|done]).
    assert (Hb' : bound_to (run w1 h) i a p) by (by apply bound_later).
    pose proof (proj1 (run_facts h w1 Hw1)) as Hw2. split; [by eapply ready_own_stored|by eapply get_own_stored].
  Qed.
  (** ready is True exactly when the object's own portal, or a portal other than the current one, holds a result; otherwise
      it is False. *)
  Theorem C80_ready_exactly w i a p : reachable w -> bound_to w i a p ->
    (snd (step w (OReady i)) = IsReady (Ok true) <-> exists q v, holds w q a v /\ (q = p \/ ~ is_current w q)) /\
    (snd (step w (OReady i)) = IsReady (Ok true) \/ snd (step w (OReady i)) = IsReady (Ok false)).
  Proof.
    intros Hr Hb. pose proof (reachable_inv _ Hr) as Hw. pose proof (bound_lt _ _ _ _ Hw Hb) as Hlt. destruct (ready_answer w i a p Hw Hb) as (w' & -> & _). cbn [snd].
    destruct (fresh_ready (current (fst w)) a p (fst w)) as [s' b] eqn:Ef. destruct (fresh_ready_facts _ _ _ _ _ _ (proj1 Hw) Hlt Ef) as (_ & _ & _ & Hc). cbn [snd].
    destruct Hc as [(-> & _ & Hc)|(-> & _ & Hno & Hq)].
    - split; [|by left]. split; [|done]. intros _. destruct Hc as [[Hh _]|(q & v & Hq & Hv & _)].
      + apply has_iff in Hh as [v Hv]; [|done]. exists p, v. auto.
      + apply elem_others in Hq as [Hn Hq]. exists q, v. split; [by split|]. right. unfold is_current. congruence.
    - split; [|by right]. split; [done|]. intros (q & v & Hv & Hor). exfalso. destruct Hor as [->|Hn]; [apply Hno; by eapply holds_has|].
      apply (Hq q); [|by eapply holds_has]. apply elem_others. unfold is_current in Hn. split; [congruence|apply Hv].
  Qed.
  (** get returns a value exactly when some portal holds a result, otherwise it raises TimeoutError (at once if the timeout
      is 0).  The current portal plays no role. *)
  Theorem C80_get_exactly w i a p : reachable w -> bound_to w i a p ->
    ((exists v, snd (step w (OGet i)) = Value (Ok v)) <-> exists q v, holds w q a v) /\
    ((exists v, snd (step w (OGet i)) = Value (Ok v)) \/ snd (step w (OGet i)) = Value (Err TimeoutError)).
  Proof.
    intros Hr Hb. pose proof (reachable_inv _ Hr) as Hw. pose proof (bound_lt _ _ _ _ Hw Hb) as Hlt.
    destruct (get_answer w i a p Hw Hb) as (o & _ & [(v & _ & Hh & ->)|(_ & w' & -> & _)]); cbn [snd].
    - split; [|left; eauto]. split; [|eauto]. intros _. apply has_iff in Hh as [v' Hv]; [|done]. eauto.
    - pose proof (fresh_get_value a p (fst w) (proj1 Hw) Hlt) as Hf. destruct (snd (fresh_get a p (fst w))) as [v|e].
      + split; [|left; eauto]. split; [|eauto]. intros _. destruct Hf as (_ & _ & q & Hq & Hv). exists q, v. by split.
      + destruct Hf as (-> & _ & Hno). split; [|by right]. split; [by intros [v [=]]|]. intros (q & v & Hv). exfalso. apply (Hno q); [apply Hv|by eapply holds_has].
  Qed.
  (** A value that get returns for an object without a remembered one is a value that some portal held. *)
  Theorem C80_get_returns_stored_value w i a p c r v : reachable w -> snd w !! i = Some (RAddr a (Some p) r None c) ->
    snd (step w (OGet i)) = Value (Ok v) -> exists q, holds w q a v.
  Proof.
    intros Hr E Hv. pose proof (reachable_inv _ Hr) as Hw. assert (Hb : bound_to w i a p) by (by eexists _, _, _).
    pose proof (bound_lt _ _ _ _ Hw Hb) as Hlt.
    destruct (get_answer w i a p Hw Hb) as (o & E' & [(v' & Er & _)|(_ & w' & Es & _)]); [rewrite E in E'; injection E' as <-; done|].
    rewrite Es in Hv. injection Hv as Hv. pose proof (fresh_get_value a p (fst w) (proj1 Hw) Hlt) as Hf. rewrite Hv in Hf. destruct Hf as (_ & _ & q & Hq & Hx).
    exists q. by split.
  Qed.
  (** An object without a portal, asked while no portal is current, raises TypeError and nothing changes. *)
  Theorem C80_no_portal w i a : reachable w -> current (fst w) = None -> snd w !! i = Some (RAddr a None false None false) ->
    step w (OReady i) = (w, IsReady (Err TypeError)) /\ step w (OGet i) = (w, Value (Err TypeError)).
  Proof.
    intros Hr Hc E. cbn [step]. unfold on. rewrite E. cbn. unfold capture. cbn. rewrite Hc. cbn. rewrite list_insert_id by done. by destruct w.
  Qed.

  (** ** C81: answers do not change *)
  (** If the value get returns is the one the object's portal holds, get and execute return this value for ever. *)
  Theorem C81_stored_answer_forever w i a p v h : reachable w -> bound_to w i a p -> snd (step w (OGet i)) = Value (Ok v) -> holds w p a v ->
    snd (step (run w h) (OGet i)) = Value (Ok v) /\ forall outcome mid, snd (step (run w h) (OExecute i outcome mid)) = Value (Ok v).
  Proof.
    intros Hr Hb Hg Hh. pose proof (reachable_inv _ Hr) as Hw. assert (Hp : pin a p v (fun j => j = i) w).
    { split; [done|]. intros j o -> E T P. destruct (get_answer w i a p Hw Hb) as (o' & E' & [(v' & Er & _ & Es)|(Er & _)]);
        rewrite E in E'; injection E' as <-; [|by left]. right. rewrite Es in Hg. cbn in Hg. congruence. }
    eapply pin_answers; [by apply run_facts|by apply pin_run|done|by apply bound_later].
  Qed.
  (** If execute was never called on the object, every answer of get stays for ever. *)
  Theorem C81_not_executed_answer_forever sg st h0 i v h : proper_stores sg st -> (forall outcome mid, OExecute i outcome mid ∉ h0) ->
    let w := run (init_world sg st) h0 in
    snd (step w (OGet i)) = Value (Ok v) -> snd (step (run (fst (step w (OGet i))) h) (OGet i)) = Value (Ok v).
  Proof.
    intros Hp Hn w Hg. pose proof (init_inv sg st Hp) as Hi. assert (Hw : winv w) by (by apply run_facts).
    assert (Hf : faithful w i) by (apply run_faithful; [done|done|]; intros o E; done).
    assert (Hf1 : faithful (fst (step w (OGet i))) i) by (by apply step_faithful).
    pose proof (proj1 (step_facts w (OGet i) Hw)) as Hw1.
    destruct (step w (OGet i)) as [w1 y] eqn:E. cbn in Hg, Hf1, Hw1. subst y. destruct (get_ok_bound w i w1 v Hw E) as (a & p & Hb & Hh). cbn.
    assert (Hc : exists o, snd w1 !! i = Some o /\ ra_result o = Some v /\ ra_text o = a /\ ra_portal o = Some p).
    { destruct (bound_capture _ _ _ _ Hb) as (o & Eo & T & P & _). exists o. split; [done|]. split; [|done].
      cbn [step] in E. unfold on in E. destruct (snd w !! i) as [o0|] eqn:E0; [|done]. destruct (get o0 (fst w)) as [[s' o'] r] eqn:Eg. injection E as <- ->.
      cbn in Eo. rewrite list_lookup_insert in Eo by (by eapply lookup_lt_Some). injection Eo as <-.
      unfold get in Eg. destruct (ra_result o0) eqn:Er0; [by injection Eg as <- <- <-|]. destruct (ra_portal (capture (fst w) o0)); [|done].
      destruct (ready _ _ _) as [[s2 o2] [[]|]]; try done. destruct (dict_get _ _); [|done]. by injection Eg as <- <- <-. }
    destruct Hc as (o & Eo & R & T & P). destruct (Hf1 o Eo v R) as (p' & P' & Hv). assert (p' = p) as -> by congruence. rewrite T in Hv.
    assert (Hpin : pin a p v (fun j => j = i) w1).
    { split; [split; [by eapply bound_lt|exact Hv]|]. intros j o' -> E' _ _. right. congruence. }
    refine (proj1 (pin_answers a p v (fun j => j = i) (run w1 h) i _ _ eq_refl _)); [by apply run_facts|by apply pin_run|by apply bound_later].
  Qed.
  (** Objects created after a portal holds a result answer with that result for ever, in this portal. *)
  Theorem C81_new_objects_answer_stored w p a v h i : reachable w -> holds w p a v -> length (snd w) <= i -> bound_to (run w h) i a p ->
    snd (step (run w h) (OGet i)) = Value (Ok v) /\ forall outcome mid, snd (step (run w h) (OExecute i outcome mid)) = Value (Ok v).
  Proof.
    intros Hr Hh Hi Hb. pose proof (reachable_inv _ Hr) as Hw. apply (pin_answers a p v (fun j => length (snd w) <= j)); [by apply run_facts| |done|done].
    apply pin_run; [done|]. split; [done|]. intros j o Hj E. apply lookup_lt_Some in E. lia.
  Qed.
  (** Deterministic functions: every answer, of every object, at any time, is the value of the call. *)
  Theorem C81_deterministic_answers (den : A -> V) sg st h i o v : proper_stores sg st -> store_agrees den st ->
    history_agrees den (init_world sg st) h -> let w := run (init_world sg st) h in snd w !! i = Some o ->
    (snd (step w (OGet i)) = Value (Ok v) -> v = den (ra_text o)) /\
    (forall outcome mid, op_agrees den w (OExecute i outcome mid) -> snd (step w (OExecute i outcome mid)) = Value (Ok v) -> v = den (ra_text o)).
  Proof.
    intros Hp Hs Hh w E. pose proof (init_inv sg st Hp) as Hi. assert (Hw : winv w) by (by apply run_facts).
    assert (Hd : dinv den w) by (apply run_dinv; [done|by apply init_dinv|done]).
    split; [by apply get_det|]. intros outcome mid Ha. by apply (exec_det den w i o outcome mid).
  Qed.

  (** ** C82: the caches do not show (deterministic functions) *)
  Theorem C82_caches_invisible (den : A -> V) sg st h0 w' h : proper_stores sg st -> store_agrees den st ->
    history_agrees den (init_world sg st) h0 -> let w := run (init_world sg st) h0 in
    same_but_caches w w' -> history_agrees den w h -> answers w' h = answers w h /\ fst (run w' h) = fst (run w h).
  Proof.
    intros Hp Hs Hh0 w Hsame Hh. pose proof (init_inv sg st Hp) as Hi. assert (Hw : winv w) by (by apply run_facts).
    assert (Hd : dinv den w) by (apply run_dinv; [done|by apply init_dinv|done]).
    destruct (run_sim den h w w' (same_sim den w w' Hw Hd Hsame) Hh) as (E1 & (E2 & _) & _). by split.
  Qed.
  (** In particular, invalidating a cache at any point changes no later answer. *)
  Theorem C82_invalidation_invisible (den : A -> V) sg st h0 i h : proper_stores sg st -> store_agrees den st ->
    history_agrees den (init_world sg st) h0 -> let w := run (init_world sg st) h0 in history_agrees den w h ->
    answers w (OInvalidate i :: h) = Nothing :: answers w h /\ fst (run w (OInvalidate i :: h)) = fst (run w h).
  Proof.
    intros Hp Hs Hh0 w Hh. assert (Hsame : same_but_caches w (fst (step w (OInvalidate i)))).
    { cbn [step]. unfold on. destruct (snd w !! i) as [o|] eqn:E; [|split; [done|]; apply Reflexive_instance_0; by left]. cbn. split; [done|]. cbn.
      rewrite <- (list_insert_id (snd w) i o E) at 1. apply Forall2_insert; [|by right]. apply Reflexive_instance_0. by left. }
    destruct (C82_caches_invisible den sg st h0 _ h Hp Hs Hh0 Hsame Hh) as [E1 E2]. cbn [answers run fold_left].
    assert (Hn : snd (step w (OInvalidate i)) = Nothing) by (cbn [step]; unfold on; destruct (snd w !! i); done).
    fold (run (fst (step w (OInvalidate i))) h). destruct (step w (OInvalidate i)) as [w1 y]. cbn in *. subst y. split; [|done]. by rewrite E1.
  Qed.
End C.

(** ** Examples and refutations: addresses and values are numbers *)
Local Notation no_sigs := (fun _ : nat => @nil nat).
Local Notation no_res := (fun _ : nat => @nil (nat * nat)).
Lemma empty_proper : proper_stores no_sigs no_res.
Proof. by intros l a v [=]. Qed.

(** Full claim: whenever get would return at once, ready is True.  Refuted: an address that belongs to portal 0, asked inside
    'with portal 1' where only portal 1 holds the result: ready is False, get returns 42 (after which ready is True). *)
Definition misses_current : list (op nat nat) := [ONewPortal 0; ONewPortal 1; OEnter 0; OAddress 7 0; OEnter 1; OStore 1 7 42].
Theorem C80_get_implies_ready_refuted : exists w : world nat nat, reachable w /\ snd (step w (OReady 0)) = IsReady (Ok false) /\
  snd (step w (OGet 0)) = Value (Ok 42) /\ answers w [OReady 0; OGet 0; OReady 0] = [IsReady (Ok false); Value (Ok 42); IsReady (Ok true)].
Proof.
  exists (run (init_world no_sigs no_res) misses_current). split; [exists no_sigs, no_res, misses_current; split; [apply empty_proper|done]|]. vm_compute. done.
Qed.
(** The hypotheses of C80 hold of non-trivial states: a result held elsewhere is found, and ready stays True. *)
Example C80_example : exists w : world nat nat, reachable w /\ bound_to w 0 7 0 /\ is_current w 0 /\ holds w 1 7 42 /\
  ~ (exists v, holds w 0 7 v) /\ answers w [OReady 0; OExit; OInvalidate 0; OReady 0; OGet 0] =
  [IsReady (Ok true); Nothing; Nothing; IsReady (Ok true); Value (Ok 42)].
Proof.
  set (h := [ONewPortal 0; ONewPortal 1; OEnter 0; OAddress 7 0; OStore 1 7 42] : list (op nat nat)).
  exists (run (init_world no_sigs no_res) h). split; [exists no_sigs, no_res, h; split; [apply empty_proper|done]|].
  split; [by eexists _, _, _|]. split; [done|]. split; [by split; [vm_compute; lia|]|]. split; [|vm_compute; done]. by intros [v [_ [=]]].
Qed.

(** Full claim: get never changes its answer.  Refuted for functions that are not deterministic: while the body runs, another
    process stores 2; execute returns its own 1 and remembers it, but a copy of the address, or the address itself after its
    cache is dropped, gives 2. *)
Definition lost_race : list (op nat nat) := [ONewPortal 0; OEnter 0; OAddress 7 0; OExecute 0 (Ok 1) [(0, 7, 2)]].
Theorem C81_lost_race_refuted : exists w : world nat nat, reachable w /\ bound_to w 0 7 0 /\ holds w 0 7 2 /\
  answers w [OGet 0; OUnpickle 0; OGet 1; OGet 0; OInvalidate 0; OGet 0] =
  [Value (Ok 1); Nothing; Value (Ok 2); Value (Ok 1); Nothing; Value (Ok 2)].
Proof.
  exists (run (init_world no_sigs no_res) lost_race). split; [exists no_sigs, no_res, lost_race; split; [apply empty_proper|done]|].
  split; [by eexists _, _, _|]. split; [by split; [vm_compute; lia|]|]. vm_compute. done.
Qed.
(** The same holds of the caches without determinism: dropping a cache shows. *)
Theorem C82_nondeterministic_refuted : exists w w' : world nat nat, reachable w /\ same_but_caches w w' /\ answers w [OGet 0] <> answers w' [OGet 0].
Proof.
  exists (run (init_world no_sigs no_res) lost_race), (fst (step (run (init_world no_sigs no_res) lost_race) (OInvalidate 0))).
  split; [exists no_sigs, no_res, lost_race; split; [apply empty_proper|done]|]. split; [|vm_compute; done]. split; [done|].
  vm_compute. constructor; [by right|constructor].
Qed.
(** The hypotheses of C81 and C82 hold of a session with two portals, a run, a copy and another process. *)
Definition den7 (a : nat) : nat := a * 6.
Definition session7 : list (op nat nat) :=
  [ONewPortal 0; ONewPortal 1; OEnter 0; OAddress 7 0; OExecute 0 (Ok 42) [(1, 8, 48)]; OStore 1 7 42; OEnter 1; OUnpickle 0].
Example C81_example : history_agrees den7 (init_world no_sigs no_res) session7 /\ store_agrees den7 no_res /\
  let w := run (init_world no_sigs no_res) session7 in bound_to w 0 7 0 /\ holds w 0 7 42 /\ bound_to w 1 7 1 /\
  answers w [OGet 0; OGet 1] = [Value (Ok 42); Value (Ok 42)].
Proof.
  split; [|split; [by intros l a v [=]|]].
  - vm_compute. do 4 (split; [done|]). split; [|by repeat split]. split.
    + intros l a v Hin. apply elem_of_list_singleton in Hin. by injection Hin as -> -> ->.
    + intros o v [= <-] [= <-]. done.
  - split; [by eexists _, _, _|]. split; [by split; [vm_compute; lia|]|]. split; [by eexists _, _, _|]. vm_compute. done.
Qed.
Example C82_example : let w := run (init_world no_sigs no_res) session7 in
  same_but_caches w (fst (step w (OInvalidate 0))) /\ fst (step w (OInvalidate 0)) <> w.
Proof. split; [|vm_compute; done]. split; [done|]. vm_compute. constructor; [by right|]. constructor; [by left|constructor]. Qed.
Print Assumptions C80_executed_then_ready.
Print Assumptions C80_get_exactly.
Print Assumptions C80_get_implies_ready_refuted.
Print Assumptions C80_get_returns_stored_value.
Print Assumptions C80_get_then_ready.
Print Assumptions C80_no_portal.
Print Assumptions C80_ready_exactly.
Print Assumptions C80_ready_then_get.
Print Assumptions C81_deterministic_answers.
Print Assumptions C81_lost_race_refuted.
Print Assumptions C81_new_objects_answer_stored.
Print Assumptions C81_not_executed_answer_forever.
Print Assumptions C81_stored_answer_forever.
Print Assumptions C82_caches_invisible.
Print Assumptions C82_invalidation_invisible.
Print Assumptions C82_nondeterministic_refuted.
