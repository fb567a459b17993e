(** C129, C130: objects, snapshots and calls. *)
From Verif.Lib Require Import Py.
From Verif.Model Require Import Aliasing.
From Verif.Spec Require Import AliasingSpec.
From Verif.Proofs Require Import AliasingP.
From Coq Require Import Lia.
Local Open Scope nat_scope.

(** ** C129: what is stored is a snapshot *)
(** Whatever a program does - also if it changes objects that it stored or retrieved - what is stored stays as it is. *)
Theorem C129_stores_never_change : forall A V (eqA : EqDecision A) (text_of : V -> A) body nportals (s : state (A := A) (V := V)) h,
  let s' := steps text_of body nportals s h in
  (forall p t v, stores s p t = Some v -> stores s' p t = Some v) /\ (forall p k t, results s p k = Some t -> results s' p k = Some t).
Proof. intros. apply steps_keeps. Qed.
Print Assumptions C129_stores_never_change.
(** In careful programs everything is stored under its own text, *)
Theorem C129_content_addressed_partial : forall A V (eqA : EqDecision A) (text_of : V -> A) body nportals (s : state (A := A) (V := V)),
  collision_free text_of -> reachable text_of body nportals s -> forall p t v, stores s p t = Some v -> text_of v = t.
Proof. intros A V eqA text_of body np s cf Hr p t v. apply (i_store text_of body s). by eapply reachable_inv. Qed.
Print Assumptions C129_content_addressed_partial.
(** and an address that keeps no object - a restored one, a copy, one whose cache was dropped - gives a new object with the contents
    that were stored, whatever happened since to the object that was stored and to the objects that were retrieved. *)
Theorem C129_fresh_addresses_return_the_snapshot_partial : forall A V (eqA : EqDecision A) (text_of : V -> A) body nportals
    (s s1 : state (A := A) (V := V)) o v p i,
  collision_free text_of -> reachable text_of body nportals s -> heap s !! o = Some v -> store text_of o p s = (s1, Ok i) ->
  forall h, careful text_of body nportals s1 h -> let s2 := steps text_of body nportals s1 h in
  forall j a cur, vaddrs s2 !! j = Some a -> va_text a = text_of v -> va_value a = None ->
  (va_portal a = p -> exists s3, get nportals j cur s2 = (s3, Ok (length (heap s2))) /\ heap s3 = heap s2 ++ [v]) /\
  (forall s3 o', get nportals j cur s2 = (s3, Ok o') -> o' = length (heap s2) /\ heap s3 = heap s2 ++ [v]).
Proof.
  intros A V eqA text_of body np s s1 o v p i cf Hr Ho Hs h Hc s2 j a cur Ha Ht Hn.
  pose proof (reachable_inv text_of body np cf s Hr) as I0.
  destruct (store_spec text_of body o p s s1 _ I0 Hs) as (I1 & G1 & _ & _ & P1 & _). destruct (P1 v Ho) as (_ & _ & w & Hw).
  destruct (steps_spec text_of body np cf s1 h I1 Hc) as [I2 [G2 _]]. fold s2 in I2, G2. apply G2 in Hw.
  assert (w = v) as -> by (apply cf; by apply (i_store text_of body s2 I2 p)).
  assert (forall s3 o', get np j cur s2 = (s3, Ok o') -> o' = length (heap s2) /\ heap s3 = heap s2 ++ [v]) as G.
  { intros s3 o' E. destruct (get_spec text_of body np j cur s2 s3 _ I2 E) as (_ & _ & _ & _ & _ & P).
    destruct (P o' eq_refl) as (b & w & Eb & _ & Hm). assert (b = a) as -> by congruence. rewrite Hn in Hm. destruct Hm as (-> & Hh & Tw).
    assert (w = v) as -> by (apply cf; congruence). done. }
  split; [|exact G]. intros Hp. destruct (get np j cur s2) as [s3 r] eqn:E. assert (r = Ok (length (heap s2))) as ->.
  { unfold get in E. rewrite Ha, Hn, Hp, Ht, Hw in E. cbn in E. by injection E. }
  exists s3. split; [done|]. by apply (G s3 (length (heap s2))).
Qed.
Print Assumptions C129_fresh_addresses_return_the_snapshot_partial.
(** But an address that keeps an object returns that object, *)
Theorem C129_kept_objects_are_shared : forall A V (eqA : EqDecision A) nportals (s : state (A := A) (V := V)) i a o cur,
  vaddrs s !! i = Some a -> va_value a = Some o -> get nportals i cur s = (s, Ok o).
Proof. intros A V eqA np s i a o cur Ha Ho. unfold get. by rewrite Ha, Ho. Qed.
Print Assumptions C129_kept_objects_are_shared.
(** so C129 is false: x = [1]; addr = ValueAddr(x); x.append(2); addr.get() gives [1, 2]; a copy of addr gives [1]. *)
Definition text (v : list nat) : list nat := v.
Definition no_functions (f : nat) (v : list nat) : list nat * option (list nat) := (v, None).
Theorem C129_retrieved_values_change_refuted :
  let s := steps text no_functions 2 start [New [1]; Store 0 0; Change 0 [1; 2]] in
  reachable text no_functions 2 s /\
  (exists s' o, get 2 0 None s = (s', Ok o) /\ heap s' !! o = Some [1; 2]) /\
  (exists s' o, get 2 1 None (fst (restore 0 0 s)) = (s', Ok o) /\ heap s' !! o = Some [1]).
Proof.
  cbn zeta. split; [eexists; split; [|reflexivity]; cbn; tauto|]. split; eexists _, _; (split; [vm_compute; reflexivity|reflexivity]).
Qed.
Print Assumptions C129_retrieved_values_change_refuted.
(** Worse: taking such an address to another portal stores the changed contents there - under the text of the old ones, so everybody who
    asks that portal for [1] gets [1, 2]. *)
Theorem C129_changed_contents_stored_under_old_text_refuted :
  let s := steps text no_functions 2 start [New [1]; Store 0 0; Change 0 [1; 2]; Readdress 0 1] in
  stores s 1 (text [1]) = Some [1; 2] /\
  let s' := steps text no_functions 2 s [New [1]; Store 1 1; Restore 2 1] in
  exists s2 o, get 2 3 (Some 1) s' = (s2, Ok o) /\ heap s2 !! o = Some [1; 2] /\ exists a, vaddrs s' !! 2 = Some a /\ va_text a = text [1].
Proof.
  cbn zeta. split; [vm_compute; reflexivity|]. eexists _, _. split; [vm_compute; reflexivity|]. split; [reflexivity|].
  eexists. split; vm_compute; reflexivity.
Qed.
Print Assumptions C129_changed_contents_stored_under_old_text_refuted.

(** ** C130: calls and the objects of the caller *)
(** In careful programs calls answer for the contents that the argument has when the call is made, although objects change. *)
Theorem C130_answers_partial : forall A V (eqA : EqDecision A) (text_of : V -> A) body nportals (s s' : state (A := A) (V := V)) f x p o,
  collision_free text_of -> reachable text_of body nportals s -> careful_step text_of s (Call f x p) ->
  call text_of body nportals f x p s = (s', Ok o) -> exists v, stands_for text_of s x v /\ heap s' !! o = Some (answer body f v).
Proof.
  intros A V eqA text_of body np s s' f x p o cf Hr Hc E. pose proof (reachable_inv text_of body np cf s Hr) as I0.
  apply step_careful in Hc. destruct (call_spec text_of body np cf f x p s s' _ I0 Hc E) as (_ & _ & _ & P & _). by apply P.
Qed.
Print Assumptions C130_answers_partial.
(** What a call with an object does to the objects of the caller: if the result is not there, the argument is left as the body leaves
    it; if it is there, nothing changes.  It never fails. *)
Theorem C130_objects_after_a_call_exactly : forall A V (eqA : EqDecision A) (text_of : V -> A) body nportals (s : state (A := A) (V := V)) f o v p,
  collision_free text_of -> reachable text_of body nportals s -> heap s !! o = Some v ->
  exists s' r, call text_of body nportals f (Obj o) p s = (s', Ok r) /\
    (no_result text_of nportals s f v p -> exists new, heap s' = <[o := fst (body f v)]> (heap s) ++ new) /\
    (some_result text_of nportals s f v p -> r = length (heap s) /\ heap s' = heap s ++ [answer body f v]).
Proof.
  intros A V eqA text_of body np s f o v p cf Hr Ho. pose proof (reachable_inv text_of body np cf s Hr) as I0.
  destruct (call text_of body np f (Obj o) p s) as [s' r] eqn:E.
  destruct (call_spec text_of body np cf f (Obj o) p s s' _ I0 I E) as (_ & _ & _ & _ & _ & P).
  destruct (P o v eq_refl Ho) as ((r' & ->) & P1 & P2). exists s', r'. split; [done|]. split; [exact P1|].
  intros Hs. destruct (P2 Hs) as [? [= ->]]. done.
Qed.
Print Assumptions C130_objects_after_a_call_exactly.
(** Calls with addresses, run() and get_address() never change objects of the caller; *)
Theorem C130_protected_calls : forall A V (eqA : EqDecision A) (text_of : V -> A) body nportals (s s' : state (A := A) (V := V)) f x p i r,
  collision_free text_of -> reachable text_of body nportals s ->
  (careful_step text_of s (Call f (Addr i) p) -> call text_of body nportals f (Addr i) p s = (s', r) -> objects_unchanged s s') /\
  (careful_step text_of s (Run f x p) -> run text_of body nportals f x p s = (s', r) -> objects_unchanged s s') /\
  (careful_step text_of s (GetAddress f x p) -> get_address text_of nportals f x p s = (s', r) -> objects_unchanged s s').
Proof.
  intros A V eqA text_of body np s s' f x p i r cf Hr. pose proof (reachable_inv text_of body np cf s Hr) as I0. split; [|split].
  - intros Hc E. by destruct (call_spec text_of body np cf f (Addr i) p s s' _ I0 Hc E) as (_ & _ & _ & _ & P & _).
  - intros Hc E. apply step_careful in Hc. by destruct (run_spec text_of body np cf f x p s s' _ I0 Hc E) as (_ & _ & P & _).
  - intros Hc E. apply step_careful in Hc. by destruct (get_address_spec text_of body np f x p s s' _ I0 Hc E) as (_ & _ & P & _).
Qed.
Print Assumptions C130_protected_calls.
(** nor do any calls of functions whose bodies leave their argument alone. *)
Theorem C130_well_behaved_functions_partial : forall A V (eqA : EqDecision A) (text_of : V -> A) body nportals (s s' : state (A := A) (V := V)) f o p r,
  collision_free text_of -> reachable text_of body nportals s -> does_not_change_its_argument body f ->
  call text_of body nportals f (Obj o) p s = (s', Ok r) -> objects_unchanged s s'.
Proof.
  intros A V eqA text_of body np s s' f o p r cf Hr Hf E.
  destruct (heap s !! o) as [v|] eqn:Ho.
  - destruct (C130_objects_after_a_call_exactly A V eqA text_of body np s f o v p cf Hr Ho) as (s2 & r2 & E2 & P1 & P2).
    rewrite E in E2. injection E2 as <- <-. rewrite Hf, list_insert_id in P1 by done.
    destruct (decide (Exists (fun q => is_Some (results s q (f, text_of v))) (p :: seq 0 np))) as [X|X].
    + apply Exists_exists in X as (q & Hq & t & Ht). exists [answer body f v]. apply P2. exists q, t. split; [|done].
      apply elem_of_cons in Hq as [->|Hq]; [by left|]. right. apply elem_of_list_In, in_seq in Hq. lia.
    + apply P1. intros q Hq. destruct (results s q (f, text_of v)) as [t|] eqn:Et; [|done]. exfalso. apply X, Exists_exists. exists q. split; [|eauto].
      apply elem_of_cons. destruct Hq as [->|Hq]; [by left|]. right. apply elem_of_list_In, in_seq. lia.
  - exfalso. unfold call, pack, store in E. by rewrite Ho in E.
Qed.
Print Assumptions C130_well_behaved_functions_partial.
(** The address of a call that keeps no object gives a new object with the answer; one that keeps an object gives that object. *)
Theorem C130_retrieving_answers_exactly : forall A V (eqA : EqDecision A) (text_of : V -> A) body nportals (s s' : state (A := A) (V := V)) j a r,
  collision_free text_of -> reachable text_of body nportals s -> raddrs s !! j = Some a -> get_result text_of nportals j s = (s', Ok r) ->
  match ra_result a with
  | Some o => r = o /\ s' = s
  | None => r = length (heap s) /\ exists v, text_of v = ra_arg a /\ heap s' = heap s ++ [answer body (ra_fn a) v]
  end.
Proof.
  intros A V eqA text_of body np s s' j a r cf Hr Ha E. pose proof (reachable_inv text_of body np cf s Hr) as I0.
  destruct (get_result_spec text_of body np cf j s s' _ I0 E) as (_ & _ & _ & P). destruct (P r eq_refl) as (b & v & Hb & Tv & Hm).
  assert (b = a) as -> by congruence. destruct (ra_result a); [done|]. destruct Hm as [? ?]. split; [done|]. eauto.
Qed.
Print Assumptions C130_retrieving_answers_exactly.
(** C130 is false: def f(x): x.append(0); return [len(x)].  The first f(x=l) with l = [1] appends to l; the same call with m = [1] does
    not change m, because the result is there; f.run(x=l) in place of the first call changes nothing. *)
Definition appends (f : nat) (v : list nat) : list nat * option (list nat) := (v ++ [0], Some [length (v ++ [0])]).
Theorem C130_first_call_changes_its_argument_refuted :
  let s := steps text appends 1 start [New [1]; New [1]] in
  let s1 := steps text appends 1 s [Call 0 (Obj 0) 0] in
  let s2 := steps text appends 1 s1 [Call 0 (Obj 1) 0] in
  let s3 := steps text appends 1 s [Run 0 (Obj 0) 0] in
  heap s1 !! 0 = Some [1; 0] /\ heap s2 !! 1 = Some [1] /\ heap s3 !! 0 = Some [1] /\
  snd (call text appends 1 0 (Obj 0) 0 s) = Ok 2 /\ heap s1 !! 2 = Some [2] /\
  snd (call text appends 1 0 (Obj 1) 0 s1) = Ok 3 /\ heap s2 !! 3 = Some [2].
Proof. vm_compute. auto 10. Qed.
Print Assumptions C130_first_call_changes_its_argument_refuted.
(** The answer that an address gives changes when somebody changes the object it gave before; a new address of the same call still gives
    the stored answer. *)
Theorem C130_answers_change_refuted :
  let s := steps text appends 1 start [New [1]; Run 0 (Obj 0) 0] in
  exists o, snd (get_result text 1 0 s) = Ok o /\ heap s !! o = Some [2] /\
  let s1 := steps text appends 1 s [Change o [7]; New [1]; GetAddress 0 (Obj 3) 0] in
  snd (get_result text 1 0 s1) = Ok o /\ heap s1 !! o = Some [7] /\
  exists s2 r, get_result text 1 1 s1 = (s2, Ok r) /\ heap s2 !! r = Some [2].
Proof.
  cbn zeta. exists 2. split; [vm_compute; reflexivity|]. split; [vm_compute; reflexivity|]. split; [vm_compute; reflexivity|]. split; [vm_compute; reflexivity|].
  eexists _, _. split; [vm_compute; reflexivity|reflexivity].
Qed.
Print Assumptions C130_answers_change_refuted.
(** The hypotheses are met: texts of lists are collision free, and a careful program with changes, readdressing and calls. *)
Example C129_C130_example : collision_free text /\
  careful text appends 2 start [New [1]; Store 0 0; Change 0 [1; 2]; Restore 0 0; Forget 0; Readdress 0 1; Call 0 (Obj 0) 1; Call 0 (Addr 2) 0; Run 0 (Addr 1) 1] /\
  does_not_change_its_argument no_functions 0.
Proof.
  split; [by intros v w|]. split; [|done]. cbn [careful careful_step].
  repeat match goal with |- _ /\ _ => split end; try exact I;
    intros a Ha Hp b o Hb Ho; exfalso; revert Hb Ho; vm_compute; intros [= <-]; done.
Qed.
