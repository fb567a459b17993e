(** C41 - C48, C52: executing pure functions.  [data_prefix], [hash_of]: the texts of HashAddr.v; [body], [guards_of]:
    arbitrary Python functions and their guards.  Spec/PureExecSpec.v has plain evaluation, the conditions on stores, and
    histories. *)
From Verif.Lib Require Import Py.
From Verif.Model Require Import PureAddr PureExec.
From Verif.Spec Require Import PureAddrSpec PureExecSpec.
From Verif.Proofs Require Import PureAddrP PureExecP PureExecSysP PureExecSeqP.
From Verif.Properties Require Import P_PureAddr.
From Coq Require Import QArith.
From stdpp Require Import gmap.
Local Open Scope nat_scope.

(** the operation with no restriction *)
Definition any_op {D} (o : op (D := D)) : Prop := True.

(** * C41 *)
(** Once a result is stored, in any later state (after any history of operations, each possibly dying half-way) and any
    session of a portal at that location without consistency checks, a call with these arguments returns the stored value;
    it changes no result, request or record, and would do the same whatever the function bodies and guards were. *)
Theorem C41_stored_result_is_returned :
  forall D data_prefix hash_of (body : fn_state -> list (string * arg D) -> prog) guards_of,
  collision_free data_prefix hash_of -> (forall f kw, returns_values (body f kw)) ->
  forall σ σ' l f kw b v,
  stores_sound data_prefix hash_of σ -> acceptable kw ->
  ress (σ l) !! call_addr data_prefix hash_of f kw = Some b -> vals (σ l) !! b = Some v ->
  history data_prefix hash_of body guards_of any_op σ σ' ->
  forall ses p n μ, loc ses p = l -> (pcc ses p = None \/ exists q, pcc ses p = Some q /\ (q == 0)%Q) ->
  exists σ'' μ'', run (execute data_prefix hash_of body guards_of ses (S n) p f kw) σ' μ = (σ'', μ'', Some (Ok (AVal v))) /\
    (forall l', ress (σ'' l') = ress (σ' l') /\ reqs (σ'' l') = reqs (σ' l') /\ hist (σ'' l') = hist (σ' l')) /\
    (forall body' guards' n', run (execute data_prefix hash_of body' guards' ses (S n') p f kw) σ' μ = (σ'', μ'', Some (Ok (AVal v)))).
Proof.
  intros * CF RV * HS Ha Hb Hv Hh * <- Hz.
  destruct (history_ok data_prefix hash_of CF body guards_of false any_op σ σ' RV ltac:(done) (proj2 (Inv_sound _ _ body guards_of σ) HS) Hh) as (HI & Hg & _ & Hk).
  destruct (stored_call data_prefix hash_of CF body guards_of ses n p f kw (sort_keys kw) b v σ' μ HI (acceptable_sorted kw Ha)) as (σ'' & μ'' & Hr & Hs & _ & Hall).
  - by apply Hk.
  - by apply Hg.
  - left. unfold p_zero. destruct Hz as [->|(q & -> & Hq)]; [done|]. by apply Qeq_bool_iff.
  - exists σ'', μ''. split_and!; [done|exact Hs|exact Hall].
Qed.
Print Assumptions C41_stored_result_is_returned.
(** A call that succeeds leaves its result stored. *)
Theorem C41_success_is_stored :
  forall D data_prefix hash_of (body : fn_state -> list (string * arg D) -> prog) guards_of,
  collision_free data_prefix hash_of -> (forall f kw, returns_values (body f kw)) ->
  forall σ σ' ses p n f kw μ μ' x, stores_sound data_prefix hash_of σ ->
  run (execute data_prefix hash_of body guards_of ses n p f kw) σ μ = (σ', μ', Some (Ok x)) ->
  exists b v, ress (σ' (loc ses p)) !! call_addr data_prefix hash_of f kw = Some b /\ vals (σ' (loc ses p)) !! b = Some v.
Proof.
  intros * CF RV * HS Hr. apply (Inv_sound _ _ body guards_of) in HS as HI.
  destruct (wp_here data_prefix hash_of CF body guards_of false _ (exec_post data_prefix hash_of body guards_of false true ses n p f kw kw) _ _ _ _ _ HI Hr) as ([H1 _] & HI' & _).
  { apply (execute_spec data_prefix hash_of body guards_of CF false true ses RV n p f kw kw); [done|by apply ordargs_refl|done]. }
  destruct (H1 x eq_refl) as [_ [b Hb]]. destruct (proj1 (proj2 HI') _ _ _ Hb) as [v Hv]. eauto.
Qed.
Print Assumptions C41_success_is_stored.

(** * C42 *)
(** With ordinary functions, after any history of ordinary operations, a call gives exactly what plain evaluation without
    any store gives: the value or the exception; and it does not run out of steps when plain evaluation does not. *)
Theorem C42_caching_is_transparent_partial :
  forall D data_prefix hash_of (body : fn_state -> list (string * arg D) -> prog) guards_of,
  collision_free data_prefix hash_of -> ordinary_functions data_prefix hash_of body guards_of ->
  forall σ0 σ, stores_ordinary data_prefix hash_of body guards_of σ0 ->
  history data_prefix hash_of body guards_of op_ordinary σ0 σ ->
  forall ses p n f kw μ σ' μ' out, ordinary_args kw ->
  run (execute data_prefix hash_of body guards_of ses n p f kw) σ μ = (σ', μ', out) ->
  (forall r, out = Some r -> evaluates data_prefix hash_of body guards_of f kw r) /\
  (out = None -> eval data_prefix hash_of body guards_of n f kw = None).
Proof.
  intros * CF OF * HS Hh * Ho Hr. apply Inv_ordinary in HS as HI0.
  destruct (history_ok data_prefix hash_of CF body guards_of true op_ordinary σ0 σ OF ltac:(done) HI0 Hh) as (HI & _).
  destruct (wp_here data_prefix hash_of CF body guards_of true _ (exec_post data_prefix hash_of body guards_of true true ses n p f kw kw) _ _ _ _ _ HI Hr) as ([_ H1] & _).
  { apply (execute_spec data_prefix hash_of body guards_of CF true true ses OF n p f kw kw); [done|by apply ordargs_refl|done]. }
  destruct (H1 eq_refl) as [Hn Hs]. split; [|done]. intros r Hr'. by apply Hs.
Qed.
Print Assumptions C42_caching_is_transparent_partial.
(** ... and plain evaluation has at most one outcome. *)
Theorem C42_evaluation_is_unique : forall D data_prefix hash_of (body : fn_state -> list (string * arg D) -> prog) guards_of f kw r r',
  evaluates data_prefix hash_of body guards_of f kw r -> evaluates data_prefix hash_of body guards_of f kw r' -> r = r'.
Proof. intros *. apply evaluates_det. Qed.
Print Assumptions C42_evaluation_is_unique.

(** * C43 *)
(** If a call fails (with the exception e of plain evaluation: raised by the body or by a rejecting guard), then the
    exception reaches the caller, no portal has a result for it, nothing stored is lost or changed, the request is in the
    queue, and the attempt is recorded. *)
Theorem C43_failed_call_stores_no_result :
  forall D data_prefix hash_of (body : fn_state -> list (string * arg D) -> prog) guards_of,
  collision_free data_prefix hash_of -> ordinary_functions data_prefix hash_of body guards_of ->
  forall σ0 σ, stores_ordinary data_prefix hash_of body guards_of σ0 ->
  history data_prefix hash_of body guards_of op_ordinary σ0 σ ->
  forall ses p n f kw μ σ' μ' out e, ordinary_args kw ->
  evaluates data_prefix hash_of body guards_of f kw (Err e) ->
  run (execute data_prefix hash_of body guards_of ses n p f kw) σ μ = (σ', μ', Some out) ->
  out = Err e /\
  (forall l, ress (σ' l) !! call_addr data_prefix hash_of f kw = None) /\
  results_kept σ σ' /\ grew σ σ' /\
  call_addr data_prefix hash_of f kw ∈ reqs (σ' (loc ses p)) /\
  exists i, HAttempt (call_addr data_prefix hash_of f kw) i ∈ hist (σ' (loc ses p)).
Proof.
  intros * CF OF * HS Hh * Ho He Hr. apply Inv_ordinary in HS as HI0.
  destruct (history_ok data_prefix hash_of CF body guards_of true op_ordinary σ0 σ OF ltac:(done) HI0 Hh) as (HI & _).
  destruct (wp_here data_prefix hash_of CF body guards_of true _ (exec_post data_prefix hash_of body guards_of true true ses n p f kw kw) _ _ _ _ _ HI Hr) as ([_ H1] & HI' & Hg & _ & Hk).
  { apply (execute_spec data_prefix hash_of body guards_of CF true true ses OF n p f kw kw); [done|by apply ordargs_refl|done]. }
  destruct (H1 eq_refl) as [_ Hs]. destruct (Hs out eq_refl) as [He' Hq]. assert (out = Err e) as -> by (by eapply evaluates_det).
  destruct (Hq eq_refl e eq_refl) as [Hreq Hat]. split_and!; try done. intros l. destruct (ress (σ' l) !! call_addr data_prefix hash_of f kw) eqn:El; [|done].
  exfalso. eapply no_result_of_failure; [exact HI'|done|exact Ho|exact He|]. unfold in_res. rewrite El. eauto.
Qed.
Print Assumptions C43_failed_call_stores_no_result.
(** ... nor does any later or interrupted operation ever store a result for it. *)
Theorem C43_failed_call_never_stored :
  forall D data_prefix hash_of (body : fn_state -> list (string * arg D) -> prog) guards_of,
  collision_free data_prefix hash_of -> ordinary_functions data_prefix hash_of body guards_of ->
  forall σ0 σ, stores_ordinary data_prefix hash_of body guards_of σ0 ->
  history data_prefix hash_of body guards_of op_ordinary σ0 σ ->
  forall f kw e l, ordinary_args kw -> evaluates data_prefix hash_of body guards_of f kw (Err e) ->
  ress (σ l) !! call_addr data_prefix hash_of f kw = None.
Proof.
  intros * CF OF * HS Hh * Ho He. apply Inv_ordinary in HS as HI0.
  destruct (history_ok data_prefix hash_of CF body guards_of true op_ordinary σ0 σ OF ltac:(done) HI0 Hh) as (HI & _).
  destruct (ress (σ l) !! call_addr data_prefix hash_of f kw) eqn:El; [|done].
  exfalso. eapply no_result_of_failure; [exact HI|done|exact Ho|exact He|]. unfold in_res. rewrite El. eauto.
Qed.
Print Assumptions C43_failed_call_never_stored.

(** * C44 *)
(** At every moment of every concurrent history (processes may stop for ever anywhere: every prefix of the accesses is a
    history too): stored values have their addresses, stored results point to stored values, and requested calls have
    their function, arguments and signature stored.  (Functions return values; see the refutation below.) *)
Theorem C44_stores_stay_sound_partial :
  forall D data_prefix hash_of (body : fn_state -> list (string * arg D) -> prog) guards_of,
  collision_free data_prefix hash_of -> (forall f kw, returns_values (body f kw)) ->
  forall σ0, stores_sound data_prefix hash_of σ0 -> forall xs, jobs_ok any_op xs ->
  stores_sound data_prefix hash_of (fst (sys_run data_prefix hash_of body guards_of (σ0, []) xs)).
Proof.
  intros * CF RV * HS * Hx. apply (Inv_sound _ _ body guards_of) in HS as HI.
  destruct (run_ok data_prefix hash_of body guards_of CF false RV xs (σ0, [])) as ((H1 & _) & _).
  - split; [done|]. intros pr Hin. by apply elem_of_nil in Hin.
  - intros j μ Hin. destruct (Hx j μ Hin). split; [done|]. done.
  - by apply Inv_sound in H1.
Qed.
Print Assumptions C44_stores_stay_sound_partial.
(** Between any two moments of such a history no value, result or record is lost, and a request disappears only when its
    result is stored (unless a user withdraws it). *)
Theorem C44_nothing_is_lost_partial :
  forall D data_prefix hash_of (body : fn_state -> list (string * arg D) -> prog) guards_of,
  collision_free data_prefix hash_of -> (forall f kw, returns_values (body f kw)) ->
  forall σ0, stores_sound data_prefix hash_of σ0 -> forall xs ys, jobs_ok any_op (xs ++ ys) ->
  let s1 := sys_run data_prefix hash_of body guards_of (σ0, []) xs in
  let s2 := sys_run data_prefix hash_of body guards_of s1 ys in
  grew (fst s1) (fst s2) /\
  forall l a, a ∈ reqs (fst s1 l) -> UserDrop l a ∉ ys -> a ∈ reqs (fst s2 l) \/ is_Some (ress (fst s2 l) !! a).
Proof.
  intros * CF RV * HS * Hx s1 s2. apply (Inv_sound _ _ body guards_of) in HS as HI.
  destruct (run_ok data_prefix hash_of body guards_of CF false RV xs (σ0, [])) as (H1 & _).
  - split; [done|]. intros pr Hin. by apply elem_of_nil in Hin.
  - intros j μ Hin. destruct (Hx j μ ltac:(apply elem_of_app; by left)). split; [done|]. done.
  - destruct (run_ok data_prefix hash_of body guards_of CF false RV ys s1 H1) as (_ & H2 & H3); [|done].
    intros j μ Hin. destruct (Hx j μ ltac:(apply elem_of_app; by right)). split; [done|]. done.
Qed.
Print Assumptions C44_nothing_is_lost_partial.

(** * C45 *)
(** request_execution (of a call whose signature is stored, as the constructors of addresses leave it): without error, the
    call is requested exactly if its result is not available; ... *)
Theorem C45_request_execution :
  forall D (data_prefix : D -> string) hash_of, collision_free data_prefix hash_of ->
  forall σ ses p a cached μ σ' μ', stores_sound data_prefix hash_of σ -> call_stored data_prefix hash_of σ (loc ses p) a ->
  run (request data_prefix hash_of ses p a cached) σ μ = (σ', μ', Some (Ok tt)) ->
  (a ∈ reqs (σ' (loc ses p)) <-> ress (σ' (loc ses p)) !! a = None).
Proof.
  intros * CF * HS Hc Hr. pose (body := fun (_ : fn_state) (_ : list (string * arg D)) => Raise (D := D) KeyError). pose (guards_of := fun _ : fn_state => @nil (guard_fn (D := D))).
  apply (Inv_sound _ _ body guards_of) in HS as HI.
  destruct (wp_here data_prefix hash_of CF body guards_of false _ (request_post false true ses σ p a) _ _ _ _ _ HI Hr) as (H1 & _).
  { apply request_spec; [done|done|done|done|done|]. intros; done. }
  cbn in H1. rewrite (H1 eq_refl). unfold in_res. symmetry. apply eq_None_not_Some.
Qed.
Print Assumptions C45_request_execution.
(** ... no other request changes, whatever the outcome; ... *)
Theorem C45_other_requests_unchanged :
  forall D data_prefix hash_of σ ses p a (cached : option (list (string * arg D))) μ σ' μ' out,
  run (request data_prefix hash_of ses p a cached) σ μ = (σ', μ', out) ->
  forall l' a', (l', a') <> (loc ses p, a) -> a' ∈ reqs (σ' l') <-> a' ∈ reqs (σ l').
Proof. intros * Hr. eapply req_run; [apply request_evs|exact Hr]. Qed.
Print Assumptions C45_other_requests_unchanged.
(** ... and requesting twice is the same as once. *)
Theorem C45_request_idempotent :
  forall D (data_prefix : D -> string) hash_of, collision_free data_prefix hash_of ->
  forall σ ses p a cached μ σ1 μ1 cached' μ2 σ2 μ3, stores_sound data_prefix hash_of σ -> call_stored data_prefix hash_of σ (loc ses p) a ->
  run (request data_prefix hash_of ses p a cached) σ μ = (σ1, μ1, Some (Ok tt)) ->
  (forall q, q < length (places ses) -> ress (σ1 (loc ses q)) !! a = None) ->
  ress (σ1 (loc ses p)) !! a = None ->
  run (request data_prefix hash_of ses p a cached') σ1 μ2 = (σ2, μ3, Some (Ok tt)) -> σ2 = σ1.
Proof.
  intros * CF * HS Hc Hr Hno Hno' Hr2.
  pose proof (proj2 (C45_request_execution D data_prefix hash_of CF σ ses p a cached μ σ1 μ1 HS Hc Hr) Hno') as Hin.
  unfold request in Hr2. rewrite run_pbind, ready_none in Hr2.
  - rewrite run_pbind, run_acc in Hr2. cbn [perform] in Hr2. rewrite bool_decide_true in Hr2 by done. cbn in Hr2. by injection Hr2 as <- _.
  - intros q [->|Hq]; [done|]. apply Hno. unfold others in Hq. apply elem_of_list_filter in Hq as [_ Hq]. apply elem_of_seq in Hq. lia.
Qed.
Print Assumptions C45_request_idempotent.
(** drop_execution_request withdraws the request, and only it. *)
Theorem C45_drop_execution_request :
  forall D σ ses p a μ σ' μ' out, run (drop_request (D := D) ses p a) σ μ = (σ', μ', out) ->
  out = Some (Ok tt) /\ a ∉ reqs (σ' (loc ses p)) /\
  (forall l' a', (l', a') <> (loc ses p, a) -> a' ∈ reqs (σ' l') <-> a' ∈ reqs (σ l')) /\
  (forall l', vals (σ' l') = vals (σ l') /\ ress (σ' l') = ress (σ l') /\ hist (σ' l') = hist (σ l')).
Proof.
  intros * Hr. unfold drop_request in Hr. cbn in Hr. injection Hr as <- _ <-. split_and!; [done| | |].
  - unfold upd. rewrite decide_True by done. cbn. set_solver.
  - intros l' a' Hne. unfold upd. destruct (decide (l' = loc ses p)) as [->|]; [|done]. cbn. set_solver.
  - intros l'. unfold upd. destruct (decide (l' = loc ses p)) as [->|]; done.
Qed.
Print Assumptions C45_drop_execution_request.
(** A call that had to be executed and succeeded leaves no request of its own. *)
Theorem C45_executed_call_leaves_no_request_partial :
  forall D data_prefix hash_of (body : fn_state -> list (string * arg D) -> prog) guards_of,
  collision_free data_prefix hash_of ->
  forall σ ses p n f kw μ σ' μ' x, stores_sound data_prefix hash_of σ -> acceptable kw -> p < length (places ses) ->
  (forall q, q < length (places ses) -> ress (σ (loc ses q)) !! call_addr data_prefix hash_of f kw = None) ->
  run (execute data_prefix hash_of body guards_of ses (S n) p f kw) σ μ = (σ', μ', Some (Ok x)) ->
  call_addr data_prefix hash_of f kw ∉ reqs (σ' (loc ses p)).
Proof.
  intros * CF * HS Ha Hp Hno Hr. apply (Inv_sound _ _ body guards_of) in HS as HI.
  eapply executed_call_no_request; [exact CF|exact HI|by apply acceptable_sorted| |exact Hr]. intros q [->|Hq]; auto.
Qed.
Print Assumptions C45_executed_call_leaves_no_request_partial.

(** * C46 *)
(** For ordinary functions and guards: if a guard rejects the argument values, a direct call and run raise AssertionError,
    a worker does nothing, and no result is ever stored ... *)
Theorem C46_rejected_call_is_not_executed_partial :
  forall D data_prefix hash_of (body : fn_state -> list (string * arg D) -> prog) guards_of,
  collision_free data_prefix hash_of -> ordinary_functions data_prefix hash_of body guards_of ->
  forall σ0 σ, stores_ordinary data_prefix hash_of body guards_of σ0 ->
  history data_prefix hash_of body guards_of op_ordinary σ0 σ ->
  forall f kw m, ordinary_args kw -> accepts data_prefix hash_of (eval data_prefix hash_of body guards_of m) (guards_of f) kw = Some false ->
  (forall ses p n μ σ' μ' out, run (execute data_prefix hash_of body guards_of ses n p f kw) σ μ = (σ', μ', Some out) -> out = Err AssertionError) /\
  (forall ses p n μ σ' μ' out, run (run_fn data_prefix hash_of body guards_of ses n p f kw) σ μ = (σ', μ', Some out) -> out = Err AssertionError) /\
  (forall l, ress (σ l) !! call_addr data_prefix hash_of f kw = None).
Proof.
  intros * CF OF * HS Hh * Ho Hrej. apply Inv_ordinary in HS as HI0.
  destruct (history_ok data_prefix hash_of CF body guards_of true op_ordinary σ0 σ OF ltac:(done) HI0 Hh) as (HI & _).
  assert (He : evaluates data_prefix hash_of body guards_of f kw (Err AssertionError)).
  { exists (S m). cbn [eval]. by rewrite Hrej. }
  split_and!.
  - intros * Hr. by destruct (C43_failed_call_stores_no_result _ _ _ _ _ CF OF _ _ HS Hh ses p n f kw μ σ' μ' out _ Ho He Hr) as (-> & _).
  - intros * Hr.
    destruct (wp_here data_prefix hash_of CF body guards_of true _ (run_post data_prefix hash_of body guards_of true true ses n p f kw kw) _ _ _ _ _ HI Hr) as ([_ H1] & _).
    { apply (run_fn_spec data_prefix hash_of body guards_of CF true true ses OF n p f kw kw); [done|by apply ordargs_refl|done]. }
    destruct (H1 eq_refl) as (x & Hx & _ & H2). destruct (H2 eq_refl) as [_ H3].
    destruct out as [a|e], x as [[y|e']|]; cbn in Hx; try done; destruct (H3 _ eq_refl) as [He' _]; pose proof (evaluates_det _ _ _ _ _ _ _ _ He He') as E0; [done|].
    subst e. by injection E0 as <-.
  - intros l. eapply C43_failed_call_never_stored; eauto.
Qed.
Print Assumptions C46_rejected_call_is_not_executed_partial.
(** ... and in general a direct call, run, and a background worker agree: on the exception, or on storing the value. *)
Theorem C46_all_routes_agree_partial :
  forall D data_prefix hash_of (body : fn_state -> list (string * arg D) -> prog) guards_of,
  collision_free data_prefix hash_of -> ordinary_functions data_prefix hash_of body guards_of ->
  forall σ0 σ, stores_ordinary data_prefix hash_of body guards_of σ0 ->
  history data_prefix hash_of body guards_of op_ordinary σ0 σ ->
  forall f kw, ordinary_args kw -> let a := call_addr data_prefix hash_of f kw in
  (forall ses p n μ σ' μ' out, run (execute data_prefix hash_of body guards_of ses n p f kw) σ μ = (σ', μ', Some out) ->
     evaluates data_prefix hash_of body guards_of f kw out) /\
  (forall ses p n μ σ' μ' out, run (run_fn data_prefix hash_of body guards_of ses n p f kw) σ μ = (σ', μ', Some out) ->
     match out with
     | Ok a' => a' = a /\ exists v, evaluates data_prefix hash_of body guards_of f kw (Ok (AVal v)) /\
                 ress (σ' (loc ses p)) !! a = Some (text_of data_prefix hash_of v)
     | Err e => evaluates data_prefix hash_of body guards_of f kw (Err e)
     end) /\
  (forall ses p n μ σ' μ' out, a ∈ reqs (σ (loc ses p)) ->
     run (worker data_prefix hash_of body guards_of ses n p a) σ μ = (σ', μ', Some out) ->
     match out with
     | Ok _ => (exists v, evaluates data_prefix hash_of body guards_of f kw (Ok (AVal v)) /\
                 ress (σ' (loc ses p)) !! a = Some (text_of data_prefix hash_of v)) \/
               exists m, accepts data_prefix hash_of (eval data_prefix hash_of body guards_of m) (guards_of f) kw = Some false
     | Err e => evaluates data_prefix hash_of body guards_of f kw (Err e)
     end).
Proof.
  intros * CF OF * HS Hh * Ho a. apply Inv_ordinary in HS as HI0.
  destruct (history_ok data_prefix hash_of CF body guards_of true op_ordinary σ0 σ OF ltac:(done) HI0 Hh) as (HI & _).
  split_and!.
  - intros * Hr. destruct (C42_caching_is_transparent_partial _ _ _ _ _ CF OF _ _ HS Hh ses p n f kw μ σ' μ' _ Ho Hr) as [H _]. by apply H.
  - intros * Hr.
    destruct (wp_here data_prefix hash_of CF body guards_of true _ (run_post data_prefix hash_of body guards_of true true ses n p f kw kw) _ _ _ _ _ HI Hr) as ([H0 H1] & HI' & _).
    { apply (run_fn_spec data_prefix hash_of body guards_of CF true true ses OF n p f kw kw); [done|by apply ordargs_refl|done]. }
    destruct (H1 eq_refl) as (x & Hx & _ & H2). destruct (H2 eq_refl) as [_ H3]. destruct out as [a'|e].
    + destruct H0 as [-> [b Hb]]. split; [done|]. destruct (proj2 (proj2 (proj2 (proj2 HI')) eq_refl) _ f kw b Ho Hb) as (v & -> & He). exists v. done.
    + destruct x as [[y|e']|]; cbn in Hx; try done. subst e'. by apply (H3 (Err e)).
  - intros * Hin Hr.
    destruct (wp_here data_prefix hash_of CF body guards_of true _ (worker_post data_prefix hash_of body guards_of true true ses n σ p a) _ _ _ _ _ HI Hr) as ([_ [H0 H1]] & HI' & _).
    { apply (worker_spec data_prefix hash_of body guards_of CF true true ses OF); [done|done]. }
    assert (Hinj : forall f' kw', ordinary_args kw' -> a = call_addr data_prefix hash_of f' kw' -> f' = f /\ kw' ≡ₚ kw).
    { intros f' kw' Ho' Ea. unfold a in Ea. rewrite !call_addr_canonical in Ea by (by apply ordinary_acceptable).
      apply (canonical_inj data_prefix hash_of CF) in Ea as [-> Hp]. split; [done|]. apply (pack_inj_plain data_prefix hash_of CF) in Hp; [by symmetry|by apply ordinary_plain..]. }
    destruct out as [[]|e].
    + destruct (H1 eq_refl eq_refl eq_refl Hin) as [[b Hb]|(f' & kw' & m & Ho' & Ea & Hm)].
      * left. destruct (proj2 (proj2 (proj2 (proj2 HI')) eq_refl) _ f kw b Ho Hb) as (v & -> & He). by exists v.
      * right. destruct (Hinj f' kw' Ho' Ea) as [-> Hp]. exists m. rewrite <- (accepts_sorted data_prefix hash_of body guards_of m _ kw Ho), <- (sort_ext kw' kw (proj1 Ho') Hp).
        by rewrite accepts_sorted.
    + destruct (H0 eq_refl e eq_refl) as (f' & kw' & Ho' & Ea & [k He]). destruct (Hinj f' kw' Ho' Ea) as [-> Hp]. exists k. rewrite <- He. symmetry.
      apply eval_perm; [apply Ho'|done].
Qed.
Print Assumptions C46_all_routes_agree_partial.

(** * C47 *)
(** The draw is not below the probability: the stored value is returned and nothing is executed. *)
Theorem C47_not_checked :
  forall D data_prefix hash_of (body : fn_state -> list (string * arg D) -> prog) guards_of,
  collision_free data_prefix hash_of ->
  forall σ ses p n f kw b v μ q, stores_sound data_prefix hash_of σ -> acceptable kw ->
  ress (σ (loc ses p)) !! call_addr data_prefix hash_of f kw = Some b -> vals (σ (loc ses p)) !! b = Some v ->
  pcc ses p = Some q -> (q <= rnd μ (nrnd μ))%Q ->
  exists σ' μ', run (execute data_prefix hash_of body guards_of ses (S n) p f kw) σ μ = (σ', μ', Some (Ok (AVal v))) /\
    (forall l', ress (σ' l') = ress (σ l') /\ reqs (σ' l') = reqs (σ l') /\ hist (σ' l') = hist (σ l')) /\ lp μ' = lp μ.
Proof.
  intros * CF * HS Ha Hb Hv Hq Hle.
  destruct (stored_call data_prefix hash_of CF body guards_of ses n p f kw (sort_keys kw) b v σ μ (proj2 (Inv_sound _ _ body guards_of σ) HS) (acceptable_sorted kw Ha) Hb Hv)
    as (σ'' & μ'' & Hr & Hs & Hl & _).
  - right. unfold below, draw. rewrite Hq. apply negb_false_iff. by apply Qle_bool_iff.
  - exists σ'', μ''. split_and!; done.
Qed.
Print Assumptions C47_not_checked.
(** The draw is below the probability: the call is executed again (a new attempt is recorded), the stored result stays, the
    call succeeds only with a result equal to the stored one, and the portal's probability is in force afterwards. *)
Theorem C47_checked :
  forall D data_prefix hash_of (body : fn_state -> list (string * arg D) -> prog) guards_of,
  collision_free data_prefix hash_of ->
  forall σ ses p n f kw b v μ q σ' μ' out, stores_sound data_prefix hash_of σ -> acceptable kw ->
  ress (σ (loc ses p)) !! call_addr data_prefix hash_of f kw = Some b -> vals (σ (loc ses p)) !! b = Some v ->
  (forall i, 0 <= rnd μ i /\ rnd μ i < 1)%Q ->               (* random.random() *)
  pcc ses p = Some q -> (rnd μ (nrnd μ) < q)%Q ->
  run (execute data_prefix hash_of body guards_of ses (S n) p f kw) σ μ = (σ', μ', out) ->
  (exists i, (hist (σ (loc ses p)) ++ [HAttempt (call_addr data_prefix hash_of f kw) i]) `prefix_of` hist (σ' (loc ses p))) /\
  ress (σ' (loc ses p)) !! call_addr data_prefix hash_of f kw = Some b /\
  (forall x, out = Some (Ok (AVal x)) -> x = v) /\
  ((forall q, lp μ q = pcc ses q) -> forall q, lp μ' q = pcc ses q).
Proof.
  intros * CF * HS Ha Hb Hv Hrnd Hq Hlt Hr.
  destruct (checked_call data_prefix hash_of CF body guards_of ses n p f kw (sort_keys kw) b v σ μ σ' μ' out (proj2 (Inv_sound _ _ body guards_of σ) HS) (acceptable_sorted kw Ha) Hb Hv Hrnd)
    as (H1 & H2 & H3 & H4); [|done|].
  - unfold below, draw. rewrite Hq. apply negb_true_iff. destruct (Qle_bool q (rnd μ (nrnd μ))) eqn:El; [|done]. apply Qle_bool_iff in El. exfalso. exact (Qlt_not_le _ _ Hlt El).
  - split_and!; [done|done| |done]. intros x Hx. specialize (H3 _ Hx). cbn in H3. apply CF. rewrite H3. symmetry. by apply (proj1 HS _ _ _ Hv).
Qed.
Print Assumptions C47_checked.
(** ... and for ordinary functions the re-execution always succeeds with the stored value (or runs out of steps). *)
Theorem C47_check_of_deterministic_function_succeeds :
  forall D data_prefix hash_of (body : fn_state -> list (string * arg D) -> prog) guards_of,
  collision_free data_prefix hash_of -> ordinary_functions data_prefix hash_of body guards_of ->
  forall σ0 σ, stores_ordinary data_prefix hash_of body guards_of σ0 ->
  history data_prefix hash_of body guards_of op_ordinary σ0 σ ->
  forall ses p n f kw b v μ σ' μ' out, ordinary_args kw ->
  ress (σ (loc ses p)) !! call_addr data_prefix hash_of f kw = Some b -> vals (σ (loc ses p)) !! b = Some v ->
  run (execute data_prefix hash_of body guards_of ses n p f kw) σ μ = (σ', μ', Some out) -> out = Ok (AVal v).
Proof.
  intros * CF OF * HS Hh * Ho Hb Hv Hr. apply Inv_ordinary in HS as HI0.
  destruct (history_ok data_prefix hash_of CF body guards_of true op_ordinary σ0 σ OF ltac:(done) HI0 Hh) as (HI & _).
  destruct (C42_caching_is_transparent_partial _ _ _ _ _ CF OF _ _ HS Hh ses p n f kw μ σ' μ' _ Ho Hr) as [H _]. specialize (H out eq_refl).
  destruct (proj2 (proj2 (proj2 (proj2 HI)) eq_refl) _ f kw b Ho Hb) as (v' & -> & He).
  assert (v = v') as -> by (apply CF; by apply (proj1 HI _ _ _ Hv)). by eapply evaluates_det.
Qed.
Print Assumptions C47_check_of_deterministic_function_succeeds.

(** * C48 *)
(** swarm_list: one address per argument dictionary, in the input order, whatever the shuffle; each call is then requested
    or available. *)
Theorem C48_swarm_list :
  forall D (data_prefix : D -> string) hash_of, collision_free data_prefix hash_of ->
  forall σ ses shuffle1 p f kws μ σ' μ' out, stores_sound data_prefix hash_of σ -> (forall l, shuffle1 l ≡ₚ l) ->
  run (swarm_list data_prefix hash_of ses shuffle1 p f kws) σ μ = (σ', μ', Some (Ok out)) ->
  map fst out = map (call_addr data_prefix hash_of f) kws /\
  forall a, a ∈ map fst out -> a ∈ reqs (σ' (loc ses p)) \/ is_Some (ress (σ' (loc ses p)) !! a).
Proof.
  intros * CF * HS Hsh Hr.
  pose (body := fun (_ : fn_state) (_ : list (string * arg D)) => Raise (D := D) KeyError). pose (guards_of := fun _ : fn_state => @nil (guard_fn (D := D))).
  assert (RV : forall f kw, returns_values (body f kw)) by done.
  apply (Inv_sound _ _ body guards_of) in HS as HI.
  destruct (wp_here data_prefix hash_of CF body guards_of false _ (fun σ' r => match r with
       | Some (Ok m) => Forall2 (elem_info data_prefix hash_of false ses σ' p f) kws m /\ (forall ac, ac ∈ m -> pending σ' (loc ses p) ac.1)
       | _ => True end) _ _ _ _ _ HI Hr) as ([H1 H2] & _).
  { apply (swarm_list_spec data_prefix hash_of body guards_of CF false true ses RV); [done|done|done|]. intros σ1 [[m|e]|]; try done. intros _ _ [A B]. split; [done|auto]. }
  split.
  - clear -H1. induction H1 as [|kw ac l m H _ IH]; [done|]. cbn. f_equal; [apply H|done].
  - intros a Hin. apply elem_of_list_fmap in Hin as (ac & -> & Hin). by apply H2.
Qed.
Print Assumptions C48_swarm_list.
(** run_list: the same addresses; all are available afterwards. *)
Theorem C48_run_list :
  forall D data_prefix hash_of (body : fn_state -> list (string * arg D) -> prog) guards_of,
  collision_free data_prefix hash_of -> (forall f kw, returns_values (body f kw)) ->
  forall σ ses shuffle1 shuffle2 n p f kws μ σ' μ' out, stores_sound data_prefix hash_of σ ->
  (forall l, shuffle1 l ≡ₚ l) -> (forall l, shuffle2 l ≡ₚ l) ->
  run (run_list data_prefix hash_of body guards_of ses shuffle1 shuffle2 n p f kws) σ μ = (σ', μ', Some (Ok out)) ->
  map fst out = map (call_addr data_prefix hash_of f) kws /\
  forall a, a ∈ map fst out -> is_Some (ress (σ' (loc ses p)) !! a).
Proof.
  intros * CF RV * HS Hsh1 Hsh2 Hr. apply (Inv_sound _ _ body guards_of) in HS as HI.
  destruct (wp_here data_prefix hash_of CF body guards_of false _ (fun σ' r => match r with
       | Some (Ok m) => Forall2 (elem_info data_prefix hash_of false ses σ' p f) kws m /\ (forall ac, ac ∈ m -> in_res σ' (loc ses p) ac.1)
       | _ => True end) _ _ _ _ _ HI Hr) as ([H1 H2] & _).
  { apply (run_list_spec data_prefix hash_of body guards_of CF false true ses RV); [done|done|done|done|]. intros σ1 [[m|e]|]; done. }
  split.
  - clear -H1. induction H1 as [|kw ac l m H _ IH]; [done|]. cbn. f_equal; [apply H|done].
  - intros a Hin. apply elem_of_list_fmap in Hin as (ac & -> & Hin). by apply H2.
Qed.
Print Assumptions C48_run_list.
(** With ordinary functions an exception of run_list is one of the listed calls'. *)
Theorem C48_run_list_exception :
  forall D data_prefix hash_of (body : fn_state -> list (string * arg D) -> prog) guards_of,
  collision_free data_prefix hash_of -> ordinary_functions data_prefix hash_of body guards_of ->
  forall σ ses shuffle1 shuffle2 n p f kws μ σ' μ' e, stores_ordinary data_prefix hash_of body guards_of σ ->
  (forall l, shuffle1 l ≡ₚ l) -> (forall l, shuffle2 l ≡ₚ l) -> Forall ordinary_args kws ->
  run (run_list data_prefix hash_of body guards_of ses shuffle1 shuffle2 n p f kws) σ μ = (σ', μ', Some (Err e)) ->
  exists kw, kw ∈ kws /\ evaluates data_prefix hash_of body guards_of f kw (Err e).
Proof.
  intros * CF OF * HS Hsh1 Hsh2 Ho Hr. apply Inv_ordinary in HS as HI.
  destruct (wp_here data_prefix hash_of CF body guards_of true _ (fun σ' r => forall e, r = Some (Err e) -> exists kw, kw ∈ kws /\ evaluates data_prefix hash_of body guards_of f kw (Err e)) _ _ _ _ _ HI Hr) as (H1 & _).
  { apply (run_list_spec data_prefix hash_of body guards_of CF true true ses OF); [done|done|done|done|]. intros σ1 r _ _ _ H. auto. }
  by apply H1.
Qed.
Print Assumptions C48_run_list_exception.

(** * C52 *)
(** Any number of processes, any schedule, any deaths, requests withdrawn at any time: every finished operation returned
    what it must, in agreement with plain evaluation; stored results are the functions' values and point to stored values. *)
Theorem C52_concurrent_execution :
  forall D data_prefix hash_of (body : fn_state -> list (string * arg D) -> prog) guards_of,
  collision_free data_prefix hash_of -> ordinary_functions data_prefix hash_of body guards_of ->
  forall σ0, stores_ordinary data_prefix hash_of body guards_of σ0 ->
  forall xs, jobs_ok op_ordinary xs ->
  let s := sys_run data_prefix hash_of body guards_of (σ0, []) xs in
  stores_ordinary data_prefix hash_of body guards_of (fst s) /\
  forall pr r, pr ∈ snd s -> p_tree pr = Done r ->
    agrees_with_evaluation data_prefix hash_of body guards_of (p_job pr) r /\
    forall out, r = Some (Ok out) -> returned data_prefix hash_of (p_job pr) (fst s) out.
Proof.
  intros * CF OF * HS * Hx s. apply Inv_ordinary in HS as HI.
  destruct (run_ok data_prefix hash_of body guards_of CF true OF xs (σ0, [])) as ((H1 & H2) & _).
  - split; [done|]. intros pr Hin. by apply elem_of_nil in Hin.
  - intros j μ Hin. destruct (Hx j μ Hin). split; [done|]. done.
  - split; [by apply Inv_ordinary|]. intros pr r Hin Hd.
    destruct (live_done data_prefix hash_of body guards_of true (fst s) pr r H1 (H2 pr Hin) Hd) as [H3 H4]. split; [by apply H4|done].
Qed.
Print Assumptions C52_concurrent_execution.
(** No request is lost before its result is stored. *)
Theorem C52_no_request_lost :
  forall D data_prefix hash_of (body : fn_state -> list (string * arg D) -> prog) guards_of,
  collision_free data_prefix hash_of -> ordinary_functions data_prefix hash_of body guards_of ->
  forall σ0, stores_ordinary data_prefix hash_of body guards_of σ0 -> forall xs ys, jobs_ok op_ordinary (xs ++ ys) ->
  let s1 := sys_run data_prefix hash_of body guards_of (σ0, []) xs in
  let s2 := sys_run data_prefix hash_of body guards_of s1 ys in
  grew (fst s1) (fst s2) /\
  forall l a, a ∈ reqs (fst s1 l) -> UserDrop l a ∉ ys -> a ∈ reqs (fst s2 l) \/ is_Some (ress (fst s2 l) !! a).
Proof.
  intros * CF OF * HS * Hx s1 s2. apply Inv_ordinary in HS as HI.
  destruct (run_ok data_prefix hash_of body guards_of CF true OF xs (σ0, [])) as (H1 & _).
  - split; [done|]. intros pr Hin. by apply elem_of_nil in Hin.
  - intros j μ Hin. destruct (Hx j μ ltac:(apply elem_of_app; by left)). split; [done|]. done.
  - destruct (run_ok data_prefix hash_of body guards_of CF true OF ys s1 H1) as (_ & H2 & H3); [|done].
    intros j μ Hin. destruct (Hx j μ ltac:(apply elem_of_app; by right)). split; [done|]. done.
Qed.
Print Assumptions C52_no_request_lost.
