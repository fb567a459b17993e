(** Concrete programs for C41 - C48, C52: the hypotheses are met, and what the "partial" theorems exclude does fail. *)
From Verif.Lib Require Import Py.
From Verif.Model Require Import PureAddr PureExec.
From Verif.Spec Require Import PureAddrSpec PureExecSpec.
From Verif.Properties Require Import ExampleHash P_PureExec.
From Coq Require Import QArith.
From stdpp Require Import gmap.
Local Open Scope nat_scope.

Notation kws := (list (string * arg string)).
Definition demo_fn (name : string) : fn_state := FnState name "" "" "" true None.
Definition data (s : string) : arg string := AVal (VData s).

(** def inner(x): return x + "!"          def shout(x): return inner(x=x)     (guard of shout: pg)
    def pg(x): raise ValueError if x == "bad" *)
Definition demo_body (f : fn_state) (kw : kws) : prog :=
  if String.eqb (fn_name f) "shout" then
    Call (demo_fn "inner") kw (fun r => match r with Ok (AVal v) => Ret (AVal v) | Ok _ => Raise TypeError | Err e => Raise e end)
  else if String.eqb (fn_name f) "inner" then
    match kw with [(_, AVal (VData s))] => Ret (data (s ++ "!")) | _ => Raise TypeError end
  else if String.eqb (fn_name f) "pg" then
    match kw with [(_, AVal (VData s))] => if String.eqb s "bad" then Raise ValueError else Ret (data "ok") | _ => Raise TypeError end
  else Raise KeyError.
Definition demo_guards (f : fn_state) : list guard_fn :=
  if String.eqb (fn_name f) "shout" then [GAuto (fun _ => Ret (data "")); GPure (demo_fn "pg")] else [].
Definition fair : local := Local (fun _ => None) (fun _ => 1 # 2)%Q 0 id 0.
Definition one_portal (l : nat) : session := Session [l] (fun _ => None).
Definition nothing_stored : state (D := string) := fun _ => empty_store.
Notation demo_execute := (execute demo_prefix demo_hash demo_body demo_guards).
Definition x_is (s : string) : kws := [("x"%string, data s)].

Lemma data_ordinary s : ordinary_value (data s).
Proof. by exists (VData s). Qed.
Lemma x_is_ordinary s : ordinary_args (x_is s).
Proof.
  split; [repeat constructor; set_solver|]. intros k x Hin. apply elem_of_list_singleton in Hin. injection Hin as -> ->. apply data_ordinary.
Qed.
Example demo_ordinary : ordinary_functions demo_prefix demo_hash demo_body demo_guards.
Proof.
  split.
  - intros f kw Hkw. unfold demo_body. destruct (String.eqb (fn_name f) "shout").
    + cbn. split; [done|]. intros [[v| |]|e] Hr; cbn; try done. by apply Hr.
    + destruct (String.eqb (fn_name f) "inner").
      * destruct kw as [|[k [[d| | |]|b|b]] [|? ?]]; try done. apply data_ordinary.
      * destruct (String.eqb (fn_name f) "pg"); [|done]. destruct kw as [|[k [[d| | |]|b|b]] [|? ?]]; try done.
        destruct (String.eqb d "bad"); [done|apply data_ordinary].
  - intros f g Hg. unfold demo_guards in Hg. destruct (String.eqb (fn_name f) "shout"); [|by apply elem_of_nil in Hg].
    apply elem_of_cons in Hg as [[= ->]|Hg]; [|apply elem_of_list_singleton in Hg; done].
    split; [|done]. intros kw _. apply data_ordinary.
Qed.
Example demo_returns_values f kw : returns_values (demo_body f kw).
Proof.
  unfold demo_body. destruct (String.eqb (fn_name f) "shout").
  - cbn. intros [[v| |]|e]; cbn; eauto.
  - destruct (String.eqb (fn_name f) "inner").
    + destruct kw as [|[k [[d| | |]|b|b]] [|? ?]]; cbn; unfold data; eauto.
    + destruct (String.eqb (fn_name f) "pg"); [|done]. destruct kw as [|[k [[d| | |]|b|b]] [|? ?]]; try done.
      destruct (String.eqb d "bad"); cbn; unfold data; eauto.
Qed.
Example nothing_stored_ordinary : stores_ordinary demo_prefix demo_hash demo_body demo_guards nothing_stored.
Proof.
  split; [split_and!|split].
  - intros l b v. unfold nothing_stored; cbn. rewrite lookup_empty. discriminate.
  - intros l a b. unfold nothing_stored; cbn. rewrite lookup_empty. discriminate.
  - intros l a. unfold nothing_stored; cbn. set_solver.
  - intros l a. unfold nothing_stored; cbn. set_solver.
  - intros l f kw b _. unfold nothing_stored; cbn. rewrite lookup_empty. discriminate.
Qed.
Definition out_of {X Y Z} (x : X * Y * Z) : Z := snd x.
Definition state_of {X Y Z} (x : X * Y * Z) : X := fst (fst x).

(** the first call executes shout and inner and stores both results; the second returns the stored one *)
Example demo_first_call : out_of (run (demo_execute (one_portal 0) 3 0 (demo_fn "shout") (x_is "hi")) nothing_stored fair) = Some (Ok (data "hi!")).
Proof. by vm_compute. Qed.
Definition demo_state : state := state_of (run (demo_execute (one_portal 0) 3 0 (demo_fn "shout") (x_is "hi")) nothing_stored fair).
Example demo_second_call :
  out_of (run (demo_execute (one_portal 0) 1 0 (demo_fn "shout") (x_is "hi")) demo_state fair) = Some (Ok (data "hi!")) /\
  length (hist (state_of (run (demo_execute (one_portal 0) 1 0 (demo_fn "shout") (x_is "hi")) demo_state fair) 0)) = length (hist (demo_state 0)) /\
  length (hist (demo_state 0)) = 9.
Proof. by vm_compute. Qed.
Example demo_stored : exists b, ress (demo_state 0) !! call_addr demo_prefix demo_hash (demo_fn "shout") (x_is "hi") = Some b /\
  vals (demo_state 0) !! b = Some (VData "hi!").
Proof. eexists. split; by vm_compute. Qed.
(** a rejected call *)
Example demo_rejected :
  accepts demo_prefix demo_hash (eval demo_prefix demo_hash demo_body demo_guards 2) (demo_guards (demo_fn "shout")) (x_is "bad") = Some false /\
  out_of (run (demo_execute (one_portal 0) 3 0 (demo_fn "shout") (x_is "bad")) nothing_stored fair) = Some (Err AssertionError).
Proof. by vm_compute. Qed.
Example demo_evaluates : evaluates demo_prefix demo_hash demo_body demo_guards (demo_fn "shout") (x_is "bad") (Err AssertionError) /\
  evaluates demo_prefix demo_hash demo_body demo_guards (demo_fn "shout") (x_is "hi") (Ok (data "hi!")).
Proof. split; exists 4; by vm_compute. Qed.
Lemma triple {X Y Z} (x : X * Y * Z) : x = (fst (fst x), snd (fst x), snd x).
Proof. by destruct x as [[]]. Qed.
Lemma triple_out {X Y Z} (x : X * Y * Z) z : out_of x = z -> x = (state_of x, snd (fst x), z).
Proof. destruct x as [[]]. by intros <-. Qed.
(** a history: swarm in one process, which dies after 20 accesses, then a call that dies after 40, then a full call *)
Example demo_history : exists σ, history demo_prefix demo_hash demo_body demo_guards op_ordinary nothing_stored σ /\
  exists b, ress (σ 0) !! call_addr demo_prefix demo_hash (demo_fn "shout") (x_is "hi") = Some b.
Proof.
  eexists. split.
  - eapply HThen with (j := Job (one_portal 0) 0 3 (OCall (demo_fn "shout") (x_is "hi"))) (m := 200) (μ := fair); [|done|apply x_is_ordinary|].
    + eapply HThen with (j := Job (one_portal 0) 0 3 (OCall (demo_fn "shout") (x_is "hi"))) (m := 40) (μ := fair); [|done|apply x_is_ordinary|].
      * eapply HThen with (j := Job (one_portal 0) 0 3 (OSwarm (demo_fn "inner") (x_is "a"))) (m := 9) (μ := fair); [apply HNow|done|apply x_is_ordinary|].
        apply triple.
      * apply triple.
    + apply triple.
  - eexists. by vm_compute.
Qed.
(** two processes call shout(x="hi") at the same time, a third swarms it and dies; both calls return *)
Definition demo_schedule : list (action (D := string)) :=
  [Spawn (Job (one_portal 0) 0 3 (OCall (demo_fn "shout") (x_is "hi"))) fair;
   Spawn (Job (one_portal 0) 0 3 (OCall (demo_fn "shout") (x_is "hi"))) fair;
   Spawn (Job (one_portal 0) 0 3 (OSwarm (demo_fn "shout") (x_is "hi"))) fair]
  ++ flat_map (fun i => [Sched 0; Sched 1] ++ (if i <? 5 then [Sched 2] else [])) (seq 0 200).
Example demo_concurrent :
  jobs_ok op_ordinary demo_schedule /\
  map (fun pr => match p_tree pr with Done r => Some r | Step _ _ => None end)
    (snd (sys_run demo_prefix demo_hash demo_body demo_guards (nothing_stored, []) demo_schedule))
  = [Some (Some (Ok [data "hi!"])); Some (Some (Ok [data "hi!"])); None].
Proof.
  split; [|by vm_compute]. intros j μ Hin. unfold demo_schedule in Hin.
  apply elem_of_app in Hin as [Hin|Hin].
  - repeat (apply elem_of_cons in Hin as [[= -> ->]|Hin]; [split; [done|apply x_is_ordinary]|]). by apply elem_of_nil in Hin.
  - exfalso. apply elem_of_list_In, in_flat_map in Hin as (i & _ & Hin). apply elem_of_list_In in Hin.
    destruct (i <? 5); cbn in Hin; repeat (apply elem_of_cons in Hin as [[=]|Hin]); by apply elem_of_nil in Hin.
Qed.
(** swarm_list, run_list with a reversing shuffle *)
Example demo_lists :
  out_of (run (op_tree demo_prefix demo_hash demo_body demo_guards (one_portal 0) 3 0
    (ORunList (@rev _) (fun l => l) (demo_fn "inner") [x_is "a"; x_is "b"])) nothing_stored fair)
  = Some (Ok [AResult (call_addr demo_prefix demo_hash (demo_fn "inner") (x_is "a")); AResult (call_addr demo_prefix demo_hash (demo_fn "inner") (x_is "b"))])
  /\ out_of (run (op_tree demo_prefix demo_hash demo_body demo_guards (one_portal 0) 3 0
    (OSwarmList (@rev _) (demo_fn "inner") [x_is "a"; x_is "b"])) nothing_stored fair)
  = Some (Ok [AResult (call_addr demo_prefix demo_hash (demo_fn "inner") (x_is "a")); AResult (call_addr demo_prefix demo_hash (demo_fn "inner") (x_is "b"))]).
Proof. by vm_compute. Qed.
(** consistency checks: the draw 1/2 is below 3/4 and not below 1/4 *)
Definition checking (q : Q) : session := Session [0] (fun _ => Some q).
Example demo_checked :
  out_of (run (demo_execute (checking (3 # 4)) 3 0 (demo_fn "shout") (x_is "hi")) demo_state fair) = Some (Ok (data "hi!")) /\
  (length (hist (demo_state 0)) < length (hist (state_of (run (demo_execute (checking (3 # 4)) 3 0 (demo_fn "shout") (x_is "hi")) demo_state fair) 0))) /\
  length (hist (state_of (run (demo_execute (checking (1 # 4)) 3 0 (demo_fn "shout") (x_is "hi")) demo_state fair) 0)) = length (hist (demo_state 0)).
Proof. split_and!; [by vm_compute|apply Nat.ltb_lt; by vm_compute|by vm_compute]. Qed.
(** ... a changed function body is detected *)
Definition changed_body (f : fn_state) (kw : kws) : prog := Ret (data "other").
Example demo_check_detects :
  out_of (run (execute demo_prefix demo_hash changed_body demo_guards (checking (3 # 4)) 3 0 (demo_fn "inner") (x_is "hi")) demo_state fair)
  = Some (Err AssertionError).
Proof. by vm_compute. Qed.

(** * What the partial theorems exclude does fail *)
(** C42: def wrap(x): return ValueAddr(x).  The first call returns the address object, the next call (from the store) the
    value. *)
Definition wrap_body (f : fn_state) (kw : kws) : prog (D := string) :=
  match kw with [(_, AVal v)] => Ret (AAddr (text_of demo_prefix demo_hash v)) | _ => Raise TypeError end.
Theorem C42_caching_of_addresses_refuted :
  exists σ1 μ1 σ2 μ2,
  run (execute demo_prefix demo_hash wrap_body (fun _ => []) (one_portal 0) 1 0 (demo_fn "wrap") (x_is "v")) nothing_stored fair
    = (σ1, μ1, Some (Ok (AAddr (text_of demo_prefix demo_hash (VData "v"))))) /\
  run (execute demo_prefix demo_hash wrap_body (fun _ => []) (one_portal 0) 1 0 (demo_fn "wrap") (x_is "v")) σ1 μ1
    = (σ2, μ2, Some (Ok (data "v"))).
Proof.
  do 2 eexists. do 2 eexists. split.
  - apply triple_out. by vm_compute.
  - apply triple_out. by vm_compute.
Qed.
Print Assumptions C42_caching_of_addresses_refuted.
(** C44: a body that returns an address nobody stored: the result is stored and dangles; every later call fails. *)
Theorem C44_dangling_result_refuted :
  let forge := fun (_ : fn_state) (_ : kws) => Ret (D := string) (AAddr ("str", "nowhere")%string) in
  exists σ1 μ1,
  run (execute demo_prefix demo_hash forge (fun _ => []) (one_portal 0) 1 0 (demo_fn "forge") []) nothing_stored fair
    = (σ1, μ1, Some (Ok (AAddr ("str", "nowhere")%string))) /\
  ~ results_resolve σ1 /\
  out_of (run (execute demo_prefix demo_hash forge (fun _ => []) (one_portal 0) 1 0 (demo_fn "forge") []) σ1 μ1) = Some (Err KeyError).
Proof.
  do 2 eexists. split_and!.
  - apply triple_out. by vm_compute.
  - intros H. destruct (H 0 (call_addr demo_prefix demo_hash (demo_fn "forge") []) ("str", "nowhere")%string) as [v Hv]; [by vm_compute|].
    revert Hv. by vm_compute.
  - by vm_compute.
Qed.
Print Assumptions C44_dangling_result_refuted.
(** C45: a successful call may leave its request: swarm at location 0; call at location 1; then call with both portals
    (number 0 is at location 0): the result is copied, the value returned, and the request stays. *)
Theorem C45_request_left_behind_refuted :
  let a := call_addr demo_prefix demo_hash (demo_fn "inner") (x_is "v") in
  exists σ, history demo_prefix demo_hash demo_body demo_guards op_ordinary nothing_stored σ /\
  exists σ' μ', run (demo_execute (Session [0; 1] (fun _ => None)) 3 0 (demo_fn "inner") (x_is "v")) σ fair = (σ', μ', Some (Ok (data "v!"))) /\
    a ∈ reqs (σ' 0).
Proof.
  intros a. eexists. split.
  - eapply HThen with (j := Job (one_portal 1) 0 3 (OCall (demo_fn "inner") (x_is "v"))) (m := 200) (μ := fair); [|done|apply x_is_ordinary|apply triple].
    eapply HThen with (j := Job (one_portal 0) 0 3 (OSwarm (demo_fn "inner") (x_is "v"))) (m := 200) (μ := fair); [apply HNow|done|apply x_is_ordinary|apply triple].
  - do 2 eexists. split.
    + apply triple_out. by vm_compute.
    + eapply bool_decide_eq_true_1. by vm_compute.
Qed.
Print Assumptions C45_request_left_behind_refuted.
(** C46: a guard (not a pure function) that looks at its argument accepts the direct call and rejects the same call made
    with run, because it is given the address instead of the value. *)
Theorem C46_guards_depend_on_route_refuted :
  let guard_fn := fun kw : kws => match kw with [(_, AVal (VData _))] => Ret (D := string) (data "fine") | _ => Raise TypeError end in
  out_of (run (execute demo_prefix demo_hash demo_body (fun _ => [GAuto guard_fn]) (one_portal 0) 3 0 (demo_fn "inner") (x_is "v")) nothing_stored fair)
    = Some (Ok (data "v!")) /\
  out_of (run (run_fn demo_prefix demo_hash demo_body (fun _ => [GAuto guard_fn]) (one_portal 0) 3 0 (demo_fn "inner") (x_is "v")) nothing_stored fair)
    = Some (Err AssertionError).
Proof. by vm_compute. Qed.
Print Assumptions C46_guards_depend_on_route_refuted.
