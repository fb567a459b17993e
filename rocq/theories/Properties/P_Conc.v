(** C121 (and C44): any number of processes and arbitrary functions: bodies and guards return, raise, call and swarm whatever
    they like, addresses too (and may depend on what earlier calls stored). *)
From Verif.Lib Require Import Py.
From Verif.Model Require Import PureAddr PureExec.
From Verif.Spec Require Import PureAddrSpec PureExecSpec ConcSpec.
From Verif.Proofs Require Import PureAddrP PureExecP PureExecSysP PureConcP.
From Verif.Properties Require Import ExampleHash P_PureExec P_PureExecExamples.
From Coq Require Import QArith.
From stdpp Require Import gmap.
Local Open Scope nat_scope.

(** * C44: between any two moments of a concurrent history no value, result or record is lost, and a request disappears only
    when its result is stored (unless a user withdraws it).  No condition on functions. *)
Theorem C44_nothing_is_lost :
  forall D data_prefix hash_of (body : fn_state -> list (string * arg D) -> prog) guards_of,
  collision_free data_prefix hash_of ->
  forall σ0, consistent data_prefix hash_of σ0 -> forall xs ys, jobs_ok any_op (xs ++ ys) ->
  let s1 := sys_run data_prefix hash_of body guards_of (σ0, []) xs in
  let s2 := sys_run data_prefix hash_of body guards_of s1 ys in
  grew (fst s1) (fst s2) /\
  forall l a, a ∈ reqs (fst s1 l) -> UserDrop l a ∉ ys -> a ∈ reqs (fst s2 l) \/ is_Some (ress (fst s2 l) !! a).
Proof.
  intros * CF * HI * Hx s1 s2.
  destruct (run_ok data_prefix hash_of CF body guards_of xs (σ0, [])) as (H1 & _).
  - split; [done|]. intros pr Hin. by apply elem_of_nil in Hin.
  - intros j μ Hin. apply (Hx j μ). apply elem_of_app. by left.
  - destruct (run_ok data_prefix hash_of CF body guards_of ys s1 H1) as (_ & H2 & H3); [|done].
    intros j μ Hin. apply (Hx j μ). apply elem_of_app. by right.
Qed.
Print Assumptions C44_nothing_is_lost.

(** * C121: at every moment of every concurrent history:
    stored values have their addresses; requested calls have their function, arguments and signature stored; every stored
    result was returned by a run of this very call that is on record in some portal; and it points to a stored value, or
    the record is in the same portal (the run returned an address). *)
Theorem C121_stores_stay_consistent :
  forall D data_prefix hash_of (body : fn_state -> list (string * arg D) -> prog) guards_of,
  collision_free data_prefix hash_of ->
  forall σ0, consistent data_prefix hash_of σ0 -> forall xs, jobs_ok any_op xs ->
  consistent data_prefix hash_of (fst (sys_run data_prefix hash_of body guards_of (σ0, []) xs)).
Proof.
  intros * CF * HI * Hx. destruct (run_ok data_prefix hash_of CF body guards_of xs (σ0, [])) as ((H1 & _) & _); [|by intros j μ Hin; apply (Hx j μ)|done].
  split; [done|]. intros pr Hin. by apply elem_of_nil in Hin.
Qed.
Print Assumptions C121_stores_stay_consistent.
(** Every finished operation that did not fail has achieved what it is for.  A call: its result is stored in its portal, and
    what it returned was returned by a run of this very call that is on record in some portal.  run: the same, for the
    address it returns.  swarm, swarm_list, run_list: the addresses of the calls, in the given order. *)
Theorem C121_finished_operations :
  forall D data_prefix hash_of (body : fn_state -> list (string * arg D) -> prog) guards_of,
  collision_free data_prefix hash_of ->
  forall σ0, consistent data_prefix hash_of σ0 -> forall xs, jobs_ok any_op xs ->
  let s := sys_run data_prefix hash_of body guards_of (σ0, []) xs in
  forall pr out, pr ∈ snd s -> p_tree pr = Done (Some (Ok out)) -> achieved data_prefix hash_of (p_job pr) (fst s) out.
Proof.
  intros * CF * HI * Hx s pr out Hin Hd.
  destruct (run_ok data_prefix hash_of CF body guards_of xs (σ0, [])) as ((H1 & H2) & _); [|by intros j μ Hi; apply (Hx j μ)|].
  - split; [done|]. intros pr0 Hi. by apply elem_of_nil in Hi.
  - exact (live_done data_prefix hash_of (fst s) pr (Some (Ok out)) H1 (H2 pr Hin) Hd out eq_refl).
Qed.
Print Assumptions C121_finished_operations.
(** In particular, alone or not: a call whose answer is a value v returned by nobody is impossible. *)
Theorem C121_no_invented_answers :
  forall D data_prefix hash_of (body : fn_state -> list (string * arg D) -> prog) guards_of,
  collision_free data_prefix hash_of ->
  forall xs, jobs_ok any_op xs ->
  let s := sys_run data_prefix hash_of body guards_of (fun _ => empty_store, []) xs in
  forall j f kw μ v, j_op j = OCall f kw -> Proc j (Done (Some (Ok [AVal v]))) μ ∈ snd s ->
  exists l r, HResult (call_addr data_prefix hash_of f kw) r (text_of data_prefix hash_of v) ∈ hist (fst s l).
Proof.
  intros * CF * Hx s j f kw μ v Hj Hin.
  assert (HI : consistent data_prefix hash_of (fun _ => empty_store (D := D))) by (split; [done|split; [intros l a Ha; by apply elem_of_empty in Ha|split; done]]).
  pose proof (C121_finished_operations D data_prefix hash_of body guards_of CF _ HI xs Hx _ _ Hin eq_refl) as H. unfold achieved in H. cbn [p_job] in H.
  rewrite Hj in H. destruct H as (_ & x & [= <-] & H). exact H.
Qed.
Print Assumptions C121_no_invented_answers.

(** ** Example: two processes call forge() - which returns an address nobody stored - and wrap("v"), interleaved, while a third
    swarms wrap("v") and dies. *)
Definition wild_body (f : fn_state) (kw : kws) : prog :=
  if String.eqb (fn_name f) "forge" then Ret (D := string) (AAddr ("str", "nowhere")%string) else wrap_body f kw.
Definition wild_schedule : list (action (D := string)) :=
  [Spawn (Job (one_portal 0) 0 3 (OCall (demo_fn "forge") [])) fair;
   Spawn (Job (one_portal 0) 0 3 (OCall (demo_fn "wrap") (x_is "v"))) fair;
   Spawn (Job (one_portal 0) 0 3 (OSwarm (demo_fn "wrap") (x_is "v"))) fair]
  ++ flat_map (fun i => [Sched 0; Sched 1] ++ (if i <? 5 then [Sched 2] else [])) (seq 0 200).
Example wild_concurrent :
  consistent demo_prefix demo_hash nothing_stored /\ jobs_ok any_op wild_schedule /\
  map (fun pr => match p_tree pr with Done r => Some r | Step _ _ => None end)
    (snd (sys_run demo_prefix demo_hash wild_body (fun _ => []) (nothing_stored, []) wild_schedule))
  = [Some (Some (Ok [AAddr ("str", "nowhere")%string])); Some (Some (Ok [AAddr (text_of demo_prefix demo_hash (VData "v"))])); None].
Proof.
  split; [split; [done|split; [intros l a Ha; by apply elem_of_empty in Ha|split; done]]|].
  split; [|by vm_compute]. intros j μ Hin. unfold wild_schedule in Hin.
  apply elem_of_app in Hin as [Hin|Hin].
  - repeat (apply elem_of_cons in Hin as [[= -> ->]|Hin]; [split; done|]). by apply elem_of_nil in Hin.
  - exfalso. apply elem_of_list_In, in_flat_map in Hin as (i & _ & Hin). apply elem_of_list_In in Hin.
    destruct (i <? 5); cbn in Hin; repeat (apply elem_of_cons in Hin as [[=]|Hin]); by apply elem_of_nil in Hin.
Qed.
(** ** Example: a function that looks outside (say, at a random number).  Process 0 is stopped just before it writes its result;
    process 1 runs and returns "high", and so does a later call by process 2; then process 0 goes on and overwrites the result:
    from then on the answer is "low".  All of them are on record, as C121 says. *)
Definition dice_body (f : fn_state) (kw : kws) : prog := Look (D := string) (fun q => Ret (data (if Qle_bool q (1#2) then "low" else "high"))).
Definition seeing (q : Q) : local := Local (fun _ => None) (fun _ => q) 0 (fun n => n) 0.
Definition dice_schedule : list (action (D := string)) :=
  let job := Job (one_portal 0) 0 3 (OCall (demo_fn "dice") []) in
  [Spawn job (seeing 0)] ++ repeat (Sched 0) 18 ++ [Spawn job (seeing 1)] ++ repeat (Sched 1) 100 ++
  [Spawn job (seeing 1)] ++ repeat (Sched 2) 100 ++ repeat (Sched 0) 100 ++ [Spawn job (seeing 1)] ++ repeat (Sched 3) 100.
Theorem C121_answers_can_change :
  map (fun pr => match p_tree pr with Done r => Some r | Step _ _ => None end)
    (snd (sys_run demo_prefix demo_hash dice_body (fun _ => []) (nothing_stored, []) dice_schedule))
  = [Some (Some (Ok [data "low"])); Some (Some (Ok [data "high"])); Some (Some (Ok [data "high"])); Some (Some (Ok [data "low"]))].
Proof. by vm_compute. Qed.
Print Assumptions C121_answers_can_change.
