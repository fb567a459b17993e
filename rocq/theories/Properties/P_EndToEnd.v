(** C84: swarming, working through the queue and getting the results gives what plain calls give. *)
From Verif.Lib Require Import Py.
From Verif.Model Require Import PureAddr PureExec Grid.
From Verif.Spec Require Import PureAddrSpec PureExecSpec GridSpec.
From Verif.Proofs Require Import PureAddrP PureExecP PureExecSysP PureExecSeqP GridP.
From Verif.Properties Require Import P_PureAddr P_PureExec P_Grid ExampleHash P_PureExecExamples.
From stdpp Require Import gmap sorting.
Local Open Scope nat_scope.

Section EndToEnd.
  Context {D : Type} (data_prefix : D -> string) (hash_of : value D -> string).
  Context (body : fn_state -> list (string * arg D) -> prog (D := D)) (guards_of : fn_state -> list (guard_fn (D := D))).
  Notation text_of := (text_of data_prefix hash_of).
  Notation call_addr := (call_addr data_prefix hash_of).
  Notation evaluates := (evaluates data_prefix hash_of body guards_of).

  (** The result of the call f(kw) is available at location l: it is v. *)
  Definition answer (σ : state (D := D)) (l : nat) (f : fn_state) (kw : list (string * arg D)) (v : value D) : Prop :=
    exists b, ress (σ l) !! call_addr f kw = Some b /\ vals (σ l) !! b = Some v.
  (** it is requested or available *)
  Definition in_progress (σ : state (D := D)) (l : nat) (f : fn_state) (kw : list (string * arg D)) : Prop :=
    call_addr f kw ∈ reqs (σ l) \/ exists v, answer σ l f kw v.
  (** Workers (of any sessions, over portals at location l) make finished passes over these addresses, one after the other;
      between passes and during them nothing else happens. *)
  Inductive passes (l : nat) : state (D := D) -> list addr -> state (D := D) -> Prop :=
  | PNil σ : passes l σ [] σ
  | PCons σ ses p n a μ σ1 μ1 r rest σ2 : loc ses p = l ->
      run (worker data_prefix hash_of body guards_of ses n p a) σ μ = (σ1, μ1, Some r) -> passes l σ1 rest σ2 -> passes l σ (a :: rest) σ2.

  Context (CF : collision_free data_prefix hash_of) (OF : ordinary_functions data_prefix hash_of body guards_of).

  (** Whatever two systems of processes have done - on the same or different machines, in any interleaving, with any
      crashes -, the results they hold for a call are equal, and equal to what plain evaluation gives. *)
  Theorem C84_results_agree_everywhere : forall σ0 σ0' xs xs',
    stores_ordinary data_prefix hash_of body guards_of σ0 -> stores_ordinary data_prefix hash_of body guards_of σ0' ->
    jobs_ok op_ordinary xs -> jobs_ok op_ordinary xs' ->
    let σ := fst (sys_run data_prefix hash_of body guards_of (σ0, []) xs) in
    let σ' := fst (sys_run data_prefix hash_of body guards_of (σ0', []) xs') in
    forall l l' f kw v v', ordinary_args kw -> answer σ l f kw v -> answer σ' l' f kw v' ->
    v = v' /\ evaluates f kw (Ok (AVal v)).
  Proof.
    intros * HS HS' Hx Hx' σ σ' * Ho (b & Hb & Hv) (b' & Hb' & Hv').
    destruct (proj1 (C52_concurrent_execution D data_prefix hash_of body guards_of CF OF σ0 HS xs Hx)) as (HSa & _ & Hf).
    destruct (proj1 (C52_concurrent_execution D data_prefix hash_of body guards_of CF OF σ0' HS' xs' Hx')) as (HSb & _ & Hf').
    destruct (Hf l f kw b Ho Hb) as (w & -> & He). destruct (Hf' l' f kw b' Ho Hb') as (w' & -> & He').
    pose proof (evaluates_det _ _ _ _ _ _ _ _ He He') as E0. injection E0 as <-.
    assert (v = w) as -> by (apply CF; by apply (proj1 HSa _ _ _ Hv)). assert (v' = w) as -> by (apply CF; by apply (proj1 HSb _ _ _ Hv')). done.
  Qed.

  (** Whatever has happened before (any concurrent history, with any crashes), a requested call that has a value gets it
      stored by one undisturbed pass of a worker with enough steps. *)
  Theorem C84_one_pass_completes : forall σ0 xs, stores_ordinary data_prefix hash_of body guards_of σ0 -> jobs_ok op_ordinary xs ->
    let σ := fst (sys_run data_prefix hash_of body guards_of (σ0, []) xs) in
    forall ses p f kw v, ordinary_args kw -> call_addr f kw ∈ reqs (σ (loc ses p)) -> evaluates f kw (Ok (AVal v)) ->
    exists N, forall n μ, N <= n -> exists σ' μ',
      run (worker data_prefix hash_of body guards_of ses n p (call_addr f kw)) σ μ = (σ', μ', Some (Ok tt)) /\ answer σ' (loc ses p) f kw v.
  Proof.
    intros * HS Hx σ * Ho Hq He. pose proof (proj1 (C52_concurrent_execution D data_prefix hash_of body guards_of CF OF σ0 HS xs Hx)) as HSo. fold σ in HSo.
    destruct He as [N HN]. exists N. intros n μ Hle.
    destruct (run (worker data_prefix hash_of body guards_of ses n p (call_addr f kw)) σ μ) as [[σ' μ'] out] eqn:Hr.
    assert (HI : Inv data_prefix hash_of body guards_of true σ) by (by apply Inv_ordinary).
    assert (Hinj : forall f' kw', ordinary_args kw' -> call_addr f kw = call_addr f' kw' -> f' = f /\ kw' ≡ₚ kw).
    { intros f' kw' Ho' Ea. rewrite !call_addr_canonical in Ea by (by apply ordinary_acceptable).
      apply (canonical_inj data_prefix hash_of CF) in Ea as [-> Hp]. split; [done|]. apply (pack_inj_plain data_prefix hash_of CF) in Hp; [by symmetry|by apply ordinary_plain..]. }
    destruct out as [out|].
    - destruct (C46_all_routes_agree_partial D data_prefix hash_of body guards_of CF OF σ σ HSo (HNow _ _ _ _ _ σ) f kw Ho) as (_ & _ & H3).
      specialize (H3 ses p n μ σ' μ' out Hq Hr). destruct out as [[]|e].
      + destruct H3 as [(v' & He' & Hres)|(m & Hm)].
        * pose proof (evaluates_det _ _ _ _ _ _ _ _ (ex_intro _ N HN) He') as E0. injection E0 as <-. exists σ', μ'. split; [done|].
          exists (text_of v). split; [done|].
          destruct (wp_here data_prefix hash_of CF body guards_of true _ (worker_post data_prefix hash_of body guards_of true true ses n σ p (call_addr f kw)) _ _ _ _ _ HI Hr) as (_ & HI' & _).
          { apply (worker_spec data_prefix hash_of body guards_of CF true true ses OF); done. }
          destruct (proj1 (proj2 HI') _ _ _ Hres) as [w Hw]. pose proof (proj1 HI' _ _ _ Hw) as Ew. apply CF in Ew as ->. done.
        * exfalso. assert (He' : evaluates f kw (Err AssertionError)). { exists (S m). cbn. by rewrite Hm. }
          by pose proof (evaluates_det _ _ _ _ _ _ _ _ (ex_intro _ N HN) He').
      + by pose proof (evaluates_det _ _ _ _ _ _ _ _ (ex_intro _ N HN) H3).
    - exfalso.
      destruct (wp_here data_prefix hash_of CF body guards_of true _ (worker_post data_prefix hash_of body guards_of true true ses n σ p (call_addr f kw)) _ _ _ _ _ HI Hr) as ([H0 _] & _).
      { apply (worker_spec data_prefix hash_of body guards_of CF true true ses OF); done. }
      destruct (H0 eq_refl eq_refl) as (f' & kw' & Ho' & Ea & Hn). destruct (Hinj f' kw' Ho' Ea) as [-> Hp].
      apply (eval_mono data_prefix hash_of body guards_of N n) in HN; [|done].
      rewrite (eval_perm data_prefix hash_of body guards_of n f kw' kw) in Hn; [congruence|apply Ho'|done].
  Qed.

  (** Working through a list of addresses, in any order, with any repetitions, by any workers: whatever was in progress and
      has a value is then available with this value. *)
  Lemma pass_ok l σ a rest σ2 : stores_ordinary data_prefix hash_of body guards_of σ -> passes l σ (a :: rest) σ2 ->
    exists σ1, stores_ordinary data_prefix hash_of body guards_of σ1 /\ grew σ σ1 /\ requests_kept σ σ1 /\ passes l σ1 rest σ2 /\
      forall f kw v, ordinary_args kw -> call_addr f kw = a -> a ∈ reqs (σ l) -> evaluates f kw (Ok (AVal v)) -> is_Some (ress (σ1 l) !! a).
  Proof.
    intros HS Hp. inversion Hp as [|σ' ses p n a' μ σ1 μ1 r rest' σ2' Hl Hr Hrest]; subst.
    assert (HI : Inv data_prefix hash_of body guards_of true σ) by (by apply Inv_ordinary).
    destruct (wp_here data_prefix hash_of CF body guards_of true _ (worker_post data_prefix hash_of body guards_of true true ses n σ p a) _ _ _ _ _ HI Hr) as (_ & HI1 & Hg & Hk & _).
    { apply (worker_spec data_prefix hash_of body guards_of CF true true ses OF); done. }
    exists σ1. split; [by apply Inv_ordinary|]. split; [done|]. split; [done|]. split; [done|].
    intros f kw v Ho <- Hq He.
    destruct (C46_all_routes_agree_partial D data_prefix hash_of body guards_of CF OF σ σ HS (HNow _ _ _ _ _ σ) f kw Ho) as (_ & _ & H3).
    specialize (H3 ses p n μ σ1 μ1 r Hq Hr). destruct r as [[]|e].
    - destruct H3 as [(v' & _ & Hres)|(m & Hm)]; [rewrite Hres; eauto|].
      exfalso. assert (He' : evaluates f kw (Err AssertionError)). { exists (S m). cbn. by rewrite Hm. }
      by pose proof (evaluates_det _ _ _ _ _ _ _ _ He He').
    - exfalso. by pose proof (evaluates_det _ _ _ _ _ _ _ _ He H3).
  Qed.
  Lemma passes_ok l σ as_ σ2 : stores_ordinary data_prefix hash_of body guards_of σ -> passes l σ as_ σ2 ->
    stores_ordinary data_prefix hash_of body guards_of σ2 /\ grew σ σ2 /\
    forall f kw v, ordinary_args kw -> call_addr f kw ∈ as_ -> evaluates f kw (Ok (AVal v)) ->
      (call_addr f kw ∈ reqs (σ l) \/ is_Some (ress (σ l) !! call_addr f kw)) -> is_Some (ress (σ2 l) !! call_addr f kw).
  Proof.
    revert σ. induction as_ as [|a rest IH]; intros σ HS Hp.
    - inversion Hp; subst. split; [done|]. split; [repeat split; auto|]. by intros * _ ?%elem_of_nil.
    - destruct (pass_ok l σ a rest σ2 HS Hp) as (σ1 & HS1 & Hg & Hk & Hrest & H1). destruct (IH σ1 HS1 Hrest) as (HS2 & Hg2 & H2).
      split; [done|]. split.
      + destruct Hg as (A & B & C), Hg2 as (A' & B' & C'). split; [|split]; eauto. intros l'. etrans; eauto.
      + intros f kw v Ho Hin He Hpend.
        assert (Hp1 : call_addr f kw ∈ reqs (σ1 l) \/ is_Some (ress (σ1 l) !! call_addr f kw)).
        { destruct Hpend as [Hq|Hr]; [by apply Hk|right; by apply Hg]. }
        apply elem_of_cons in Hin as [Ha|Hin]; [|by eapply H2].
        destruct Hpend as [Hq|Hr]; [|apply Hg2; by apply Hg]. apply Hg2. rewrite Ha in *. by eapply H1.
  Qed.
  Lemma answer_value σ l f kw v : stores_ordinary data_prefix hash_of body guards_of σ -> ordinary_args kw -> evaluates f kw (Ok (AVal v)) ->
    is_Some (ress (σ l) !! call_addr f kw) -> answer σ l f kw v.
  Proof.
    intros (HS & _ & Hf) Ho He [b Hb]. destruct (Hf l f kw b Ho Hb) as (w & -> & He').
    pose proof (evaluates_det _ _ _ _ _ _ _ _ He He') as E0. injection E0 as <-. exists (text_of v). split; [done|].
    destruct (proj1 (proj2 HS) _ _ _ Hb) as [w Hw]. pose proof (proj1 HS _ _ _ Hw) as Ew. apply CF in Ew as ->. done.
  Qed.
  Theorem C84_queue_completed : forall l σ addresses σ', stores_ordinary data_prefix hash_of body guards_of σ ->
    passes l σ addresses σ' -> forall f kw v, ordinary_args kw -> call_addr f kw ∈ addresses -> in_progress σ l f kw ->
    evaluates f kw (Ok (AVal v)) -> answer σ' l f kw v.
  Proof.
    intros * HS Hp * Ho Hin Hprog He. destruct (passes_ok l σ addresses σ' HS Hp) as (HS' & _ & H). apply answer_value; [done|done|done|].
    eapply H; [done|done|done|]. destruct Hprog as [Hq|(w & b & Hb & _)]; [by left|right; eauto].
  Qed.

  (** swarm_list, then workers over (at least) the returned addresses in any order, then get on the returned addresses:
      the values of the plain calls, in the order of the given list. *)
  Theorem C84_swarm_work_get : forall ses p shuffle1 f kws values σ μ σ1 μ1 out addresses σ2 μ2,
    stores_ordinary data_prefix hash_of body guards_of σ -> (forall l, shuffle1 l ≡ₚ l) -> Forall ordinary_args kws ->
    Forall2 (fun kw v => evaluates f kw (Ok (AVal v))) kws values ->
    run (swarm_list data_prefix hash_of ses shuffle1 p f kws) σ μ = (σ1, μ1, Some (Ok out)) ->
    passes (loc ses p) σ1 addresses σ2 -> (forall a, a ∈ map fst out -> a ∈ addresses) ->
    map (fun a => snd (run (get_ready ses p a) σ2 μ2)) (map fst out) = map (fun v => Some (Ok (AVal v))) values.
  Proof.
    intros * HS Hsh Ho Hev Hr Hp Hall.
    destruct (C48_swarm_list D data_prefix hash_of CF σ ses shuffle1 p f kws μ σ1 μ1 out (proj1 HS) Hsh Hr) as [Hout Hpend].
    assert (HI : Inv data_prefix hash_of body guards_of true σ) by (by apply Inv_ordinary).
    destruct (wp_here data_prefix hash_of CF body guards_of true _ (fun _ _ => True) _ _ _ _ _ HI Hr) as (_ & HI1 & _).
    { apply (swarm_list_spec data_prefix hash_of body guards_of CF true true ses OF); done. }
    assert (HS1 : stores_ordinary data_prefix hash_of body guards_of σ1) by (by apply Inv_ordinary).
    destruct (passes_ok (loc ses p) σ1 addresses σ2 HS1 Hp) as (HS2 & _ & Hdone).
    rewrite Hout in *. clear Hr Hout out Hsh. rewrite map_map. induction Hev as [|kw v kws values He _ IH]; [done|].
    apply Forall_cons in Ho as [Ho1 Ho2]. cbn [map] in *. f_equal.
    - assert (Hin : call_addr f kw ∈ call_addr f kw :: map (call_addr f) kws) by apply elem_of_list_here.
      destruct (answer_value σ2 (loc ses p) f kw v HS2 Ho1 He (Hdone f kw v Ho1 (Hall _ Hin) He (Hpend _ Hin))) as (b & Hb & Hv).
      unfold get_ready. rewrite run_pbind, run_acc. cbn [perform]. rewrite Hb. rewrite run_pbind, run_acc. cbn [perform]. by rewrite Hv.
    - apply IH; [done| |]; intros a Ha; [apply Hall|apply Hpend]; by apply elem_of_list_further.
  Qed.
End EndToEnd.
Print Assumptions C84_results_agree_everywhere.
Print Assumptions C84_one_pass_completes.
Print Assumptions C84_queue_completed.
Print Assumptions C84_swarm_work_get.

(** shout(x="a"), shout(x="b") swarmed, worked off in the opposite order, the first one twice *)
Definition swarmed := run (swarm_list demo_prefix demo_hash (one_portal 0) (@rev _) 0 (demo_fn "shout") [x_is "a"; x_is "b"]) nothing_stored fair.
Definition a_of (s : string) := call_addr demo_prefix demo_hash (demo_fn "shout") (x_is s).
Definition pass (σ : state (D := string)) (a : addr) := state_of (run (worker demo_prefix demo_hash demo_body demo_guards (one_portal 0) 3 0 a) σ fair).
Example C84_example :
  exists σ2, passes demo_prefix demo_hash demo_body demo_guards 0 (state_of swarmed) [a_of "b"; a_of "a"; a_of "a"] σ2 /\
  snd swarmed = Some (Ok [(a_of "a", x_is "a"); (a_of "b", x_is "b")]) /\
  map (fun a => snd (run (get_ready (one_portal 0) 0 a) σ2 fair)) [a_of "a"; a_of "b"] = [Some (Ok (data "a!")); Some (Ok (data "b!"))].
Proof.
  exists (pass (pass (pass (state_of swarmed) (a_of "b")) (a_of "a")) (a_of "a")). split; [|split; by vm_compute].
  assert (Hone : forall σ a rest σ2, (exists x, out_of (run (worker demo_prefix demo_hash demo_body demo_guards (one_portal 0) 3 0 a) σ fair) = Some x) ->
    passes demo_prefix demo_hash demo_body demo_guards 0 (pass σ a) rest σ2 -> passes demo_prefix demo_hash demo_body demo_guards 0 σ (a :: rest) σ2).
  { intros σ a rest σ2 [x Hx] H. unfold pass in H. destruct (run _ σ fair) as [[σ1 μ1] r] eqn:Er. cbn in Hx, H. subst r. by eapply (PCons _ _ _ _ 0 σ (one_portal 0) 0 3). }
  apply Hone; [eexists; by vm_compute|]. apply Hone; [eexists; by vm_compute|]. apply Hone; [eexists; by vm_compute|]. constructor.
Qed.
