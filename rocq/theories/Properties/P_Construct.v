(** C70-C75: construction and clearing of portals, background workers' portals, the top-level API. *)
From Verif.Lib Require Import Py.
From Verif.Model Require Import Portals Construct.
From Verif.Spec Require Import ConstructSpec.
From Verif.Proofs Require Import ConstructP.
From stdpp Require Import sets.
From Coq Require Import QArith.
Local Open Scope nat_scope.

(** C70 is false: after a constructor that raised because of a bad argument, the half-built portal is known, is the portal
    chosen when none is entered, and looking a value up in the other portals raises AttributeError instead of answering. *)
Theorem C70_failed_construction_refuted : exists s s' e,
  crun new_process [CNew DataPortal (Args 1 None "Samos" None None) None] = (s, [None]) /\
  construct DataPortal (Args 2 (Some 2) "Samos" None None)%Q None s = (s', Err e) /\
  best_known s = Some 0 /\ best_known s' = Some 1 /\
  (exists o, heap s' !! 1 = Some o /\ ~ complete o) /\
  (forall found, found 0 = false -> lookup_elsewhere SData found s = Ok false /\ lookup_elsewhere SData found s' = Err AttributeError).
Proof.
  eexists _, _, _. split; [vm_compute; reflexivity|]. split; [vm_compute; reflexivity|]. split; [reflexivity|]. split; [reflexivity|]. split.
  - eexists. split; [reflexivity|]. intros [_ H]. specialize (H SData). cbn in H. specialize (H ltac:(lia)).
    repeat (apply elem_of_cons in H as [H|H]; [discriminate H|]). inversion H.
  - intros found H. cbn. unfold lookup_elsewhere, others, probe. cbn. rewrite H. split; reflexivity.
Qed.
Print Assumptions C70_failed_construction_refuted.
(** What looking something up in the other portals means: every known portal except the innermost entered one must offer the
    kind of store that is looked through - also those that would not have to be asked - *)
Theorem C70_other_portals_must_be_capable : forall st found s p o, p ∈ known s -> head (opened s) <> Some p ->
  heap s !! p = Some o -> instance_of (o_class o) (stage_class st) = false ->
  lookup_elsewhere st found s = Err AssertionError.
Proof.
  intros st found s p o Hp Hc Ho Hi. unfold lookup_elsewhere. destruct (forallb _ _) eqn:E; [|done].
  rewrite forallb_forall in E. assert (In p (others s)) as X.
  { unfold others. apply elem_of_list_In in Hp. destruct (opened s) as [|c l]; [done|]. apply filter_In. split; [done|].
    cbn in Hc. apply negb_true_iff, Nat.eqb_neq. congruence. }
  apply E in X. rewrite Ho, Hi in X. done.
Qed.
Print Assumptions C70_other_portals_must_be_capable.
(** and, if none of them is half-built or cleared, the answer says whether one of them - not the innermost entered one - has it. *)
Theorem C70_other_portals_are_asked : forall st found s,
  (forall p, p ∈ known s -> head (opened s) <> Some p -> exists o, heap s !! p = Some o /\
     instance_of (o_class o) (stage_class st) = true /\ st ∈ o_has o /\ o_cleared o = false) ->
  exists b, lookup_elsewhere st found s = Ok b /\
    (b = true <-> exists p, p ∈ known s /\ head (opened s) <> Some p /\ found p = true).
Proof.
  intros st found s H.
  assert (forall p, In p (others s) <-> p ∈ known s /\ head (opened s) <> Some p) as O.
  { intros p. rewrite elem_of_list_In. unfold others. destruct (opened s) as [|c l]; cbn [head]; [intuition congruence|].
    rewrite filter_In, negb_true_iff, Nat.eqb_neq. intuition congruence. }
  unfold lookup_elsewhere. destruct (forallb _ _) eqn:E.
  - clear E. assert (forall p, In p (others s) -> exists o, heap s !! p = Some o /\ st ∈ o_has o /\ o_cleared o = false) as G.
    { intros p Hp. apply O in Hp as [? ?]. destruct (H p) as (o & ? & _ & ? & ?); eauto. }
    assert (exists b, probe st found (others s) s = Ok b /\ (b = true <-> exists p, In p (others s) /\ found p = true)) as (b & Eb & Hb).
    { clear O H. induction (others s) as [|p l IH].
      - exists false. split; [done|]. split; [done|]. intros (? & [] & _).
      - cbn [probe]. destruct (G p) as (o & -> & Hs & ->); [by left|]. rewrite bool_decide_eq_true_2 by done.
        destruct (found p) eqn:F.
        + exists true. split; [done|]. split; [|done]. intros _. exists p. split; [by left|done].
        + destruct IH as (b & Eb & Hb). { intros q Hq. apply G. by right. }
          exists b. split; [done|]. rewrite Hb. split.
          * intros (q & Hq & Fq). exists q. split; [by right|done].
          * intros (q & [<-|Hq] & Fq); [congruence|eauto]. }
    exists b. split; [done|]. rewrite Hb. split; intros (p & X); exists p; [destruct X as [X F]; apply O in X; tauto|].
    destruct X as (X & Y & F). split; [apply O; done|done].
  - apply not_true_iff_false in E. exfalso. apply E. apply forallb_forall. intros p Hp. apply O in Hp as [? ?].
    destruct (H p) as (o & -> & -> & _); done.
Qed.
Print Assumptions C70_other_portals_are_asked.
(** Exactly: a failed construction leaves no trace if and only if it failed in creating the root dictionary. *)
Theorem C70_no_trace_iff_partial : forall c a fault s s' e, construct c a fault s = (s', Err e) ->
  (no_trace s s' <-> fault = Some SRoot).
Proof. exact construct_fails_no_trace. Qed.
Print Assumptions C70_no_trace_iff_partial.
(** Whatever a constructor does or raises, the entered portals and all existing portal objects are untouched, and what was
    known stays known, in order. *)
Theorem C70_others_untouched : forall c a fault s s' r, construct c a fault s = (s', r) ->
  opened s' = opened s /\ (forall j, j < length (heap s) -> heap s' !! j = heap s !! j) /\
  (known s' = known s \/ known s' = known s ++ [length (heap s)]).
Proof.
  intros c a f s s' r H. apply construct_frame in H as (H1 & _ & _ & _ & H2 & o & _ & _ & _ & _ & H3).
  split_and!; try done. destruct H3 as [(-> & _)|(-> & _)]; auto.
Qed.
Print Assumptions C70_others_untouched.
Example C70_example : exists s s' e, construct SwarmingPortal (Args 1 None "Samos" (Some (-1)%Z) None) None new_process = (s, Err e)
  /\ known s = [0] /\ construct SwarmingPortal (Args 1 None "Samos" (Some 0%Z) None) (Some SRoot) new_process = (s', Err storage_error) /\ known s' = [].
Proof. eexists _, _, _. split; [vm_compute; reflexivity|]. split; [reflexivity|]. split; [vm_compute; reflexivity|]. reflexivity. Qed.

(** C71 is false: one swarming portal constructed with a negative number of workers, and from then on every reset and
    every initialize() of the process fails, whatever is done in between. *)
Theorem C71_reset_refuted : exists s, crun new_process [CNew SwarmingPortal (Args 1 None "Samos" (Some (-1)%Z) None) None] = (s, [Some AssertionError])
  /\ forall ops s' es cls loc fault, crun s ops = (s', es) ->
     is_ok (snd (clear_all cls s')) = false /\ is_ok (snd (initialize loc fault s')) = false.
Proof.
  eexists. split; [vm_compute; reflexivity|]. intros ops s' es cls loc fault H. eapply stuck_for_ever; [| |exact H].
  - split; [repeat constructor; set_solver|]. split; [|done]. cbn. intros i Hi. apply elem_of_list_singleton in Hi as ->. lia.
  - exists 0. eexists. split; [cbn; left|]. split; [reflexivity|]. split; [cbn; lia|]. left.
    eapply bool_decide_eq_true_1. vm_compute. reflexivity.
Qed.
Print Assumptions C71_reset_refuted.
(** Exactly when a reset fails, after any history: when some known swarming portal was not finished, or was cleared by an
    earlier reset that failed. *)
Theorem C71_reset_fails_iff : forall ops s es cls, crun new_process ops = (s, es) ->
  (is_ok (snd (clear_all cls s)) = false <-> broken s).
Proof. intros ops s es cls H. apply clear_all_fails_iff. apply crun_follow in H as (_ & W & _); [done|apply wf_fresh]. Qed.
Print Assumptions C71_reset_fails_iff.
(** If no construction failed, resets work: no portal is known or entered afterwards, the portals known before are cleared
    and their runtime records are gone. *)
Theorem C71_reset_works_partial : forall ops s es cls, crun new_process ops = (s, es) -> constructions_succeed ops es ->
  exists s', clear_all cls s = (s', Ok tt) /\ known s' = [] /\ opened s' = [] /\
    forall i o, i ∈ known s -> heap s !! i = Some o ->
      (exists o', heap s' !! i = Some o' /\ o_cleared o' = true) /\
      (rank SwarmingPortal <= rank (o_class o) -> dict_get (a_loc (o_args o)) (records s') = None).
Proof.
  intros ops s es cls H C. pose proof (crun_tidy _ _ _ _ H (wf_fresh _ _) tidy_fresh) as [T _].
  apply crun_complete in H as [W A]; [|apply wf_fresh|intros i Hi; inversion Hi|done].
  pose proof (clear_all_fails_iff cls s W) as F. destruct (clear_all cls s) as [s' [[]|e]] eqn:E.
  - exists s'. split; [done|]. pose proof (clear_all_ok _ _ _ _ E W T) as R. apply clear_all_inv in E as (_ & _ & K1 & K2 & _); [|done]. done.
  - exfalso. eapply all_complete_not_broken; [exact A|]. apply F. done.
Qed.
Print Assumptions C71_reset_works_partial.
Example C71_example : exists s es, crun new_process [CNew SwarmingPortal (swarming_args 1 2) None; CEnter 0; CDefault None; CExit 5;
    CClearAll PureCodePortal; CConnect 3 0 None; CNew DataPortal (Args 4 None "" None None) None] = (s, es)
  /\ es = [None; None; None; Some AssertionError; None; None; None] /\ known s = [2; 3] /\ launched s <> [].
Proof. eexists _, _. split; [vm_compute; reflexivity|]. split; [reflexivity|]. split; [reflexivity|]. discriminate. Qed.

(** C72: a constructor returns exactly for sensible arguments when no storage access of its class fails, and then the new
    portal has everything its class promises, is the most recently added one and differs from all older ones. *)
Theorem C72_constructor_accepts_exactly : forall c a fault s,
  is_ok (snd (construct c a fault s)) = true <->
  sensible c a /\ forall st, fault = Some st -> rank c < rank (stage_class st).
Proof. exact construct_ok_iff. Qed.
Print Assumptions C72_constructor_accepts_exactly.
Theorem C72_constructed_is_complete_partial : forall c a fault s s' i, construct c a fault s = (s', Ok i) ->
  i = length (heap s) /\ known s' = known s ++ [i] /\ exists o, heap s' !! i = Some o /\ o_class o = c /\ o_args o = a /\ complete o.
Proof. intros c a f s s' i H. apply construct_ok in H as (H1 & H2 & _ & _ & _ & _ & _ & H3). done. Qed.
Print Assumptions C72_constructed_is_complete_partial.
(** Class by class: what a constructed portal has, and which failing storage accesses make its construction fail. *)
Theorem C72_what_each_class_has_partial : forall c a fault s,
  (forall s' i, construct c a fault s = (s', Ok i) -> exists o, heap s' !! i = Some o /\ forall st, st ∈ promised c -> st ∈ o_has o) /\
  (sensible c a -> is_ok (snd (construct c a fault s)) = true <-> forall st, fault = Some st -> st ∉ promised c).
Proof.
  assert (P : forall c st, st ∈ promised c <-> rank (stage_class st) <= rank c).
  { intros c st. split.
    - intros H. destruct c, st; cbn in *; try lia; exfalso; repeat (apply elem_of_cons in H as [H|H]; [done|]); by apply elem_of_nil in H.
    - destruct c, st; cbn; intros H; try (exfalso; lia); apply elem_of_list_In; cbn; tauto. }
  intros c a fault s. split.
  - intros s' i H. destruct (C72_constructed_is_complete_partial _ _ _ _ _ _ H) as (_ & _ & o & Ho & Hc & _ & _ & Hall).
    exists o. split; [done|]. intros st Hst. apply Hall. rewrite Hc. by apply P.
  - intros Hs. rewrite C72_constructor_accepts_exactly. split.
    + intros [_ H] st Hf Hin. apply P in Hin. specialize (H st Hf). lia.
    + intros H. split; [done|]. intros st Hf. specialize (H st Hf). rewrite P in H. lia.
Qed.
Print Assumptions C72_what_each_class_has_partial.
(** ... but not for the default portal: if its first construction fails, the next one "succeeds" with the half-built
    object. *)
Theorem C72_default_portal_refuted : exists s s' o,
  crun new_process [CDefault (Some SData)] = (s, [Some storage_error]) /\
  default_portal None s = (s', Ok 0) /\ heap s' !! 0 = Some o /\ SData ∉ o_has o /\ describe_portal 0 s' = Err AttributeError.
Proof.
  eexists _, _, _. split; [vm_compute; reflexivity|]. split; [vm_compute; reflexivity|]. split; [reflexivity|]. split; [|reflexivity].
  eapply bool_decide_eq_true_1. vm_compute. reflexivity.
Qed.
Print Assumptions C72_default_portal_refuted.
Example C72_example : sensible SwarmingPortal (Args 7 (Some (1#2)) "isl" (Some 2%Z) None) /\ ~ sensible DataPortal (Args 7 (Some (3#2)) "isl" None None)
  /\ sensible LoggingPortal (Args 7 (Some (3#2)) "" None None).
Proof.
  split_and!.
  - split_and!; [|done|exists 2%Z; split; [done|lia]]. intros _ p [= <-]. split; discriminate.
  - intros (H & _). destruct (H ltac:(cbn; lia) _ eq_refl) as [_ U]. apply U. reflexivity.
  - split_and!; cbn; intros; lia.
Qed.

(** C73: a swarming portal starts exactly the requested number of workers, all of them told where the portal stores, what
    its runtime id is, and to start no workers. *)
Theorem C73_exactly_the_requested_workers : forall a fault s s' i n,
  construct SwarmingPortal a fault s = (s', Ok i) -> a_workers a = Some n ->
  exists o, heap s' !! i = Some o /\
    launched s' = launched s ++ replicate (Z.to_nat n) (worker_args a (o_rid o)) /\
    (a_rid a = None -> dict_get (a_loc a) (records s') = Some (o_rid o)).
Proof.
  intros a f s s' i n H Hn. destruct (construct_swarming _ _ _ _ _ _ n H ltac:(cbn; lia) Hn) as (o & Ho & Hr & Hrec & Hl).
  exists o. split_and!; try done. intros E. rewrite Hrec, E, Hr. unfold chosen_rid. rewrite E.
  clear. induction (records s) as [|[k v] d IH]; cbn; [rewrite decide_True by done; done|].
  destruct (decide (a_loc a = k)) as [->|Hne]; cbn; [rewrite decide_True by done; done|]. rewrite decide_False by done. done.
Qed.
Print Assumptions C73_exactly_the_requested_workers.
(** ... in every history of the parent process every worker that was started is such a worker, and the portal it constructs
    in its own process starts no further processes and writes no runtime record, even if the construction fails; it
    succeeds if storage works. *)
Theorem C73_workers_are_passive : forall ops s es, crun new_process ops = (s, es) -> forall wa, wa ∈ launched s ->
  forall recs rid fault w r, construct SwarmingPortal wa fault (fresh_process recs rid) = (w, r) ->
  launched w = [] /\ records w = recs.
Proof.
  intros ops s es H wa Hwa recs rid f w r Hw. apply crun_tidy in H as [_ T]; [|apply wf_fresh|apply tidy_fresh].
  rewrite Forall_forall in T. destruct (T _ Hwa) as [T1 [q T2]].
  apply construct_inv in Hw as (d & rest & _ & -> & _ & _).
  set (s0 := with_heap _ _). assert (E0 : launched s0 = [] /\ records s0 = recs) by done. clearbody s0. revert s0 E0.
  induction d as [|st d IH]; intros s0 [E1 E2]; cbn; [done|]. apply IH. rewrite apply_records, T2. split; [|done].
  destruct (decide (st = SLaunch)) as [->|Hne]; [|rewrite apply_launched_other; done]. cbn [apply_stage]. rewrite T1.
  destruct (heap s0 !! _); cbn; [rewrite app_nil_r|]; done.
Qed.
Print Assumptions C73_workers_are_passive.
Theorem C73_worker_portal_shares_the_runtime : forall a fault s s' i n, construct SwarmingPortal a fault s = (s', Ok i) -> a_workers a = Some n ->
  exists o, heap s' !! i = Some o /\ forall recs rid, exists w ow,
    construct SwarmingPortal (worker_args a (o_rid o)) None (fresh_process recs rid) = (w, Ok 0) /\
    heap w !! 0 = Some ow /\ o_rid ow = o_rid o /\ a_loc (o_args ow) = a_loc (o_args o) /\ complete ow.
Proof.
  intros a f s s' i n H Hn. destruct (construct_swarming _ _ _ _ _ _ n H ltac:(cbn; lia) Hn) as (o & Ho & _).
  pose proof (construct_ok_iff SwarmingPortal a f s) as K. rewrite H in K. cbn in K. destruct (proj1 K eq_refl) as [(S1 & S2 & S3) _].
  destruct (construct_ok _ _ _ _ _ _ H) as (_ & _ & _ & _ & _ & _ & _ & o' & Ho' & _ & Ha & _). rewrite Ho in Ho'. injection Ho' as <-.
  exists o. split; [done|]. intros recs rid. destruct (construct SwarmingPortal (worker_args a (o_rid o)) None (fresh_process recs rid)) as [w r] eqn:E.
  pose proof (construct_ok_iff SwarmingPortal (worker_args a (o_rid o)) None (fresh_process recs rid)) as K2. rewrite E in K2. cbn in K2.
  destruct r as [j|e].
  2:{ exfalso. enough (false = true) by done. apply K2. split; [|done]. split_and!; [exact S1|exact S2|]. intros _. exists 0%Z. split; [done|lia]. }
  destruct (construct_ok _ _ _ _ _ _ E) as (-> & _ & _ & _ & _ & _ & _ & ow & How & _ & Haw & Cw).
  destruct (construct_swarming _ _ _ _ _ _ 0%Z E ltac:(cbn; lia) eq_refl) as (ow' & How' & Hr & _). cbn in How, How'. rewrite How in How'. injection How' as <-.
  exists w, ow. split_and!; try done; try (apply Cw). rewrite Haw, Ha. done.
Qed.
Print Assumptions C73_worker_portal_shares_the_runtime.
Example C73_example : exists s es, crun new_process [CNew SwarmingPortal (swarming_args 1 2) None; CInitialize 5 None] = (s, es)
  /\ launched s = [Args 1 None "Samos" (Some 0%Z) (Some 0); Args 1 None "Samos" (Some 0%Z) (Some 0);
                   Args 5 None "Samos" (Some 0%Z) (Some 1); Args 5 None "Samos" (Some 0%Z) (Some 1); Args 5 None "Samos" (Some 0%Z) (Some 1)]
  /\ records s = [(5, 1)].
Proof. eexists _, _. split; [vm_compute; reflexivity|]. split; reflexivity. Qed.

(** C74: when initialize() returns, exactly one portal is known and entered: a complete one at the requested place; all
    portals known before are cleared; it returns whenever no construction failed before and storage works. *)
Theorem C74_initialize : forall ops s es, crun new_process ops = (s, es) -> forall loc fault s' i,
  initialize loc fault s = (s', Ok i) ->
  known s' = [i] /\ opened s' = [i] /\
  (exists o, heap s' !! i = Some o /\ o_class o = SwarmingPortal /\ a_loc (o_args o) = loc /\ complete o /\
     dict_get loc (records s') = Some (o_rid o)) /\
  (forall j o, j ∈ known s -> heap s !! j = Some o -> exists o', heap s' !! j = Some o' /\ o_cleared o' = true).
Proof.
  intros ops s es H loc f s' i Hi. pose proof (crun_tidy _ _ _ _ H (wf_fresh _ _) tidy_fresh) as [T _].
  apply crun_follow in H as (_ & W & _); [|apply wf_fresh]. unfold initialize in Hi.
  destruct (clear_all BasicPortal s) as [s1 [u|e]] eqn:E1; [|done].
  destruct (construct _ _ _ _) as [s2 [j|e]] eqn:E2; [|done].
  pose proof (clear_all_ok _ _ _ _ E1 W T) as R. apply clear_all_inv in E1 as (_ & W1 & K1 & K2 & _); [|done].
  destruct (construct_swarming _ _ _ _ _ _ 3%Z E2 ltac:(cbn; lia) eq_refl) as (o & Ho & Hr & Hrec & _).
  apply construct_ok in E2 as (-> & Hk & Hop & _ & _ & _ & Hh & o' & Ho' & Hc & Ha & Hco). rewrite Ho in Ho'. injection Ho' as <-.
  injection Hi as <- Hd. cbn in Hd. unfold describe_portal in Hd. cbn [heap with_opened] in Hd. rewrite Ho in Hd.
  destruct (o_cleared o); [done|]. destruct (forallb _ _); [|done]. injection Hd as <-.
  split; [|split; [|split]].
  - cbn. rewrite Hk, K1. done.
  - cbn. rewrite Hop, K2. done.
  - exists o. rewrite Ha. split_and!; try done; [apply Hco..|]. cbn. rewrite Hrec. cbn. rewrite Hr. cbn.
    clear. induction (records s1) as [|[k v] d IH]; cbn; [rewrite decide_True by done; done|].
    destruct (decide (loc = k)) as [->|Hne]; cbn; [rewrite decide_True by done; done|]. rewrite decide_False by done. done.
  - intros j oj Hj Hoj. destruct (R j oj Hj Hoj) as [(o2 & Ho2 & C2) _]. exists o2. split; [|done]. cbn. rewrite Hh; [done|].
    apply lookup_lt_is_Some. eauto.
Qed.
Print Assumptions C74_initialize.
Theorem C74_initialize_returns_partial : forall ops s es loc, crun new_process ops = (s, es) -> constructions_succeed ops es ->
  exists s' i, initialize loc None s = (s', Ok i).
Proof.
  intros ops s es loc H C. destruct (C71_reset_works_partial _ _ _ BasicPortal H C) as (s1 & E1 & _).
  unfold initialize. rewrite E1. destruct (construct SwarmingPortal (swarming_args loc 3) None s1) as [s2 r] eqn:E2.
  pose proof (construct_ok_iff SwarmingPortal (swarming_args loc 3) None s1) as K. rewrite E2 in K. cbn in K. destruct r as [i|e].
  - destruct (construct_ok _ _ _ _ _ _ E2) as (_ & _ & _ & _ & _ & _ & _ & o & Ho & _ & _ & Co). eexists _, i. f_equal.
    eapply describe_complete; [exact Ho|done].
  - exfalso. enough (false = true) by done. apply K. split; [|done]. split_and!; [done|done|]. intros _. exists 3%Z. split; [done|lia].
Qed.
Print Assumptions C74_initialize_returns_partial.

(** C75: if no construction failed, describe() shows every known portal once, in the order of construction ... *)
Theorem C75_describe_partial : forall ops s es, crun new_process ops = (s, es) -> constructions_succeed ops es ->
  known s <> [] -> describe s = Ok (known s) /\ NoDup (known s).
Proof.
  intros ops s es H C N. apply crun_complete in H as [W A]; [|apply wf_fresh|intros i Hi; inversion Hi|done].
  rewrite describe_all by done. split; [destruct (known s); done|]. apply W.
Qed.
Print Assumptions C75_describe_partial.
(** ... but with no portal at all it raises. *)
Theorem C75_describe_without_portals_refuted : exists ops s es, crun new_process ops = (s, es) /\ constructions_succeed ops es /\
  ops <> [] /\ known s = [] /\ describe s = Err ValueError.
Proof.
  exists [CConnect 1 3 None; CClearAll BasicPortal]. eexists _, _. split; [vm_compute; reflexivity|]. split; [|split; [discriminate|split; reflexivity]].
  repeat constructor.
Qed.
Print Assumptions C75_describe_without_portals_refuted.
