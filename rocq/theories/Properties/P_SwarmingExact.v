(** C94: exactly when a runtime is live.  C95: a requested call survives any five killed executions. *)
From Verif.Lib Require Import Py DictLemmas.
From Verif.Model Require Import Retry Swarming.
From Verif.Spec Require Import SwarmingSpec.
From Verif.Proofs Require Import RetryP SwarmingP.
From Coq Require Import QArith Lqa.
From stdpp Require Import sets.
Local Open Scope nat_scope.

(** * C94 *)
(** ** Specification: who holds the record of a node, read off the history alone *)
Section Spec.
  Context {Loc Node Rid : Type} `{EqDecision Loc} `{EqDecision Node}.
  (** only portals that exist are cleared *)
  Definition sensible (h : list (revent Loc Node Rid)) : Prop :=
    forall h1 i h2, h = h1 ++ RClear i :: h2 -> i < length (created h1).
  (** a portal over [l] made on node [n] drew [r], and since then no other one was made over [l] on [n] without a given id,
      none made over [l] on [n] was cleared, and no process of [n] ended while it had an uncleared portal over [l] *)
  Definition holds_record (h : list (revent Loc Node Rid)) (l : Loc) (n : Node) (r : Rid) : Prop :=
    exists h1 pr h2, h = h1 ++ RNew pr l n None r :: h2 /\
      forall h' e h'', h2 = h' ++ e :: h'' -> ~ claims e l n /\ ~ deletes (h1 ++ [RNew pr l n None r] ++ h') e l n.
End Spec.

Section Runtimes.
  Context {Loc Node Rid : Type} `{EqDecision Loc} `{EqDecision Node} `{EqDecision Rid}.
  Implicit Types h : list (revent Loc Node Rid).
  Lemma sensible_snoc h e : sensible (h ++ [e]) -> sensible h /\ (forall i, e = RClear i -> i < length (created h)).
  Proof.
    intros Hs. split.
    - intros h1 i h2 ->. apply (Hs h1 i (h2 ++ [e])). by rewrite <- app_assoc.
    - intros i ->. by apply (Hs h i []).
  Qed.
  Lemma portals_length h : length (portals (rrun h)) = length (created h).
  Proof. by rewrite <- portals_view, map_length. Qed.
  Lemma cleared_back h i pr p : sensible h -> RClear i ∈ h -> portals (rrun h) !! i = Some (pr, p) -> sp_cleared p = true.
  Proof.
    revert i pr p. induction h as [|e h IH] using rev_ind; intros i pr p Hs Hin Hp; [by apply elem_of_nil in Hin|].
    apply sensible_snoc in Hs as [Hs Hb]. rewrite rrun_snoc in Hp. apply elem_of_app in Hin as [Hin|Hin].
    - assert (Hlt : i < length (portals (rrun h))).
      { rewrite portals_length. apply elem_of_list_split in Hin as (h1 & h2 & ->). specialize (Hs h1 i h2 eq_refl). rewrite created_app, app_length. lia. }
      destruct (lookup_lt_is_Some_2 _ _ Hlt) as [[q p0] Hq]. specialize (IH i q p0 Hs Hin Hq).
      destruct e as [pr' l' n' given draw|j|pr' n']; cbn [rstep] in Hp.
      + assert (Hl : forall x, (portals (rrun h) ++ [x]) !! i = portals (rrun h) !! i) by (intros x; by apply lookup_app_l).
        destruct given; cbn [portals] in Hp; rewrite Hl, Hq in Hp; by injection Hp as <- <-.
      + destruct (portals (rrun h) !! j) as [[q' p']|] eqn:Ej; cbn [portals] in Hp; [|rewrite Hq in Hp; by injection Hp as <- <-].
        destruct (decide (i = j)) as [->|Hne]; [rewrite list_lookup_insert in Hp by done; by injection Hp as <- <-|].
        rewrite list_lookup_insert_ne in Hp by done. rewrite Hq in Hp. by injection Hp as <- <-.
      + cbn [portals] in Hp. rewrite Hq in Hp. by injection Hp as <- <-.
    - apply elem_of_list_singleton in Hin. subst e. specialize (Hb i eq_refl). rewrite <- portals_length in Hb. cbn [rstep] in Hp.
      destruct (lookup_lt_is_Some_2 _ _ Hb) as [[q p0] Hq]. rewrite Hq in Hp. cbn [portals] in Hp. rewrite list_lookup_insert in Hp by done. by injection Hp as <- <-.
  Qed.
  Lemma record_keep_exact h e l n : sensible h -> ~ claims e l n -> ~ deletes h e l n ->
    dict_get (l, n) (records (rrun (h ++ [e]))) = dict_get (l, n) (records (rrun h)).
  Proof.
    intros Hs Hc Hd. rewrite rrun_snoc. destruct e as [pr l' n' [r|] draw|i|pr n']; cbn.
    - done.
    - rewrite dict_get_set. case_decide as Hk; [|done]. inversion Hk; subst. exfalso. apply Hc. by exists pr, draw.
    - destruct (portals (rrun h) !! i) as [[q p]|] eqn:E; cbn; [|done]. rewrite dict_get_del by apply records_nodup.
      case_decide as Hk; [|done]. inversion Hk; subst. exfalso. apply Hd. exists q, (sp_rid p).
      rewrite <- portals_view, list_lookup_fmap, E. done.
    - apply wipe_keep; [apply records_nodup|]. intros [-> (p & Hin & Hcl & <-)]. apply Hd. split; [done|].
      apply elem_of_list_lookup_1 in Hin as [i Hi]. exists i, (sp_node p), (sp_rid p). split; [rewrite <- portals_view, list_lookup_fmap, Hi; done|].
      intros Hx. pose proof (cleared_back h i pr p Hs Hx Hi). congruence.
  Qed.
  Lemma holder_back h1 pr l n r h2 : sensible (h1 ++ [RNew pr l n None r] ++ h2) ->
    (forall h' e h'', h2 = h' ++ e :: h'' -> ~ claims e l n /\ ~ deletes (h1 ++ [RNew pr l n None r] ++ h') e l n) ->
    dict_get (l, n) (records (rrun (h1 ++ [RNew pr l n None r] ++ h2))) = Some r.
  Proof.
    induction h2 as [|e h2 IH] using rev_ind; intros Hs Hh.
    - rewrite app_nil_r. apply record_claim.
    - rewrite !app_assoc in *. destruct (sensible_snoc _ _ Hs) as [Hs' _]. destruct (Hh h2 e []) as [Ha Hb]; [done|].
      rewrite record_keep_exact; [|done|done|by rewrite <- app_assoc]. rewrite <- app_assoc in *. apply IH; [done|].
      intros h' e' h'' ->. apply (Hh h' e' (h'' ++ [e])). by rewrite <- app_assoc.
  Qed.
End Runtimes.
(** Workers of runtime [r] on node [n] see a live parent exactly while [r] holds the record of the node. *)
Theorem C94_live_exactly : forall (Loc Node Rid : Type) (eqL : EqDecision Loc) (eqN : EqDecision Node) (eqR : EqDecision Rid)
    (h : list (revent Loc Node Rid)), sensible h -> forall l m n r c,
  parent_runtime_is_live (rrun h) (SPortal l m r c) n = true <-> holds_record h l n r.
Proof.
  intros Loc Node Rid eqL eqN eqR h Hs l m n r c. split.
  - apply live_only_if.
  - intros (h1 & pr & h2 & -> & Hh). unfold parent_runtime_is_live. cbn [sp_loc sp_rid].
    rewrite (holder_back h1 pr l n r h2 Hs Hh). by apply bool_decide_eq_true.
Qed.
Print Assumptions C94_live_exactly.
(** So of all runtimes over one location at most one is live on a node: workers of all others stop. *)
Theorem C94_at_most_one_live : forall (Loc Node Rid : Type) (eqL : EqDecision Loc) (eqN : EqDecision Node) (eqR : EqDecision Rid)
    (h : list (revent Loc Node Rid)) l n p q, sp_loc p = l -> sp_loc q = l ->
  parent_runtime_is_live (rrun h) p n = true -> parent_runtime_is_live (rrun h) q n = true -> sp_rid p = sp_rid q.
Proof.
  intros Loc Node Rid eqL eqN eqR h l n p q Hp Hq. unfold parent_runtime_is_live. rewrite Hp, Hq.
  destruct (dict_get (l, n) _) as [r|]; [|done]. intros H1%bool_decide_eq_true H2%bool_decide_eq_true. congruence.
Qed.
Print Assumptions C94_at_most_one_live.
Example C94_example : let h := [RNew 0 1 1 None 10; RNew 1 1 1 (Some 10) 0; RNew 0 2 1 None 30; RClear 2; RProcessExit 5 1] in
  sensible h /\ holds_record h 1 1 10 /\ ~ holds_record h 2 1 30.
Proof.
  assert (Hs : sensible [RNew 0 1 1 None 10; RNew 1 1 1 (Some 10) 0; RNew 0 2 1 None 30; RClear 2; RProcessExit 5 1]).
  { intros h1 i h2 E. destruct h1 as [|? [|? [|? [|? [|? [|? ?]]]]]]; cbn in E; simplify_eq; cbn; lia. }
  split; [exact Hs|]. split.
  - apply (C94_live_exactly _ _ _ _ _ _ _ Hs 1 1 1 10 false). by vm_compute.
  - intros H. apply (C94_live_exactly _ _ _ _ _ _ _ Hs 2 1 1 30 false) in H. by vm_compute in H.
Qed.

(** * C95 *)
Section Spec95.
  (** [spaced t cs]: every cycle is more than 10 * 2^5 = 320 seconds after the one before, the first after [t] *)
  Fixpoint spaced (t : Q) (cs : list cycle) : Prop :=
    match cs with [] => True | c :: cs' => (t + 320 < cy_now c)%Q /\ spaced (cy_now c) cs' end.
  Definition killed (cs : list cycle) : nat := length (filter (fun c => cy_finishes c = false) cs).
  Definition finished (cs : list cycle) : nat := length (filter (fun c => cy_finishes c = true) cs).
End Spec95.
Lemma late_enough ts t now : length ts <= 5 -> (forall x, In x ts -> (x <= t)%Q) -> (t + 320 < now)%Q -> needs_execution false ts now = true.
Proof.
  intros Hl Ht Hn. apply needs_execution_iff. split; [done|]. destruct ts as [|x ts]; [by left|]. right. split; [cbn [length] in *; lia|].
  destruct (latest_spec ts x) as [Hin Hle]. exists (latest ts x). split; [done|]. split; [done|].
  assert (Hx : (latest ts x <= t)%Q) by (by apply Ht).
  assert (Hp : (10 * inject_Z (2 ^ Z.of_nat (length (x :: ts))) <= 320)%Q).
  { change 320%Q with (10 * inject_Z 32)%Q. apply Qmult_le_l; [done|]. rewrite <- Zle_Qle. change 32%Z with (2 ^ 5)%Z. apply Z.pow_le_mono_r; [lia|]. cbn [length] in *. lia. }
  lra.
Qed.
Section W.
  Context {A : Type} `{EqDecision A} (guards : A -> bool).
  Notation wstate := (wstate A).
  Lemma survives : forall cs (s : wstate) t m, NoDup (w_requests s) -> spaced t cs -> m + killed cs <= 5 -> length (w_requests s) <= finished cs ->
    (forall a, a ∈ w_requests s -> guards a = true /\ a ∉ w_results s /\ length (w_attempts s a) <= m /\ forall x, In x (w_attempts s a) -> (x <= t)%Q) ->
    let s' := worker_run guards cs s in w_requests s' = [] /\ forall a, a ∈ w_results s' <-> a ∈ w_results s \/ a ∈ w_requests s.
  Proof.
    induction cs as [|c cs IH]; intros s t m Hn Hsp Hk Hf Hr.
    - cbn in *. destruct (w_requests s) eqn:E; [|cbn in Hf; lia]. split; [done|]. set_solver.
    - cbn [worker_run fold_left]. fold (worker_run guards cs (worker_cycle guards (cy_max c) (cy_pick c) (cy_now c) (cy_finishes c) s)).
      destruct Hsp as [Ht Hsp]. unfold killed, finished in *.
      destruct (w_requests s) as [|a0 rest] eqn:Ereq.
      { destruct (cycle_spec guards (cy_max c) (cy_pick c) (cy_now c) (cy_finishes c) s) as [(a & Ha & _)|[-> _]]; [rewrite Ereq in Ha; set_solver|].
        specialize (IH s (cy_now c) m). rewrite Ereq in IH. apply IH; try done; [|cbn; lia|intros a Ha; by apply elem_of_nil in Ha].
        destruct (cy_finishes c) eqn:Ec; [rewrite filter_cons_False in Hk by (by rewrite Ec)|rewrite filter_cons_True in Hk by done; cbn in Hk]; lia. }
      rewrite <- Ereq in *.
      destruct (cycle_spec guards (cy_max c) (cy_pick c) (cy_now c) (cy_finishes c) s) as [(a & Ha & Hna & He & ->)|[_ Hno]].
      2:{ exfalso. apply (Hno a0); [rewrite Ereq; set_solver|]. destruct (Hr a0) as (Hg & Hnr & Hm & Hx); [rewrite Ereq; set_solver|].
          split; [|done]. cbn. rewrite bool_decide_eq_false_2 by done. apply (late_enough _ t); [lia|done|done]. }
      set (s1 := WState _ _ _).
      assert (Hold : forall b x, b ∈ w_requests s -> In x (w_attempts s1 b) -> (x <= cy_now c)%Q).
      { intros b x Hb. cbn. destruct (Hr b Hb) as (_ & _ & _ & Hx).
        assert (Hy : In x (w_attempts s b) -> (x <= cy_now c)%Q) by (intros Hy; specialize (Hx x Hy); lra).
        destruct (decide (b = a)) as [->|]; [|done]. intros [<-|Hi]; [apply Qle_refl|auto]. }
      destruct (cy_finishes c) eqn:Ec.
      + rewrite filter_cons_False in Hk by (by rewrite Ec). rewrite filter_cons_True in Hf by done. cbn in Hf.
        pose proof (filter_remove_length a (w_requests s) Hn Ha) as Hlen.
        destruct (IH s1 (cy_now c) m) as [H1 H2]; cbn [w_requests s1].
        * by apply NoDup_filter.
        * done.
        * lia.
        * lia.
        * intros b [Hba Hb]%elem_of_list_filter. destruct (Hr b Hb) as (? & ? & Hm & ?). split; [done|]. split; [cbn; set_solver|]. split; [cbn; by rewrite decide_False|]. intros x. by apply Hold.
        * split; [done|]. intros b. rewrite H2. cbn. rewrite elem_of_cons, elem_of_list_filter. destruct (decide (b = a)) as [->|]; naive_solver.
      + rewrite filter_cons_True in Hk by done. cbn in Hk. rewrite filter_cons_False in Hf by (by rewrite Ec).
        destruct (IH s1 (cy_now c) (S m)) as [H1 H2]; cbn [w_requests s1].
        * done.
        * done.
        * lia.
        * done.
        * intros b Hb. destruct (Hr b Hb) as (? & ? & Hm & ?). split; [done|]. split; [done|]. split; [|intros x; by apply Hold].
          cbn. destruct (decide (b = a)); cbn; lia.
        * split; [done|]. intros b. rewrite H2. done.
  Qed.
End W.
(** A queue of calls, accepted by their guards and killed at most [m] times each before [t]: whatever a worker chooses, if
    at most five more executions than that are killed, at most one in every 320 seconds is started, and as many finish as
    there are calls, then every call was executed. *)
Theorem C95_five_kills_survived : forall (A : Type) (eqA : EqDecision A) (guards : A -> bool) cs (s : wstate A) t m,
  NoDup (w_requests s) -> spaced t cs -> m + killed cs <= 5 -> length (w_requests s) <= finished cs ->
  (forall a, a ∈ w_requests s -> guards a = true /\ a ∉ w_results s /\ length (w_attempts s a) <= m /\ forall x, In x (w_attempts s a) -> (x <= t)%Q) ->
  let s' := worker_run guards cs s in w_requests s' = [] /\ forall a, a ∈ w_results s' <-> a ∈ w_results s \/ a ∈ w_requests s.
Proof. intros A eqA guards. apply survives. Qed.
Print Assumptions C95_five_kills_survived.
(** five killed executions of different calls, three calls in the queue *)
Example C95_example : let cs := [Cycle 200 0 1000 false; Cycle 200 1 2000 false; Cycle 200 1 3000 false; Cycle 200 2 4000 true;
    Cycle 200 0 5000 false; Cycle 200 1 6000 false; Cycle 200 1 7000 true; Cycle 200 0 8000 true] in
  let s := WState [1; 2; 3] [] (fun _ => []) in
  spaced 0 cs /\ 0 + killed cs <= 5 /\ length (w_requests s) <= finished cs /\ w_requests (worker_run (fun _ => true) cs s) = [] /\ length (w_results (worker_run (fun _ => true) cs s)) = 3.
Proof. split; [|by vm_compute]. cbn. repeat split; lra. Qed.
(** the bound is sharp: with six kills a call may never be executed, however many executions finish *)
Theorem C95_six_kills_are_too_many : exists (cs : list cycle) (s : wstate nat), spaced 0 cs /\ killed cs = 6 /\
  w_requests s = [7] /\ w_attempts s 7 = [] /\ forall more, 7 ∉ w_results (worker_run (fun _ => true) (cs ++ more) s).
Proof.
  exists (map (fun t => Cycle 200 0 t false) [1000; 2000; 3000; 4000; 5000; 6000]%Q), (WState [7] [] (fun _ => [])).
  split; [cbn; repeat split; lra|]. split; [done|]. split; [done|]. split; [done|]. intros more. unfold worker_run. rewrite fold_left_app.
  set (s6 := fold_left _ _ (WState [7] [] _)). fold (worker_run (fun _ : nat => true) more s6).
  assert (H2 : w_results s6 = []) by (vm_compute; reflexivity).
  assert (H3 : length (w_attempts s6 7) = 6) by (vm_compute; reflexivity).
  apply (stuck (fun _ => true) 7 more s6); [rewrite H2; apply not_elem_of_nil|rewrite H3; done].
Qed.
Print Assumptions C95_six_kills_are_too_many.
