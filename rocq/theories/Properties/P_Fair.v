(** C125: a request is served even while new ones keep coming. *)
From Verif.Lib Require Import Py DictLemmas.
From Verif.Model Require Import Retry Swarming.
From Verif.Spec Require Import FairSpec.
From Verif.Proofs Require Import RetryP SwarmingP.
From Coq Require Import QArith Qround Lia.
From stdpp Require Import sets.
Local Open Scope nat_scope.

Section Fair.
  Context {A : Type} `{EqDecision A}.
  Lemma scan_take (l : look A) mx : forall reqs acc, length acc <= mx ->
    scan l mx reqs acc = acc ++ take (S mx - length acc) (filter (fun a => needs_execution (l_ready l a) (l_attempts l a) (l_now l) && l_guards l a = true) reqs).
  Proof.
    induction reqs as [|b reqs IH]; intros acc Hacc; cbn [scan]; [by rewrite filter_nil, take_nil, app_nil_r|]. rewrite filter_cons.
    destruct (needs_execution (l_ready l b) (l_attempts l b) (l_now l)) eqn:E1; cbn [negb andb]; [|rewrite decide_False by done; by apply IH].
    destruct (l_guards l b) eqn:E2; cbn [negb andb]; [|rewrite decide_False by done; by apply IH].
    rewrite decide_True by done. destruct (Nat.ltb_spec mx (length (acc ++ [b]))) as [L|L]; rewrite app_length in L; cbn in L.
    - replace (S mx - length acc) with 1 by lia. done.
    - rewrite IH by (rewrite app_length; cbn; lia). rewrite app_length. cbn [length]. replace (S mx - length acc) with (S (S mx - (length acc + 1))) by lia.
      by rewrite <- app_assoc.
  Qed.
  Lemma nth_error_is (l : list A) i : nth_error l i = l !! i.
  Proof. revert i. induction l as [|x l IH]; intros [|i]; cbn; auto. Qed.
  (** One cycle starts exactly the request it chooses. *)
  Lemma cycle_exact guards c (s : wstate A) : worker_cycle guards (cy_max c) (cy_pick c) (cy_now c) (cy_finishes c) s =
    match considered guards c s !! (cy_pick c mod length (considered guards c s)) with
    | None => s
    | Some a => WState (if cy_finishes c then filter (fun b => b <> a) (w_requests s) else w_requests s)
                  (if cy_finishes c then a :: w_results s else w_results s)
                  (fun b => if decide (b = a) then cy_now c :: w_attempts s b else w_attempts s b)
    end.
  Proof.
    unfold worker_cycle. rewrite (scan_take _ _ _ []) by (cbn; lia). cbn [app length]. rewrite Nat.sub_0_r. unfold look_of. cbn [l_ready l_attempts l_now l_guards].
    change (take (S (cy_max c)) _) with (considered guards c s). rewrite nth_error_is. destruct (considered guards c s !! _); [|done]. by destruct (cy_finishes c).
  Qed.
  Lemma results_mono guards c (s : wstate A) a : a ∈ w_results s -> a ∈ w_results (worker_cycle guards (cy_max c) (cy_pick c) (cy_now c) (cy_finishes c) s).
  Proof. intros Ha. rewrite cycle_exact. case_match; [|done]. cbn. destruct (cy_finishes c); [by right|done]. Qed.
  Lemma wants_later guards a : guards a = true -> forall attempts, length attempts <= 5 -> exists t, forall now (s : wstate A),
    (t <= now)%Q -> a ∉ w_results s -> w_attempts s a = attempts -> wants guards now s a = true.
  Proof.
    intros Hg attempts L. destruct (waits_enough attempts L) as [T HT]. exists T. intros now s Hn Hr <-. unfold wants.
    rewrite bool_decide_eq_false_2, Hg by done. by rewrite HT.
  Qed.
  Lemma visible_considered guards c (s : wstate A) a before after : w_requests s = before ++ a :: after -> length before <= cy_max c ->
    wants guards (cy_now c) s a = true -> a ∈ considered guards c s.
  Proof.
    intros E L W. unfold considered. rewrite E, filter_app, filter_cons, decide_True by done.
    pose proof (filter_length (fun a => wants guards (cy_now c) s a = true) before) as F.
    rewrite take_app_ge by lia. replace (S (cy_max c) - _) with (S (cy_max c - length (filter (fun a => wants guards (cy_now c) s a = true) before))) by lia.
    cbn [take]. set_solver.
  Qed.
  Lemma stays_asked guards a (st : nat -> wstate A) ev : history guards a st ev -> forall n m, n <= m -> a ∈ w_requests (st n) ->
    (exists k, a ∈ w_results (st k)) \/ (a ∈ w_requests (st m) /\ exists more, w_attempts (st m) a = more ++ w_attempts (st n) a).
  Proof.
    intros H n m L Ha. induction L as [|m L IH]; [right; split; [done|by exists []]|]. destruct IH as [R|[IHa [more IH]]]; [by left|].
    pose proof (H m) as S. destruct (ev m) as [c|].
    - rewrite cycle_exact in S. rewrite S. case_match; [|right; split; [done|by exists more]]. cbn [w_attempts w_requests].
      destruct (cy_finishes c) eqn:F.
      + destruct (decide (a = a0)) as [<-|N]; [|right; split; [apply elem_of_list_filter; by split|by exists more]].
        left. exists (Datatypes.S m). rewrite S. by left.
      + right. split; [done|]. case_decide; [|by exists more]. exists (cy_now c :: more). by rewrite IH.
    - destruct S as [R|[S1 [more' S]]]; [left; by exists (Datatypes.S m)|]. right. split; [done|]. exists (more' ++ more). by rewrite S, IH, app_assoc.
  Qed.
  Lemma served guards a (st : nat -> wstate A) ev : history guards a st ev -> guards a = true ->
    (forall n, a ∉ w_results (st n) -> length (w_attempts (st n) a) <= 5) -> comes_by a st ev -> fair guards a st ev ->
    forall k n, a ∈ w_requests (st n) -> 5 - length (w_attempts (st n) a) <= k -> exists m, a ∈ w_results (st m).
  Proof.
    intros H Hg Hatt Hby Hfair. induction k as [k IH] using lt_wf_ind. intros n Ha Hk.
    assert (forall m more, n <= m -> a ∈ w_requests (st m) -> w_attempts (st m) a = more ++ w_attempts (st n) a -> more <> [] -> exists m, a ∈ w_results (st m)) as more_tries.
    { intros m more L Hm E N. destruct (decide (a ∈ w_results (st m))) as [|R]; [by exists m|]. pose proof (Hatt m R) as L5. rewrite E, app_length in L5.
      assert (1 <= length more) by (destruct more; [done|cbn; lia]). apply (IH (k - 1)) with m; [lia|done|]. rewrite E, app_length. lia. }
    destruct (Hfair n) as (m & L & [(c & Hc & C)|Never]).
    - destruct (stays_asked _ _ _ _ H n m L Ha) as [R|[Hm [more E]]]; [done|].
      pose proof (H m) as S. rewrite Hc, cycle_exact in S. unfold chooses in C. rewrite C in S. destruct (cy_finishes c).
      + exists (Datatypes.S m). rewrite S. by left.
      + apply (more_tries (Datatypes.S m) (cy_now c :: more)); [lia|by rewrite S| |done]. rewrite S. cbn [w_attempts]. rewrite decide_True by done. by rewrite E.
    - destruct (stays_asked _ _ _ _ H n m L Ha) as [R|[Hm [more E]]]; [done|].
      destruct (decide (a ∈ w_results (st m))) as [|R]; [by exists m|]. destruct (wants_later guards a Hg _ (Hatt m R)) as [T HT].
      destruct (Hby m T) as (m' & c & L' & Hc & Hn & V).
      destruct (stays_asked _ _ _ _ H m m' L' Hm) as [R'|[Hm' [more' E']]]; [done|].
      destruct (decide (a ∈ w_results (st m'))) as [|R']; [by exists m'|]. destruct (decide (more' = [])) as [->|N].
      + exfalso. apply (Never m' c L' Hc). destruct (V Hm') as (before & after & Eq & Lb). by eapply visible_considered; [..|apply HT].
      + apply (more_tries m' (more' ++ more)); [lia|done|by rewrite E', E, app_assoc|]. by destruct more'.
  Qed.
End Fair.

(** C125.  A request whose guards let it through is executed, whatever other requests keep arriving and whatever other workers do,
    provided: workers come by again and again, ever later, and find at most the considered number of requests before it;
    choices are fair; and at most five of its executions die.  No bound on the number of requests, workers or steps. *)
Theorem C125_served : forall (A : Type) (eqA : EqDecision A) (guards : A -> bool) (st : nat -> wstate A) (ev : nat -> option cycle) (a : A),
  history guards a st ev -> guards a = true -> a ∈ w_requests (st 0) ->
  (forall n, a ∉ w_results (st n) -> length (w_attempts (st n) a) <= 5) -> comes_by a st ev -> fair guards a st ev ->
  exists m, a ∈ w_results (st m).
Proof. intros A eqA guards st ev a H Hg Ha Hatt Hby Hfair. by eapply (served guards a st ev H Hg Hatt Hby Hfair). Qed.
Print Assumptions C125_served.
(** One cycle starts exactly the request it chooses among the considered ones, and changes nothing about the others. *)
Theorem C125_cycle : forall (A : Type) (eqA : EqDecision A) (guards : A -> bool) (c : cycle) (s : wstate A),
  let s' := worker_cycle guards (cy_max c) (cy_pick c) (cy_now c) (cy_finishes c) s in
  (forall a, chooses guards c s a -> w_attempts s' a = cy_now c :: w_attempts s a /\
     (cy_finishes c = true -> a ∈ w_results s' /\ a ∉ w_requests s') /\
     (cy_finishes c = false -> w_results s' = w_results s /\ w_requests s' = w_requests s)) /\
  (forall a, ~ chooses guards c s a -> w_attempts s' a = w_attempts s a /\ (a ∈ w_results s' <-> a ∈ w_results s) /\ (a ∈ w_requests s' <-> a ∈ w_requests s)) /\
  (considered guards c s <> [] -> exists a, chooses guards c s a).
Proof.
  intros A eqA guards c s s'. subst s'. rewrite cycle_exact. unfold chooses. split; [|split].
  - intros a ->. cbn [w_attempts w_results w_requests]. rewrite decide_True by done. split; [done|]. split; intros ->; [|done]. split; [by left|].
    intros [X _]%elem_of_list_filter. done.
  - intros a N. destruct (considered guards c s !! _) as [b|]; [|done]. assert (b <> a) as Nb by congruence. cbn [w_attempts w_results w_requests].
    rewrite decide_False by done. split; [done|]. destruct (cy_finishes c); [|done]. rewrite elem_of_cons, elem_of_list_filter. intuition congruence.
  - intros N. destruct (considered guards c s !! _) as [b|] eqn:E; [by exists b|]. exfalso. apply lookup_ge_None in E.
    assert (length (considered guards c s) <> 0) as L by (by destruct (considered guards c s)).
    pose proof (Nat.mod_upper_bound (cy_pick c) _ L). lia.
Qed.
Print Assumptions C125_cycle.

Lemma considered_spec {A : Type} `{EqDecision A} guards c (s : wstate A) a : a ∈ considered guards c s -> a ∈ w_requests s /\ a ∉ w_results s.
Proof.
  unfold considered. intros H. assert (forall (l : list A) k x, x ∈ take k l -> x ∈ l) as T.
  { intros l k x. rewrite <- (take_drop k l) at 2. set_solver. }
  apply T, elem_of_list_filter in H as [W R]. split; [done|]. intros X. unfold wants in W. by rewrite bool_decide_eq_true_2 in W by done.
Qed.
Lemma requests_shrink {A : Type} `{EqDecision A} guards c (s : wstate A) a :
  a ∈ w_requests (worker_cycle guards (cy_max c) (cy_pick c) (cy_now c) (cy_finishes c) s) -> a ∈ w_requests s.
Proof.
  rewrite cycle_exact. case_match; [|done]. cbn [w_requests]. destruct (cy_finishes c); [|done]. by intros [_ X]%elem_of_list_filter.
Qed.
(** Being among the considered ones is necessary: new requests that keep being listed first can keep a request waiting for ever,
    though the worker comes by for ever, its choices are fair and none of its executions dies. *)
Theorem C125_starvation : forall mx, exists (st : nat -> wstate nat) (ev : nat -> option cycle),
  history (fun _ => true) 0 st ev /\ 0 ∈ w_requests (st 0) /\ fair (fun _ => true) 0 st ev /\
  (forall n t, exists m c, n <= m /\ ev m = Some c /\ (t <= cy_now c)%Q /\ cy_max c = mx /\ cy_finishes c = true) /\
  (forall n, w_attempts (st n) 0 = [] /\ 0 ∉ w_results (st n)).
Proof.
  intros mx.
  set (E k := WState (seq (S k) (S mx) ++ [0]) (rev (seq 1 k)) (fun b => if (1 <=? b) && (b <=? k) then [inject_Z (Z.of_nat b)] else [])).
  set (cyc k := Cycle mx 0 (inject_Z (Z.of_nat (S k))) true).
  set (C k := worker_cycle (fun _ => true) mx 0 (inject_Z (Z.of_nat (S k))) true (E k)).
  assert (forall k, 0 ∉ w_results (E k)) as R0.
  { intros k. cbn [E w_results]. rewrite elem_of_list_In, <- in_rev, in_seq. lia. }
  assert (forall k, 0 ∉ considered (fun _ => true) (cyc k) (E k)) as NC.
  { intros k. unfold considered. cbn [E w_requests]. rewrite filter_app.
    assert (forall l : list nat, (forall b, b ∈ l -> k < b) -> filter (fun a => wants (fun _ => true) (cy_now (cyc k)) (E k) a = true) l = l) as F.
    { induction l as [|b l IH]; intros Hl; [done|]. rewrite filter_cons, decide_True; [f_equal; apply IH; set_solver|].
      assert (k < b) as B by (apply Hl; set_solver). unfold wants. cbn [E w_results w_attempts].
      rewrite bool_decide_eq_false_2 by (rewrite elem_of_list_In, <- in_rev, in_seq; lia).
      destruct (Nat.leb_spec b k); [lia|]. by rewrite andb_false_r. }
    rewrite F by (intros b; rewrite elem_of_list_In, in_seq; lia). cbn [cyc cy_max]. rewrite take_app_alt by (by rewrite seq_length).
    rewrite elem_of_list_In, in_seq. lia. }
  assert (forall k, 0 ∈ w_requests (C k) /\ w_attempts (C k) 0 = [] /\ 0 ∉ w_results (C k)) as HC.
  { intros k. destruct (C125_cycle nat _ (fun _ => true) (cyc k) (E k)) as (_ & H & _). change (worker_cycle _ _ _ _ _ _) with (C k) in H.
    destruct (H 0) as (H1 & H2 & H3).
    - intros X. apply (NC k). unfold chooses in X. by eapply elem_of_list_lookup_2.
    - rewrite H1, H2, H3. split; [cbn [E w_requests]; set_solver|]. split; [done|apply R0]. }
  exists (fun n => if Nat.even n then E (Nat.div2 n) else C (Nat.div2 n)), (fun n => if Nat.even n then Some (cyc (Nat.div2 n)) else None).
  assert (forall n, exists k, (n = 2 * k /\ Nat.even n = true /\ Nat.div2 n = k) \/ (n = S (2 * k) /\ Nat.even n = false /\ Nat.div2 n = k)) as Cases.
  { intros n. destruct (Nat.Even_or_Odd n) as [[k ->]|[k ->]]; exists k; [left|right]; (split; [lia|]).
    - split; [by rewrite Nat.even_mul|apply Nat.div2_double].
    - rewrite Nat.add_1_r. split; [by rewrite Nat.even_succ, <- Nat.negb_even, Nat.even_mul|apply Nat.div2_succ_double]. }
  split; [|split; [|split; [|split]]].
  - intros n. destruct (Cases n) as (k & [(-> & Ev & D)|(-> & Ev & D)]); rewrite Ev.
    + rewrite D. rewrite Nat.even_succ, <- Nat.negb_even, Ev. cbn [negb]. rewrite Nat.div2_succ_double. done.
    + rewrite D. rewrite Nat.even_succ, <- Nat.negb_even, Ev. cbn [negb]. change (S (S (2 * k))) with (S (S (2 * k))).
      replace (S (S (2 * k))) with (2 * S k) by lia. rewrite Nat.div2_double. right. split; [cbn [E w_requests]; set_solver|].
      exists []. destruct (HC k) as (_ & -> & _). done.
  - cbn [E w_requests Nat.even Nat.div2]. set_solver.
  - intros n. exists n. split; [done|]. right. intros k c _. destruct (Nat.even k); [|done]. intros [= <-]. apply NC.
  - intros n t. set (z := Z.to_nat (Qround.Qceiling t)). exists (2 * (n + z)), (cyc (n + z)). split; [lia|].
    rewrite Nat.even_mul, Nat.div2_double. cbn [Nat.even orb]. split; [done|]. split; [|done]. cbn [cyc cy_now].
    eapply Qle_trans; [apply Qround.Qle_ceiling|]. rewrite <- Zle_Qle. lia.
  - intros n. destruct (Nat.even n); [split; [done|apply R0]|]. by destruct (HC (Nat.div2 n)) as (_ & H & ?).
Qed.
Print Assumptions C125_starvation.

(** A case that meets all conditions of C125_served: the first execution of 0 dies, request 1 arrives before it, 0 is executed later. *)
Definition ex_ev (n : nat) : option cycle :=
  match n with 1 => None | _ => Some (Cycle 200 1 (inject_Z (1000 * Z.of_nat n)) (negb (n =? 0))) end.
Fixpoint ex_st (n : nat) : wstate nat :=
  match n with
  | 0 => WState [0] [] (fun _ => [])
  | S n => match ex_ev n with
           | Some c => worker_cycle (fun _ => true) (cy_max c) (cy_pick c) (cy_now c) (cy_finishes c) (ex_st n)
           | None => WState (1 :: w_requests (ex_st n)) (w_results (ex_st n)) (w_attempts (ex_st n))
           end
  end.
Example C125_example : history (fun _ => true) 0 ex_st ex_ev /\ 0 ∈ w_requests (ex_st 0) /\
  (forall n, 0 ∉ w_results (ex_st n) -> length (w_attempts (ex_st n) 0) <= 5) /\ comes_by 0 ex_st ex_ev /\ fair (fun _ => true) 0 ex_st ex_ev /\
  w_results (ex_st 2) = [] /\ w_requests (ex_st 2) = [1; 0] /\ w_results (ex_st 3) = [0].
Proof.
  assert (forall n, 0 ∈ w_results (ex_st (3 + n))) as Rs.
  { induction n as [|n IH]; [change (w_results (ex_st (3 + 0))) with (w_results (ex_st 3)); replace (w_results (ex_st 3)) with [0] by (vm_compute; reflexivity); by left|].
    replace (3 + S n) with (S (3 + n)) by lia. change (ex_st (S (3 + n))) with
      (let c := Cycle 200 1 (inject_Z (1000 * Z.of_nat (3 + n))) (negb (3 + n =? 0)) in worker_cycle (fun _ : nat => true) (cy_max c) (cy_pick c) (cy_now c) (cy_finishes c) (ex_st (3 + n))).
    by apply results_mono. }
  assert (forall n, 0 ∉ w_requests (ex_st (3 + n))) as Rq.
  { induction n as [|n IH]; [change (w_requests (ex_st (3 + 0))) with (w_requests (ex_st 3)); replace (w_requests (ex_st 3)) with [1] by (vm_compute; reflexivity); set_solver|].
    replace (3 + S n) with (S (3 + n)) by lia. change (ex_st (S (3 + n))) with
      (let c := Cycle 200 1 (inject_Z (1000 * Z.of_nat (3 + n))) (negb (3 + n =? 0)) in worker_cycle (fun _ : nat => true) (cy_max c) (cy_pick c) (cy_now c) (cy_finishes c) (ex_st (3 + n))).
    intros X%requests_shrink. done. }
  split; [|split; [|split; [|split; [|split; [|split; [|split]]]]]].
  - intros [|[|n]]; [done| |done]. right. split; [|by exists []].
    change (w_requests (ex_st 2)) with (1 :: w_requests (ex_st 1)). replace (w_requests (ex_st 1)) with [0] by (vm_compute; reflexivity). set_solver.
  - by left.
  - intros n H. assert (n < 3) as L.
    { destruct (decide (n < 3)) as [|N]; [done|]. exfalso. apply H. replace n with (3 + (n - 3)) by lia. apply Rs. }
    destruct n as [|[|[|n]]]; [..|lia]; vm_compute; lia.
  - intros n t. set (z := Z.to_nat (Qceiling t)). exists (3 + (n + z)), (Cycle 200 1 (inject_Z (1000 * Z.of_nat (3 + (n + z)))) true). split; [lia|]. split; [done|].
    split; [|intros X; by apply Rq in X]. cbn [cy_now]. eapply Qle_trans; [apply Qle_ceiling|]. rewrite <- Zle_Qle. lia.
  - intros n. exists (3 + n). split; [lia|]. right. intros k c L _ X. apply considered_spec in X as [_ X]. apply X. replace k with (3 + (k - 3)) by lia. apply Rs.
  - vm_compute. reflexivity.
  - vm_compute. reflexivity.
  - vm_compute. reflexivity.
Qed.
