(** C96, C97, C98: several workers and programs executing calls of one location at the same time. *)
From Verif.Lib Require Import Py.
From Verif.Model Require Import Retry SwarmRace.
From Verif.Proofs Require Import RetryP.
From Coq Require Import QArith Lqa.
From stdpp Require Import sets.
Local Open Scope nat_scope.

(** ** Specification: counting what happens in a schedule *)
Section Spec.
  Context {A : Type} `{EqDecision A} (guards : A -> bool).
  Notation rstate := (rstate A).
  Notation event := (event A).
  (** the number of events of a schedule that satisfy [P] in the state in which they happen *)
  Fixpoint count (P : rstate -> event -> bool) (s : rstate) (es : list event) : nat :=
    match es with [] => 0 | e :: es' => (if P s e then 1 else 0) + count P (step guards s e) es' end.
  (** a worker begins an execution of [a] *)
  Definition starts (a : A) (s : rstate) (e : event) : bool :=
    match e with
    | Start w _ => match workers s !! w with Some (Picked b _) => bool_decide (b = a) && negb (bool_decide (a ∈ results s)) | _ => false end
    | _ => false
    end.
  (** an execution of [a] is killed, or the body raises *)
  Definition fails (a : A) (s : rstate) (e : event) : bool :=
    match e with
    | Stop w => match workers s !! w with Some (Running b _ _) => bool_decide (b = a) | _ => false end
    | _ => false
    end.
  Definition is_running (a : A) (p : phase A) : bool := match p with Running b _ _ => bool_decide (b = a) | _ => false end.
  Definition is_picked (a : A) (p : phase A) : bool := match p with Picked b _ => bool_decide (b = a) | _ => false end.
  Definition time_of (e : event) : option Q := match e with Check _ _ t | Start _ t | Call _ _ t => Some t | _ => None end.
  (** the clocks of the processes agree: later events have no earlier times *)
  Definition in_order (es : list event) : Prop :=
    forall i j x y t u, i < j -> es !! i = Some x -> es !! j = Some y -> time_of x = Some t -> time_of y = Some u -> (t <= u)%Q.
End Spec.

(** ** Proofs *)
Section P.
  Context {A : Type} `{EqDecision A} (guards : A -> bool).
  Notation rstate := (rstate A).
  Notation event := (event A).
  Notation phase := (phase A).
  Implicit Types (s : rstate) (es : list event).
  Definition b2n (b : bool) : nat := if b then 1 else 0.
  Fixpoint countb (f : phase -> bool) (l : list phase) : nat := match l with [] => 0 | p :: l' => b2n (f p) + countb f l' end.
  Lemma countb_insert f l w p q : l !! w = Some p -> countb f (<[w := q]> l) + b2n (f p) = countb f l + b2n (f q).
  Proof.
    revert w. induction l as [|x l IH]; intros w Hw; [done|]. destruct w as [|w].
    - cbn in *. injection Hw as ->. lia.
    - change (<[S w := q]> (x :: l)) with (x :: <[w := q]> l). cbn [countb]. specialize (IH w Hw). lia.
  Qed.
  Lemma countb_le f l : countb f l <= length l.
  Proof. induction l as [|x l IH]; cbn; [lia|]. destruct (f x); cbn; lia. Qed.
  Lemma countb_0 f l : countb f l = 0 <-> forall w p, l !! w = Some p -> f p = false.
  Proof.
    induction l as [|x l IH]; cbn; [split; [intros _ w p Hw; by destruct w|done]|]. split.
    - intros E [|w] p Hp; cbn in Hp; [injection Hp as <-; destruct (f x); [cbn in E; lia|done]|]. apply (proj1 IH) with w; [lia|done].
    - intros Hf. rewrite (Hf 0 x eq_refl). cbn. apply IH. intros w p Hp. by apply (Hf (S w)).
  Qed.
  Lemma count_snoc P s es e : count guards P s (es ++ [e]) = count guards P s es + b2n (P (run guards s es) e).
  Proof. revert s. induction es as [|x es IH]; intros s; cbn; [unfold b2n; destruct (P s e); lia|]. rewrite IH. cbn. unfold run. cbn. lia. Qed.
  Lemma run_app_one s es e : run guards s (es ++ [e]) = step guards (run guards s es) e.
  Proof. unfold run. by rewrite fold_left_app. Qed.

  Definition bal (n : nat) (es : list event) (a : A) : Prop :=
    let s := run guards (initial n) es in
    length (workers s) = n /\
    count guards (starts a) (initial n) es <= length (attempts s a) /\
    count guards (starts a) (initial n) es + countb (is_picked a) (workers s) <= 5 + n /\
    (a ∉ results s -> length (attempts s a) = count guards (fails a) (initial n) es + countb (is_running a) (workers s)).
  Lemma countb_same f l w p q : l !! w = Some p -> f p = f q -> countb f (<[w := q]> l) = countb f l.
  Proof. intros Hw E. pose proof (countb_insert f l w p q Hw) as H1. rewrite E in H1. lia. Qed.
  Lemma begin_bal s w a c now : a ∉ results s -> begin_execution w a c now s =
    RState (add_request a s) (results s) (fun b => if decide (b = a) then now :: attempts s b else attempts s b) (<[w := Running a c now]> (workers s)).
  Proof. intros Ha. unfold begin_execution. by rewrite decide_False. Qed.
  Lemma balanced n es a : bal n es a.
  Proof.
    induction es as [|e es IH] using rev_ind.
    - unfold bal. cbn. rewrite replicate_length.
      assert (E : forall f, f Idle = false -> countb f (replicate n Idle) = 0).
      { intros f Hf. apply countb_0. intros w p Hp. apply lookup_replicate in Hp as [-> _]. done. }
      rewrite !E by done. split; [done|]. split; [lia|]. split; [lia|]. done.
    - unfold bal in *. rewrite run_app_one, !count_snoc. set (s := run guards (initial n) es) in *. destruct IH as (I1 & I2 & I3 & I4).
      destruct e as [b|w b now|w now|w b now|w|w]; cbn [step starts fails].
      + cbn. rewrite !Nat.add_0_r. done.
      + rewrite !Nat.add_0_r. destruct (workers s !! w) as [[| |]|] eqn:Ew; try done. case_decide as Hb; [|done].
        destruct (needs_execution _ _ _) eqn:En; cbn [andb]; [|done]. destruct (guards b) eqn:Eg; [|done]. cbn [workers attempts results].
        split; [by rewrite insert_length|]. split; [done|]. pose proof (countb_le (is_picked a) (<[w:=Picked b now]> (workers s))) as Hle. rewrite insert_length in Hle.
        split; [|rewrite (countb_same _ _ w Idle) by done; done].
        destruct (decide (b = a)) as [->|Hne].
        * apply needs_execution_iff in En as [_ [En|[En _]]]; [rewrite En in I2; cbn in I2|]; lia.
        * rewrite (countb_same _ _ w Idle); [done|done|]. cbn. by rewrite bool_decide_eq_false_2.
      + destruct (workers s !! w) as [[|b c|]|] eqn:Ew; cbn [b2n]; rewrite ?Nat.add_0_r; try done.
        unfold begin_execution. case_decide as Hb; cbn [workers attempts results].
        * (* already stored *)
          assert (Es : bool_decide (b = a) && negb (bool_decide (a ∈ results s)) = false).
          { destruct (decide (b = a)) as [->|]; [|by rewrite bool_decide_eq_false_2]. rewrite (bool_decide_eq_true_2 (a ∈ results s)) by done. by rewrite andb_false_r. }
          rewrite Es. cbn [b2n]. rewrite !Nat.add_0_r. split; [by rewrite insert_length|]. split; [done|].
          pose proof (countb_insert (is_picked a) (workers s) w _ Idle Ew) as H1. cbn in H1. split; [unfold b2n in H1; case_match; lia|].
          intros Ha. rewrite (countb_same _ _ w (Picked b c)) by done. by apply I4.
        * rewrite insert_length. split; [done|]. pose proof (countb_insert (is_picked a) (workers s) w _ (Running b (Some c) now) Ew) as H1.
          pose proof (countb_insert (is_running a) (workers s) w _ (Running b (Some c) now) Ew) as H2. cbn in H1, H2.
          destruct (decide (b = a)) as [->|Hne].
          -- rewrite (bool_decide_eq_true_2 (a = a)) in * by done. rewrite bool_decide_eq_false_2 by done. rewrite decide_True by done. cbn in *.
             split; [lia|]. split; [lia|]. intros Ha. specialize (I4 Ha). lia.
          -- rewrite (bool_decide_eq_false_2 (b = a)) in * by done. rewrite decide_False by done. cbn in *. rewrite !Nat.add_0_r in *. split; [lia|]. split; [lia|]. intros Ha. specialize (I4 Ha). lia.
      + rewrite !Nat.add_0_r. destruct (workers s !! w) as [[| |]|] eqn:Ew; try done. unfold begin_execution. case_decide as Hb; cbn [workers attempts results].
        * split; [by rewrite insert_length|]. split; [done|]. rewrite !(countb_same _ _ w Idle) by done. done.
        * rewrite insert_length. split; [done|]. rewrite (countb_same _ _ w Idle) by done.
          pose proof (countb_insert (is_running a) (workers s) w _ (Running b None now) Ew) as H2. cbn in H2.
          destruct (decide (b = a)) as [->|Hne].
          -- rewrite (bool_decide_eq_true_2 (a = a)) in * by done. rewrite decide_True by done. cbn in *. split; [lia|]. split; [lia|]. intros Ha. specialize (I4 Ha). lia.
          -- rewrite (bool_decide_eq_false_2 (b = a)) in * by done. rewrite decide_False by done. cbn in *. rewrite !Nat.add_0_r in *. split; [lia|]. split; [lia|]. intros Ha. specialize (I4 Ha). lia.
      + rewrite !Nat.add_0_r. destruct (workers s !! w) as [[| |b c ts]|] eqn:Ew; try done. cbn [workers attempts results]. split; [by rewrite insert_length|]. split; [done|].
        rewrite (countb_same (is_picked a) _ w (Running b c ts)) by done. split; [done|]. intros Ha. apply not_elem_of_cons in Ha as [Hne Ha].
        rewrite (countb_same (is_running a) _ w (Running b c ts)); [by apply I4|done|]. cbn. by rewrite bool_decide_eq_false_2.
      + cbn [b2n workers attempts results]. rewrite Nat.add_0_r. split; [by rewrite insert_length|]. split; [done|].
        destruct (workers s !! w) as [p|] eqn:Ew.
        * pose proof (countb_insert (is_picked a) (workers s) w p Idle Ew) as H1. pose proof (countb_insert (is_running a) (workers s) w p Idle Ew) as H2. cbn in H1, H2.
          split; [lia|]. intros Ha. specialize (I4 Ha). destruct p as [| |b c ts]; cbn in *; lia.
        * rewrite list_insert_ge by (by apply lookup_ge_None). cbn. split; [done|]. intros Ha. rewrite Nat.add_0_r. by apply I4.
  Qed.
End P.

(** * C96: workers start a call at most 5 + (number of processes) times, whatever they do and however they interleave *)
Theorem C96_restarts_bounded : forall (A : Type) (eqA : EqDecision A) (guards : A -> bool) n es a,
  count guards (starts a) (initial n) es <= 5 + n.
Proof. intros A eqA guards n es a. destruct (balanced guards n es a) as (_ & _ & H & _). lia. Qed.
Print Assumptions C96_restarts_bounded.

(** The bound is reached, for every number of workers: five executions are killed, then all workers check before the first
    one records its attempt. *)
Definition round (t : Q) : list (event nat) := [Check 0 7 t; Start 0 t; Stop 0].
Definition worst (n : nat) : list (event nat) :=
  [Request 7] ++ concat (map round [1000; 2000; 3000; 4000; 5000]%Q) ++ map (fun w => Check w 7 10000%Q) (seq 0 n) ++ map (fun w => Start w 10000%Q) (seq 0 n).
Section Worst.
  Notation g := (fun _ : nat => true).
  Definition five : list Q := [5000; 4000; 3000; 2000; 1000]%Q.
  Lemma count_app {A} `{EqDecision A} (gd : A -> bool) P s es es' : count gd P s (es ++ es') = count gd P s es + count gd P (run gd s es) es'.
  Proof. revert s. induction es as [|e es IH]; intros s; cbn; [done|]. rewrite IH. unfold run. cbn. lia. Qed.
  Lemma run_app {A} `{EqDecision A} (gd : A -> bool) s es es' : run gd s (es ++ es') = run gd (run gd s es) es'.
  Proof. unfold run. by rewrite fold_left_app. Qed.
  Lemma first_part m : let es := [Request 7] ++ concat (map round [1000; 2000; 3000; 4000; 5000]%Q) in let s := run g (initial (S m)) es in
    requests s = [7] /\ results s = [] /\ attempts s 7 = five /\ workers s = Idle :: replicate m Idle /\ count g (starts 7) (initial (S m)) es = 5.
  Proof. cbv zeta. split; [vm_compute; reflexivity|]. split; [vm_compute; reflexivity|]. split; [vm_compute; reflexivity|]. split; vm_compute; reflexivity. Qed.
  Lemma checks s n : requests s = [7] -> results s = [] -> attempts s 7 = five -> forall k done, workers s = done ++ replicate k Idle -> n = length done ->
    let es := map (fun w => Check w 7 10000%Q) (seq n k) in let s' := run g s es in
    requests s' = [7] /\ results s' = [] /\ attempts s' 7 = five /\ workers s' = done ++ replicate k (Picked 7 10000%Q) /\ count g (starts 7) s es = 0.
  Proof.
    intros Hr Hs Ha k. revert s n Hr Hs Ha. induction k as [|k IH]; intros s n Hr Hs Ha dn Hw Hn; [cbn in *; done|].
    cbn [seq map replicate] in *. cbn [count run fold_left].
    assert (E : step g s (Check n 7 10000%Q) = RState (requests s) (results s) (attempts s) (dn ++ Picked 7 10000%Q :: replicate k Idle)).
    { cbn [step]. rewrite Hw, Hn. rewrite list_lookup_middle by done. rewrite decide_True by (rewrite Hr; left).
      assert (En : needs_execution (bool_decide (7 ∈ results s)) (attempts s 7) 10000 = true) by (rewrite Hs, Ha; vm_compute; done).
      rewrite En. cbn [andb]. f_equal. rewrite insert_app_r_alt by lia. by rewrite Nat.sub_diag. }
    rewrite E. destruct (IH (RState (requests s) (results s) (attempts s) (dn ++ Picked 7 10000%Q :: replicate k Idle)) (S n) Hr Hs Ha (dn ++ [Picked 7 10000%Q])) as (H1 & H2 & H3 & H4 & H5).
    - cbn. by rewrite <- app_assoc.
    - rewrite app_length. cbn. lia.
    - cbn [workers] in *. unfold run in *. split; [done|]. split; [done|]. split; [done|]. split; [rewrite H4; by rewrite <- app_assoc|]. rewrite H5. done.
  Qed.
  Lemma starts_all s n : results s = [] -> forall k done, workers s = done ++ replicate k (Picked 7 10000%Q) -> n = length done ->
    count g (starts 7) s (map (fun w => Start w 10000%Q) (seq n k)) = k.
  Proof.
    intros Hs k. revert s n Hs. induction k as [|k IH]; intros s n Hs dn Hw Hn; [done|]. cbn [seq map replicate] in *. cbn [count].
    assert (El : workers s !! n = Some (Picked 7 10000%Q)) by (rewrite Hw, Hn; by rewrite list_lookup_middle).
    assert (E : starts 7 s (Start n 10000%Q) = true) by (cbn; rewrite El, Hs; done). rewrite E.
    rewrite (IH _ (S n)) with (done := dn ++ [Running 7 (Some 10000%Q) 10000%Q]); [done| | |].
    - cbn [step]. rewrite El. unfold begin_execution. rewrite decide_False by (rewrite Hs; apply not_elem_of_nil). done.
    - cbn [step]. rewrite El. unfold begin_execution. rewrite decide_False by (rewrite Hs; apply not_elem_of_nil). cbn. rewrite Hw. rewrite insert_app_r_alt by lia. rewrite Hn, Nat.sub_diag. cbn. by rewrite <- app_assoc.
    - rewrite app_length. cbn. lia.
  Qed.
End Worst.
Theorem C96_bound_is_reached : forall n, 1 <= n -> count (fun _ => true) (starts 7) (initial n) (worst n) = 5 + n.
Proof.
  intros [|m] Hn; [lia|]. unfold worst. rewrite app_assoc, count_app. destruct (first_part m) as (R1 & R2 & R3 & R4 & R5). rewrite R5. f_equal.
  rewrite count_app. destruct (checks _ 0 R1 R2 R3 (S m) [] R4 eq_refl) as (Q1 & Q2 & Q3 & Q4 & Q5). rewrite Q5.
  rewrite (starts_all _ 0 Q2 (S m) [] Q4 eq_refl). done.
Qed.
Print Assumptions C96_bound_is_reached.
Example C96_example : count (fun _ => true) (starts 7) (initial 3) (worst 3) = 8.
Proof. by vm_compute. Qed.

(** * C97: a call is given up only after six of its executions failed *)
Section C97.
  Context {A : Type} `{EqDecision A} (guards : A -> bool).
  Lemma kept_request s e a : a ∈ requests s \/ a ∈ results s -> a ∈ requests (step guards s e) \/ a ∈ results (step guards s e).
  Proof.
    assert (Hadd : forall b, a ∈ requests s \/ a ∈ results s -> a ∈ add_request b s \/ a ∈ results s).
    { intros b [Hr|Hr]; [|by right]. unfold add_request. case_decide as Hb.
      - destruct (decide (a = b)) as [->|Hne]; [by right|]. left. by apply elem_of_list_filter.
      - left. case_decide; [done|by right]. }
    intros Hs. destruct e as [b|w b now|w now|w b now|w|w]; cbn [step].
    - by apply Hadd.
    - destruct (workers s !! w) as [[| |]|]; try done. case_decide; [|done]. by destruct (_ && _).
    - destruct (workers s !! w) as [[| |]|]; try done. unfold begin_execution. case_decide; cbn; [done|]. by apply Hadd.
    - destruct (workers s !! w) as [[| |]|]; try done. unfold begin_execution. case_decide; cbn; [done|]. by apply Hadd.
    - destruct (workers s !! w) as [[| |b c ts]|]; try done. cbn. destruct (decide (a = b)) as [->|Hne]; [right; left|].
      destruct Hs as [Hs|Hs]; [left; by apply elem_of_list_filter|right; by right].
    - done.
  Qed.
  Lemma request_or_result n es a : Request a ∈ es -> a ∈ requests (run guards (initial n) es) \/ a ∈ results (run guards (initial n) es).
  Proof.
    induction es as [|e es IH] using rev_ind; [by intros ?%elem_of_nil|]. rewrite run_app_one. intros [Hin|Hin]%elem_of_app; [by apply kept_request, IH|].
    apply elem_of_list_singleton in Hin. subst e. cbn [step requests results]. set (s := run _ _ _). unfold add_request. case_decide; [by right|]. left. case_decide; [done|by left].
  Qed.
End C97.
(** A requested call whose guards accept it, with at most five failed executions, however many workers there are and however
    they interleave: its result is stored, or some process is executing it, or it is still requested and from some time on
    any idle worker that looks will choose to execute it. *)
Theorem C97_given_up_only_after_six : forall (A : Type) (eqA : EqDecision A) (guards : A -> bool) n es a,
  Request a ∈ es -> guards a = true -> count guards (fails a) (initial n) es <= 5 ->
  let s := run guards (initial n) es in
  a ∈ results s \/ (exists w c t, workers s !! w = Some (Running a c t)) \/
  a ∈ requests s /\ exists T, forall now w, (T <= now)%Q -> workers s !! w = Some Idle -> workers (step guards s (Check w a now)) !! w = Some (Picked a now).
Proof.
  intros A eqA guards n es a Hreq Hg Hf s. destruct (balanced guards n es a) as (_ & _ & _ & Hbal). fold s in Hbal.
  destruct (decide (a ∈ results s)) as [Hr|Hr]; [by left|right]. specialize (Hbal Hr).
  destruct (request_or_result guards n es a Hreq) as [Hq|Hq]; [fold s in Hq|done].
  destruct (decide (countb (is_running a) (workers s) = 0)) as [E0|E0].
  - right. split; [done|]. destruct (waits_enough (attempts s a)) as [T HT]; [lia|]. exists T. intros now w Hn Hw. cbn [step]. rewrite Hw.
    rewrite decide_True by done. rewrite (bool_decide_eq_false_2 (a ∈ results s)) by done. rewrite HT, Hg by done. cbn. apply list_lookup_insert. by eapply lookup_lt_Some.
  - left. assert (Hex : Exists (fun p => is_running a p = true) (workers s)).
    { destruct (decide (Exists (fun p => is_running a p = true) (workers s))) as [|Hno]; [done|]. exfalso. apply E0. apply countb_0. intros w p Hp.
      destruct (is_running a p) eqn:Ep; [|done]. exfalso. apply Hno. apply Exists_exists. exists p. split; [by eapply elem_of_list_lookup_2|done]. }
    apply Exists_exists in Hex as (p & Hin & Hp). apply elem_of_list_lookup_1 in Hin as [w Hw]. destruct p as [| |b c t]; try done. cbn in Hp. apply bool_decide_eq_true in Hp. subst b. eauto.
Qed.
Print Assumptions C97_given_up_only_after_six.
(** after six failed executions nobody chooses the call any more, while its request stays *)
Theorem C97_six_failures_give_up : forall (A : Type) (eqA : EqDecision A) (guards : A -> bool) n es a,
  let s := run guards (initial n) es in
  a ∉ results s -> 6 <= count guards (fails a) (initial n) es -> forall w now, workers s !! w = Some Idle -> step guards s (Check w a now) = s.
Proof.
  intros A eqA guards n es a s Hr Hf w now Hw. destruct (balanced guards n es a) as (_ & _ & _ & Hbal). fold s in Hbal. specialize (Hbal Hr).
  cbn [step]. rewrite Hw. case_decide; [|done]. rewrite six_never by lia. done.
Qed.
Print Assumptions C97_six_failures_give_up.
Example C97_example : let es := [Request 7; Check 0 7 1%Q; Check 1 7 2%Q; Start 1 3%Q; Start 0 4%Q; Stop 0; Stop 1; Check 0 7 30%Q; Check 0 7 60%Q] in
  let s := run (fun _ => true) (initial 2) es in
  count (fun _ => true) (fails 7) (initial 2) es = 2 /\ 7 ∉ results s /\ workers s = [Picked 7 60%Q; Idle].
Proof. split; [by vm_compute|]. split; [|by vm_compute]. apply (bool_decide_eq_true_1 (7 ∉ _)). by vm_compute. Qed.

(** * C98: two processes executing the same call *)
Section C98.
  Context {A : Type} `{EqDecision A} (guards : A -> bool).
  Definition checked_at (p : phase A) (a : A) (t : Q) : Prop := p = Picked a t \/ exists u, p = Running a (Some t) u.
  Definition started_at (p : phase A) (a : A) (t : Q) : Prop := exists c, p = Running a c t.
  Definition timed (n : nat) (es : list (event A)) : Prop :=
    let s := run guards (initial n) es in
    (forall w p a t, workers s !! w = Some p -> checked_at p a t \/ started_at p a t -> exists x, x ∈ es /\ time_of x = Some t) /\
    (forall w p a t, workers s !! w = Some p -> started_at p a t -> a ∉ results s -> t ∈ attempts s a) /\
    (forall w v p q a t u, w <> v -> workers s !! w = Some p -> workers s !! v = Some q -> a ∉ results s -> checked_at p a t -> started_at q a u -> (t <= u \/ u + 20 < t)%Q).
  Lemma order_snoc es (e : event A) : in_order (es ++ [e]) -> in_order es /\ forall x t u, x ∈ es -> time_of x = Some t -> time_of e = Some u -> (t <= u)%Q.
  Proof.
    intros Ho. split.
    - intros i j x y t u Hij Hi Hj. eapply (Ho i j); [done|by apply lookup_app_l_Some|by apply lookup_app_l_Some].
    - intros x t u (i & Hi)%elem_of_list_lookup Ht Hu. assert (Hl : i < length es) by (by eapply lookup_lt_Some).
      apply (Ho i (length es) x e t u Hl); [by apply lookup_app_l_Some|by rewrite list_lookup_middle|done|done].
  Qed.
  Lemma twenty ts now t : needs_execution false ts now = true -> t ∈ ts -> (t + 20 < now)%Q.
  Proof.
    intros [_ [->|[Hl (m & _ & Hm & Hlt)]]]%needs_execution_iff Ht; [by apply elem_of_nil in Ht|]. specialize (Hm t (proj1 (elem_of_list_In _ _) Ht)).
    assert (Hp : (20 <= 10 * inject_Z (2 ^ Z.of_nat (length ts)))%Q).
    { change 20%Q with (10 * inject_Z 2)%Q. apply Qmult_le_l; [done|]. rewrite <- Zle_Qle. change 2%Z with (2 ^ 1)%Z at 1. apply Z.pow_le_mono_r; lia. }
    lra.
  Qed.
  Lemma idle_not a t : ~ checked_at Idle a t /\ ~ started_at Idle a t.
  Proof. split; [intros [?|[? ?]]; done|intros [? ?]; done]. Qed.
  (** writing Idle into a slot *)
  Lemma timed_idle n es e s' w : timed n es -> run guards (initial n) (es ++ [e]) = s' ->
    workers s' = <[w := Idle]> (workers (run guards (initial n) es)) -> attempts s' = attempts (run guards (initial n) es) ->
    (forall a, a ∈ results (run guards (initial n) es) -> a ∈ results s') -> timed n (es ++ [e]).
  Proof.
    intros (T1 & T2 & T3) Hs Hw Ha Hr. unfold timed. rewrite Hs, Hw, Ha. clear Hs. set (s := run guards (initial n) es) in *.
    assert (Hl : forall v p, <[w := Idle]> (workers s) !! v = Some p -> p = Idle \/ workers s !! v = Some p).
    { intros v p Hp. apply list_lookup_insert_Some in Hp as [(-> & <- & _)|[_ ?]]; auto. }
    split; [|split].
    - intros v p a t [->|Hp]%Hl Hc; [destruct (idle_not a t); tauto|]. destruct (T1 v p a t Hp Hc) as (x & ? & ?). exists x. split; [apply elem_of_app; by left|done].
    - intros v p a t [->|Hp]%Hl Hc Hn; [by destruct (idle_not a t)|]. apply (T2 v p a t Hp Hc). auto.
    - intros v v' p q a t u Hne [->|Hp]%Hl [->|Hq]%Hl Hn Hc Hst; try (by destruct (idle_not a t)); try (by destruct (idle_not a u)).
      apply (T3 v v' p q a t u); auto.
  Qed.
  Lemma timed_begin n es e w b c now : in_order (es ++ [e]) -> timed n es -> time_of e = Some now -> (forall t, c = Some t -> exists p, workers (run guards (initial n) es) !! w = Some p /\ checked_at p b t) ->
    w < length (workers (run guards (initial n) es)) ->
    run guards (initial n) (es ++ [e]) = begin_execution w b c now (run guards (initial n) es) -> timed n (es ++ [e]).
  Proof.
    intros Ho Ht Hnow Hc Hlt Hs. pose proof Ht as (T1 & T2 & T3). destruct (order_snoc _ _ Ho) as [_ Hord]. unfold begin_execution in Hs. case_decide as Hb.
    { eapply (timed_idle _ _ _ _ w); [done|exact Hs|done|done|done]. }
    unfold timed. rewrite Hs. cbn [workers attempts results]. set (s := run guards (initial n) es) in *.
    assert (Hl : forall v p, <[w := Running b c now]> (workers s) !! v = Some p -> v = w /\ p = Running b c now \/ v <> w /\ workers s !! v = Some p).
    { intros v p Hp. apply list_lookup_insert_Some in Hp as [(-> & <- & _)|[? ?]]; auto. }
    assert (Hold : forall v p a t, workers s !! v = Some p -> checked_at p a t \/ started_at p a t -> (t <= now)%Q).
    { intros v p a t Hp Hx. destruct (T1 v p a t Hp Hx) as (x & Hx1 & Hx2). by apply (Hord x). }
    split; [|split].
    - intros v p a t [[-> ->]|[_ Hp]]%Hl Hx.
      + destruct Hx as [[?|[u Hx]]|[c' Hx]]; [done| |].
        * injection Hx as -> -> ->. destruct (Hc t eq_refl) as (p & Hp & Hck). destruct (T1 w p a t Hp (or_introl Hck)) as (x & ? & ?). exists x. split; [apply elem_of_app; by left|done].
        * injection Hx as -> -> ->. exists e. split; [apply elem_of_app; right; by left|done].
      + destruct (T1 v p a t Hp Hx) as (x & ? & ?). exists x. split; [apply elem_of_app; by left|done].
    - intros v p a t [[-> ->]|[_ Hp]]%Hl Hx Hn.
      + destruct Hx as [c' Hx]. injection Hx as -> -> ->. rewrite decide_True by done. left.
      + specialize (T2 v p a t Hp Hx Hn). case_decide; [by right|done].
    - intros v v' p q a t u Hne [[-> ->]|[Hvw Hp]]%Hl [[-> ->]|[Hvw' Hq]]%Hl Hn Hck Hst.
      + done.
      + destruct Hck as [?|[x Hx]]; [done|]. injection Hx as -> -> ->. destruct (Hc t eq_refl) as (p & Hp & Hck). by apply (T3 w v' p q a t u).
      + destruct Hst as [x Hx]. injection Hx as -> -> ->. left. by apply (Hold v p a t); [|left].
      + by apply (T3 v v' p q a t u).
  Qed.
  Lemma timed_all n es : in_order es -> timed n es.
  Proof.
    induction es as [|e es IH] using rev_ind; intros Ho.
    { unfold timed. cbn. assert (Hx : forall w (p : phase A), replicate n Idle !! w = Some p -> p = Idle) by (intros w p [-> _]%lookup_replicate; done).
      split; [|split]; [intros w p a t ->%Hx Hc|intros w p a t ->%Hx Hc|intros w v p q a t u _ ->%Hx ->%Hx _ Hc]; destruct (idle_not a t); tauto. }
    destruct (order_snoc _ _ Ho) as [Ho' Hord]. specialize (IH Ho'). pose proof IH as (T1 & T2 & T3).
    assert (Hsame : forall s', run guards (initial n) (es ++ [e]) = s' -> workers s' = workers (run guards (initial n) es) -> attempts s' = attempts (run guards (initial n) es) ->
      results s' = results (run guards (initial n) es) -> timed n (es ++ [e])).
    { intros s' Hs Hw Ha Hr. unfold timed. rewrite Hs, Hw, Ha, Hr. split; [|done]. intros w p a t Hp Hx. destruct (T1 w p a t Hp Hx) as (x & ? & ?). exists x. split; [apply elem_of_app; by left|done]. }
    pose proof (run_app_one guards (initial n) es e) as Hrun. set (s := run guards (initial n) es) in *.
    destruct e as [b|w b now|w now|w b now|w|w]; cbn [step] in Hrun.
    - by eapply Hsame.
    - destruct (workers s !! w) as [[| |]|] eqn:Ew; try (by eapply Hsame). case_decide as Hb; [|by eapply Hsame].
      destruct (needs_execution _ _ _) eqn:En; cbn [andb] in Hrun; [|by eapply Hsame]. destruct (guards b) eqn:Eg; [|by eapply Hsame].
      assert (Hl : forall v p, <[w := Picked b now]> (workers s) !! v = Some p -> v = w /\ p = Picked b now \/ v <> w /\ workers s !! v = Some p).
      { intros v p Hp. apply list_lookup_insert_Some in Hp as [(-> & <- & _)|[? ?]]; auto. }
      unfold timed. rewrite Hrun. cbn [workers attempts results]. split; [|split].
      + intros v p a t [[-> ->]|[_ Hp]]%Hl Hx.
        * destruct Hx as [[Hx|[u Hx]]|[c' Hx]]; [|done|done]. injection Hx as -> ->. exists (Check w a t). split; [apply elem_of_app; right; by left|done].
        * destruct (T1 v p a t Hp Hx) as (x & ? & ?). exists x. split; [apply elem_of_app; by left|done].
      + intros v p a t [[-> ->]|[_ Hp]]%Hl Hx Hn; [by destruct Hx|]. by apply (T2 v p a t).
      + intros v v' p q a t u Hne [[-> ->]|[Hvw Hp]]%Hl [[-> ->]|[Hvw' Hq]]%Hl Hn Hck Hst; [done| |by destruct Hst|by apply (T3 v v' p q a t u)].
        destruct Hck as [Hx|[x Hx]]; [|done]. injection Hx as -> ->. right. rewrite (bool_decide_eq_false_2 (a ∈ results s)) in En by done.
        apply (twenty _ _ _ En). by apply (T2 v' q a u).
    - destruct (workers s !! w) as [[|b c|]|] eqn:Ew; try (by eapply Hsame).
      apply (timed_begin n es (Start w now) w b (Some c) now Ho IH eq_refl); [|by eapply lookup_lt_Some|done].
      intros t [= <-]. exists (Picked b c). split; [done|]. by left.
    - destruct (workers s !! w) as [[| |]|] eqn:Ew; try (by eapply Hsame).
      apply (timed_begin n es (Call w b now) w b None now Ho IH eq_refl); [done|by eapply lookup_lt_Some|done].
    - destruct (workers s !! w) as [[| |b c ts]|] eqn:Ew; try (by eapply Hsame).
      eapply (timed_idle _ _ _ _ w); [done|exact Hrun|done|done|]. intros a Ha. by right.
    - eapply (timed_idle _ _ _ _ w); [done|exact Hrun|done|done|done].
  Qed.
End C98.
(** With clocks that agree: if a worker has chosen, or executes, a call without a result that another process is executing,
    then it had checked the call before the other one recorded its start, or more than 20 seconds after. *)
Theorem C98_overlap_exactly : forall (A : Type) (eqA : EqDecision A) (guards : A -> bool) n es, in_order es ->
  let s := run guards (initial n) es in
  forall w v a c t u, w <> v -> a ∉ results s -> workers s !! v = Some (Running a c u) ->
  workers s !! w = Some (Picked a t) \/ (exists t', workers s !! w = Some (Running a (Some t) t')) -> (t <= u \/ u + 20 < t)%Q.
Proof.
  intros A eqA guards n es Ho s w v a c t u Hne Hr Hv Hw. destruct (timed_all guards n es Ho) as (_ & _ & T3).
  destruct Hw as [Hw|[t' Hw]]; (eapply (T3 w v); [done|exact Hw|exact Hv|done| |by exists c]); [by left|right; by exists t'].
Qed.
Print Assumptions C98_overlap_exactly.
(** A worker that looks at a call within 20 seconds of the start of a running execution leaves it alone. *)
Theorem C98_running_call_is_left_alone : forall (A : Type) (eqA : EqDecision A) (guards : A -> bool) n es, in_order es ->
  let s := run guards (initial n) es in
  forall w v a c u now, a ∉ results s -> workers s !! v = Some (Running a c u) -> (now <= u + 20)%Q -> step guards s (Check w a now) = s.
Proof.
  intros A eqA guards n es Ho s w v a c u now Hr Hv Hn. destruct (timed_all guards n es Ho) as (_ & T2 & _).
  cbn [step]. destruct (workers s !! w) as [[| |]|]; try done. case_decide; [|done]. rewrite (bool_decide_eq_false_2 (a ∈ results s)) by done.
  destruct (needs_execution _ _ _) eqn:En; [|done]. exfalso. assert (Hu : u ∈ attempts s a) by (apply (T2 v _ a u Hv); [by exists c|done]).
  pose proof (twenty _ _ _ En Hu). lra.
Qed.
Print Assumptions C98_running_call_is_left_alone.
(** "Returns False if some other process is currently working on it" (needs_execution): not so, in two ways. *)
Theorem C98_working_on_it_refuted :
  (exists es s, in_order es /\ s = run (fun _ : nat => true) (initial 2) es /\ workers s = [Running 7 (Some 1%Q) 1%Q; Running 7 (Some 1%Q) 1%Q]) /\
  (exists es s, in_order es /\ s = run (fun _ : nat => true) (initial 2) es /\ workers s = [Running 7 (Some 1%Q) 1%Q; Running 7 (Some 30%Q) 30%Q]).
Proof.
  assert (Hmk : forall es : list (event nat), (fix ok (l : list (event nat)) (t : Q) := match l with [] => true | e :: l' => match time_of e with Some u => Qle_bool t u && ok l' u | None => ok l' t end end) es 0%Q = true -> in_order es).
  { intros es. generalize 0%Q. intros t0 Hok.
    assert (Hgen : forall l t, (fix ok (l : list (event nat)) (t : Q) := match l with [] => true | e :: l' => match time_of e with Some u => Qle_bool t u && ok l' u | None => ok l' t end end) l t = true ->
      in_order l /\ forall i x u, l !! i = Some x -> time_of x = Some u -> (t <= u)%Q).
    { clear. induction l as [|e l IH]; intros t Hok; [split; [by intros [] []|by intros []]|].
      assert (Hrest : exists t', (t <= t')%Q /\ in_order l /\ (forall i x u, l !! i = Some x -> time_of x = Some u -> (t' <= u)%Q) /\ (forall u, time_of e = Some u -> (t <= u)%Q /\ (u <= t')%Q)).
      { destruct (time_of e) as [u|] eqn:Ee.
        - apply andb_prop in Hok as [H1 H2]. apply Qle_bool_iff in H1. destruct (IH u H2). exists u. split; [done|]. split; [done|]. split; [done|]. intros u' [= <-]. split; [done|apply Qle_refl].
        - destruct (IH t Hok). exists t. split; [apply Qle_refl|]. done. }
      destruct Hrest as (t' & H1 & H2 & H3 & H4). split.
      - intros [|i] [|j] x y a b Hij Hx Hy Ha Hb; try lia; cbn in Hx, Hy.
        + injection Hx as <-. destruct (H4 a Ha). pose proof (H3 j y b Hy Hb). lra.
        + apply (H2 i j x y a b); [lia|done..].
      - intros [|i] x u Hx Hu; cbn in Hx; [injection Hx as <-; by apply H4|]. pose proof (H3 i x u Hx Hu). lra. }
    by apply (Hgen es t0). }
  split.
  - exists [Request 7; Check 0 7 1%Q; Check 1 7 1%Q; Start 0 1%Q; Start 1 1%Q], (run (fun _ => true) (initial 2) [Request 7; Check 0 7 1%Q; Check 1 7 1%Q; Start 0 1%Q; Start 1 1%Q]).
    split; [by apply Hmk|]. split; [done|]. by vm_compute.
  - exists [Request 7; Check 0 7 1%Q; Start 0 1%Q; Check 1 7 30%Q; Start 1 30%Q], (run (fun _ => true) (initial 2) [Request 7; Check 0 7 1%Q; Start 0 1%Q; Check 1 7 30%Q; Start 1 30%Q]).
    split; [by apply Hmk|]. split; [done|]. by vm_compute.
Qed.
Print Assumptions C98_working_on_it_refuted.
