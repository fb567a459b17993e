(** Proofs for C134. *)
From stdpp Require Import gmap.
From Verif Require Import Lib.Py Model.Collisions Spec.CollisionsSpec.
Local Open Scope nat_scope.

Section proofs.
Context {A V F : Type} `{eqA : EqDecision A, eqV : EqDecision V, eqF : EqDecision F}.
Context (text_of : item A V F -> A) (run_body : F -> V -> V).
Notation world := (world A V F).
Notation store := (store text_of). Notation call := (call text_of run_body). Notation address := (address text_of).

(** values and records are never replaced *)
Definition grows (w w' : world) : Prop := (forall t i, values w t = Some i -> values w' t = Some i) /\ (forall k r, records w k = Some r -> records w' k = Some r).
Lemma grows_refl (w : world) : grows w w. Proof. by split. Qed.
Lemma grows_trans w1 w2 w3 : grows w1 w2 -> grows w2 w3 -> grows w1 w3.
Proof. intros [H1 H2] [H3 H4]. split; eauto. Qed.
Lemma upd_same {X} (a : A) (x : X) m : upd a x m a = Some x. Proof. unfold upd. by rewrite decide_True. Qed.
Lemma upd_grows {X} (a : A) (x : X) m b y : m a = None -> m b = Some y -> upd a x m b = Some y.
Proof. intros H1 H2. unfold upd. destruct (decide (b = a)) as [->|]; congruence. Qed.
Lemma store_grows c i w : grows w (fst (store c i w)).
Proof. unfold store, Collisions.store. destruct (values w (text_of i)) eqn:E; [apply grows_refl|]. split; [|done]. intros t j H. simpl. by apply upd_grows. Qed.
Lemma record_grows c k r (w : world) : grows w (fst (record c k r w)).
Proof. unfold record. destruct (records w k) eqn:E; [apply grows_refl|]. split; [done|]. intros t j H. simpl. by apply upd_grows. Qed.
Lemma address_grows d f v w : grows w (fst (address d f v w)).
Proof.
  unfold address, Collisions.address. pose proof (store_grows (d_arg d) (Data v) w) as H1. destruct (store _ _ _) as [w1 [va|e]]; [|done].
  pose proof (store_grows (d_fn d) (Func f) w1) as H2. destruct (store _ (Func f) _) as [w2 [fa|e]]; [|by eapply grows_trans].
  pose proof (store_grows (d_sig d) (Signature fa va) w2) as H3. eapply grows_trans; [exact H1|]. by eapply grows_trans.
Qed.
Lemma call_grows d f v w : grows w (fst (call d f v w)).
Proof.
  unfold call, Collisions.call. pose proof (address_grows d f v w) as H1. destruct (address d f v w) as [w1 [k|e]]; [|done]. simpl in H1.
  assert (G : forall b, grows w (fst (let '(w2, ra) := store (d_res d) (Data (run_body f v)) w1 in match ra with Err e => (w2, Err e) | Ok a =>
    let '(w3, ru) := record b k a w2 in (w3, match ru with Ok _ => Ok (run_body f v) | Err e => Err e end) end))).
  { intros b. pose proof (store_grows (d_res d) (Data (run_body f v)) w1) as H2. destruct (store _ _ w1) as [w2 [a|e]]; [|by eapply grows_trans].
    pose proof (record_grows b k a w2) as H3. destruct (record b k a w2) as [w3 ru]. eapply grows_trans; [exact H1|]. by eapply grows_trans. }
  destruct (records w1 k); [|apply G]. destruct (d_again d); [apply G|done].
Qed.
Lemma step_grows s w : grows w (do_step text_of run_body s w).
Proof.
  destruct s as [c v|d f v|d f v|d k]; simpl; [apply store_grows|apply address_grows|apply call_grows|].
  unfold work. destruct (values w k) as [[| |fa va]|]; try apply grows_refl. destruct (values w fa) as [[v|f|]|], (values w va) as [[v'|f'|]|]; try apply grows_refl. apply call_grows.
Qed.
Lemma run_grows ops : forall w, grows w (run text_of run_body w ops).
Proof. induction ops as [|s ops IH]; intros w; [apply grows_refl|]. eapply grows_trans; [apply step_grows|apply IH]. Qed.

(** the invariant of checked histories: records tell the truth *)
Definition filed (w : world) : Prop := forall t i, values w t = Some i -> text_of i = t.
Definition truthful (w : world) : Prop := filed w /\ forall k r, records w k = Some r -> exists fa va f v,
  values w k = Some (Signature fa va) /\ values w fa = Some (Func f) /\ values w va = Some (Data v) /\ values w r = Some (Data (run_body f v)).

Lemma store_filed c i w : filed w -> filed (fst (store c i w)).
Proof.
  intros H. unfold store, Collisions.store. destruct (values w (text_of i)) eqn:E; [done|]. intros t j. simpl. unfold upd.
  destruct (decide (t = text_of i)) as [->|]; [by intros [= <-]|apply H].
Qed.
Lemma store_records c i w : records (fst (store c i w)) = records w.
Proof. unfold store, Collisions.store. by destruct (values w (text_of i)). Qed.
Lemma store_truthful c i w : truthful w -> truthful (fst (store c i w)).
Proof.
  intros [H1 H2]. split; [by apply store_filed|]. rewrite store_records. intros k r Hr. destruct (H2 k r Hr) as (fa & va & f & v & E1 & E2 & E3 & E4).
  destruct (store_grows c i w) as [G _]. exists fa, va, f, v. repeat split; by apply G.
Qed.
(** a compared store succeeds with the item in its place, or finds another one *)
Lemma store_checked i w : match store true i w with
  | (w', Ok t) => t = text_of i /\ values w' t = Some i /\ ~ taken text_of w i
  | (w', Err e) => w' = w /\ e = AssertionError /\ taken text_of w i end.
Proof.
  unfold store, Collisions.store. destruct (values w (text_of i)) as [j|] eqn:E; simpl.
  - destruct (decide (j = i)) as [->|N]; [split; [done|]; split; [done|]; intros (j & E' & N); congruence|]. split; [done|]. split; [done|]. by exists j.
  - split; [done|]. split; [apply upd_same|]. intros (j & E' & N). congruence.
Qed.
Lemma address_checked d f v w : compares d -> truthful w -> match address d f v w with
  | (w', Ok k) => truthful w' /\ k = text_of_call text_of f v /\ values w' k = Some (Signature (text_of (Func f)) (text_of (Data v))) /\
      values w' (text_of (Func f)) = Some (Func f) /\ values w' (text_of (Data v)) = Some (Data v)
  | (w', Err e) => truthful w' /\ e = AssertionError end.
Proof.
  intros (C1 & C2 & C3 & C4) T. unfold address, Collisions.address. rewrite C1, C2, C3.
  pose proof (store_truthful true (Data v) w T) as T1. pose proof (store_checked (Data v) w) as H1. destruct (store true (Data v) w) as [w1 [va|e]]; [|by destruct H1 as (_ & -> & _)].
  destruct H1 as (-> & V1 & _). simpl in T1.
  pose proof (store_truthful true (Func f) w1 T1) as T2. pose proof (store_checked (Func f) w1) as H2. pose proof (store_grows true (Func f) w1) as [G2 _].
  destruct (store true (Func f) w1) as [w2 [fa|e]]; [|by destruct H2 as (_ & -> & _)]. destruct H2 as (-> & V2 & _). simpl in T2, G2.
  set (s := Signature _ _). pose proof (store_truthful true s w2 T2) as T3. pose proof (store_checked s w2) as H3. pose proof (store_grows true s w2) as [G3 _].
  destruct (store true s w2) as [w3 [k|e]]; [|by destruct H3 as (_ & -> & _)]. destruct H3 as (-> & V3 & _). simpl in T3, G3.
  split; [done|]. split; [done|]. split; [done|]. split; auto.
Qed.
Lemma record_truthful c k f v w : truthful w -> values w k = Some (Signature (text_of (Func f)) (text_of (Data v))) ->
  values w (text_of (Func f)) = Some (Func f) -> values w (text_of (Data v)) = Some (Data v) ->
  values w (text_of (Data (run_body f v))) = Some (Data (run_body f v)) -> truthful (fst (record c k (text_of (Data (run_body f v))) w)) /\
  snd (record c k (text_of (Data (run_body f v))) w) = Ok tt /\ records (fst (record c k (text_of (Data (run_body f v))) w)) k = Some (text_of (Data (run_body f v))).
Proof.
  intros [H1 H2] E1 E2 E3 E4. unfold record. destruct (records w k) as [r'|] eqn:Er; simpl.
  - destruct (H2 k r' Er) as (fa & va & f' & v' & F1 & F2 & F3 & F4). assert (f' = f /\ v' = v) as [-> ->] by (split; congruence).
    pose proof (H1 _ _ F4) as ->. destruct c; [rewrite decide_True by done|]; split; try done; by split.
  - split; [|split; [done|apply upd_same]]. split; [done|]. simpl. intros k' r. unfold upd. destruct (decide (k' = k)) as [->|]; [|apply H2]. intros [= <-]. eauto 10.
Qed.
Lemma call_checked d f v w : compares d -> truthful w -> match call d f v w with
  | (w', Ok r) => truthful w' /\ r = run_body f v /\ get (text_of_call text_of f v) w' = Ok r /\
       values w' (text_of_call text_of f v) = Some (Signature (text_of (Func f)) (text_of (Data v))) /\
      values w' (text_of (Func f)) = Some (Func f) /\ values w' (text_of (Data v)) = Some (Data v)
  | (w', Err e) => truthful w' /\ e = AssertionError end.
Proof.
  intros C T. unfold call, Collisions.call. pose proof (address_checked d f v w C T) as H. destruct (address d f v w) as [w1 [k|e]]; [|done].
  destruct H as (T1 & -> & E1 & E2 & E3). set (k := text_of_call text_of f v) in *.
  assert (X : forall b, match (let '(w2, ra) := store (d_res d) (Data (run_body f v)) w1 in match ra with Err e => (w2, Err e) | Ok a =>
    let '(w3, ru) := record b k a w2 in (w3, match ru with Ok _ => Ok (run_body f v) | Err e => Err e end) end) with
    | (w', Ok r) => truthful w' /\ r = run_body f v /\ get k w' = Ok r /\ values w' k = Some (Signature (text_of (Func f)) (text_of (Data v))) /\
      values w' (text_of (Func f)) = Some (Func f) /\ values w' (text_of (Data v)) = Some (Data v)
    | (w', Err e) => truthful w' /\ e = AssertionError end).
  { intros b. destruct C as (_ & _ & _ & ->). pose proof (store_truthful true (Data (run_body f v)) w1 T1) as T2. pose proof (store_checked (Data (run_body f v)) w1) as H2.
    pose proof (store_grows true (Data (run_body f v)) w1) as [G2 _]. destruct (store true _ w1) as [w2 [a|e]]; [|by destruct H2 as (_ & -> & _)]. destruct H2 as (-> & V2 & _).
    simpl in T2, G2. destruct (record_truthful b k f v w2 T2) as (T3 & R3 & K3); auto. pose proof (record_grows b k (text_of (Data (run_body f v))) w2) as [G3 _].
    destruct (record b k _ w2) as [w3 ru]. simpl in *. subst ru. split; [done|]. split; [done|]. split; [|auto].
    unfold get. rewrite K3. unfold load. by rewrite (G3 _ _ V2). }
  destruct (records w1 k) as [r|] eqn:Er; [|apply X]. destruct (d_again d); [apply X|].
  destruct T1 as [F1 F2]. destruct (F2 k r Er) as (fa & va & f' & v' & P1 & P2 & P3 & P4). assert (f' = f /\ v' = v) as [-> ->] by (split; congruence).
  unfold get at 1. rewrite Er. unfold load. rewrite P4. split; [by split|]. split; [done|]. split; [|auto]. unfold get. rewrite Er. unfold load. by rewrite P4.
Qed.
Lemma step_truthful s w : step_compares s -> truthful w -> truthful (do_step text_of run_body s w).
Proof.
  destruct s as [c v|d f v|d f v|d k]; simpl; intros C T.
  - by apply store_truthful.
  - pose proof (address_checked d f v w C T) as H. destruct (Collisions.address text_of d f v w) as [w' [x|e]]; apply H.
  - pose proof (call_checked d f v w C T) as H. destruct (Collisions.call text_of run_body d f v w) as [w' [x|e]]; apply H.
  - unfold work. destruct (values w k) as [[| |fa va]|]; try done. destruct (values w fa) as [[v|f|]|], (values w va) as [[v'|f'|]|]; try done.
    pose proof (call_checked d f v' w C T) as H. destruct (Collisions.call text_of run_body d f v' w) as [w' [x|e]]; apply H.
Qed.
(** exactly when a call is refused *)
Lemma store_origin c i w t j : values (fst (store c i w)) t = Some j -> values w t = Some j \/ j = i.
Proof. unfold store, Collisions.store. destruct (values w (text_of i)) eqn:E; [by left|]. simpl. unfold upd. destruct (decide (t = text_of i)); [intros [= <-]; by right|by left]. Qed.
Definition at_home (w : world) (i : item A V F) : Prop := values w (text_of i) = Some i.
Lemma no_clash w w' (l : list (item A V F)) : filed w -> grows w w' -> (forall i, i ∈ l -> at_home w' i) -> ~ clash text_of w l.
Proof.
  intros Hf [G _] H (i & j & Hi & N & E & [Hj|Hj]); pose proof (H i Hi) as Hi'; unfold at_home in *.
  - pose proof (H j Hj) as Hj'. unfold at_home in Hj'. rewrite E in Hj'. congruence.
  - apply G in Hj. congruence.
Qed.
Lemma err_clash (w w1 : world) (before : list (item A V F)) i (l : list (item A V F)) : filed w1 -> (forall t j, values w1 t = Some j -> values w t = Some j \/ j ∈ before) -> (forall x, x ∈ before -> x ∈ l) -> i ∈ l ->
  taken text_of w1 i -> clash text_of w l.
Proof.
  intros Hf O S Hi (j & Hj & N). exists i, j. split; [done|]. split; [done|]. split; [by apply Hf|]. destruct (O _ _ Hj) as [H|H]; [by right|left; auto].
Qed.
Lemma call_refused d f v w : compares d -> truthful w ->
  match call d f v w with
  | (_, Ok _) => ~ clash text_of w [Data v; Func f; Signature (text_of (Func f)) (text_of (Data v)); Data (run_body f v)]
  | (_, Err _) => clash text_of w [Data v; Func f; Signature (text_of (Func f)) (text_of (Data v)); Data (run_body f v)] end.
Proof.
  intros C T. pose proof C as (C1 & C2 & C3 & C4). pose proof (call_checked d f v w C T) as K. pose proof (call_grows d f v w) as G.
  destruct (call d f v w) as [w' [r|e]] eqn:E.
  - destruct K as ([Hf' H'] & -> & Hg & E1 & E2 & E3). apply (no_clash w w'); [apply T|done|].
    intros i Hi. rewrite !elem_of_cons, elem_of_nil in Hi. destruct Hi as [->|[->|[->|[->|[]]]]]; try done.
    unfold get in Hg. destruct (records w' _) as [r|] eqn:Er; [|done]. destruct (H' _ _ Er) as (fa & va & f' & v' & P1 & P2 & P3 & P4).
    assert (f' = f /\ v' = v) as [-> ->] by (split; congruence). unfold at_home. by rewrite (Hf' _ _ P4).
  - clear K G. unfold call, Collisions.call, address, Collisions.address in E. rewrite C1, C2, C3, C4 in E.
    set (l := [Data v; _; _; _]). 
    pose proof (store_truthful true (Data v) w T) as T1. pose proof (store_checked (Data v) w) as H1. pose proof (store_origin true (Data v) w) as O1.
    destruct (store true (Data v) w) as [w1 [va|e1]].
    2:{ destruct H1 as (_ & _ & H1). apply (err_clash w w [] (Data v) l); [apply T|auto|intros x Hx; by apply elem_of_nil in Hx|left|done]. }
    destruct H1 as (-> & V1 & _). simpl in T1, O1.
    pose proof (store_truthful true (Func f) w1 T1) as T2. pose proof (store_checked (Func f) w1) as H2. pose proof (store_origin true (Func f) w1) as O2. pose proof (store_grows true (Func f) w1) as [G2 _].
    destruct (store true (Func f) w1) as [w2 [fa|e2]].
    2:{ destruct H2 as (_ & _ & H2). apply (err_clash w w1 [Data v] (Func f) l); [apply T1| | |right; left|done].
        - intros t j Hj. destruct (O1 t j Hj) as [|Hx]; [by left|right; rewrite Hx; left].
        - intros x Hx. apply elem_of_list_singleton in Hx. rewrite Hx. left. }
    destruct H2 as (-> & V2 & _). simpl in T2, O2, G2. set (s := Signature _ _) in *.
    pose proof (store_truthful true s w2 T2) as T3. pose proof (store_checked s w2) as H3. pose proof (store_origin true s w2) as O3. pose proof (store_grows true s w2) as [G3 _].
    assert (Q2 : forall t j, values w2 t = Some j -> values w t = Some j \/ j ∈ [Data v; Func f]).
    { intros t j Hj. destruct (O2 t j Hj) as [Hj'|Hx]; [destruct (O1 t j Hj') as [|Hx]; [by left|]|]; right; rewrite Hx; [left|right; left]. }
    destruct (store true s w2) as [w3 [k|e3]].
    2:{ destruct H3 as (_ & _ & H3). apply (err_clash w w2 [Data v; Func f] s l); [apply T2|done| |right; right; left|done].
        intros x Hx. rewrite !elem_of_cons, elem_of_nil in Hx. destruct Hx as [->|[->|[]]]; [left|right; left]. }
    destruct H3 as (-> & V3 & _). simpl in T3, O3, G3.
    assert (Q3 : forall t j, values w3 t = Some j -> values w t = Some j \/ j ∈ [Data v; Func f; s]).
    { intros t j Hj. destruct (O3 t j Hj) as [Hj'|Hx]; [destruct (Q2 t j Hj') as [|Hx]; [by left|]; right|right; rewrite Hx; right; right; left].
      rewrite !elem_of_cons, elem_of_nil in Hx. destruct Hx as [->|[->|[]]]; [left|right; left]. }
    assert (X : forall b, fst (let '(w2, ra) := store true (Data (run_body f v)) w3 in match ra with Err e => (w2, Err e) | Ok a =>
      let '(w4, ru) := record b (text_of s) a w2 in (w4, match ru with Ok _ => Ok (run_body f v) | Err e => Err e end) end) = w' ->
      snd (let '(w2, ra) := store true (Data (run_body f v)) w3 in match ra with Err e => (w2, Err e) | Ok a =>
      let '(w4, ru) := record b (text_of s) a w2 in (w4, match ru with Ok _ => Ok (run_body f v) | Err e => Err e end) end) = Err e -> clash text_of w l).
    { intros b _. pose proof (store_truthful true (Data (run_body f v)) w3 T3) as T4. pose proof (store_checked (Data (run_body f v)) w3) as H4. pose proof (store_grows true (Data (run_body f v)) w3) as [G4 _].
      destruct (store true (Data (run_body f v)) w3) as [w4 [a|e4]].
      - destruct H4 as (-> & V4 & _). simpl in T4, G4. destruct (record_truthful b (text_of s) f v w4 T4) as (_ & R & _); auto.
        destruct (record b _ _ w4) as [w5 ru]. simpl in *. subst ru. discriminate.
      - intros _. destruct H4 as (_ & _ & H4). apply (err_clash w w3 [Data v; Func f; s] (Data (run_body f v)) l); [apply T3|done| |right; right; right; left|done].
        intros x Hx. rewrite !elem_of_cons, elem_of_nil in Hx. destruct Hx as [->|[->|[->|[]]]]; [left|right; left|right; right; left]. }
    destruct (records w3 (text_of s)) as [r|] eqn:Er.
    + destruct (d_again d); [eapply (X true); by rewrite E|]. destruct T3 as [F1 F2]. destruct (F2 _ _ Er) as (fa & va & f' & v' & P1 & P2 & P3 & P4).
      unfold get in E. rewrite Er in E. unfold load in E. rewrite P4 in E. discriminate.
    + eapply (X false); by rewrite E.
Qed.
Lemma empty_truthful : truthful empty. Proof. by split. Qed.
Lemma run_truthful ops : forall w, checked ops -> truthful w -> truthful (run text_of run_body w ops).
Proof. induction ops as [|s ops IH]; intros w C T; [done|]. inversion C; subst. apply IH; [done|]. by apply step_truthful. Qed.
Lemma run_app w ops ops' : run text_of run_body w (ops ++ ops') = run text_of run_body (run text_of run_body w ops) ops'.
Proof. unfold run. apply fold_left_app. Qed.
End proofs.
