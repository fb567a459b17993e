(** C90: exactly when the default local portal can be used, and which portal is used when none is named. *)
From Verif.Lib Require Import Py.
From Verif.Model Require Import Portals.
From Verif.Spec Require Import PortalSpec.
From Verif.Proofs Require Import PortalsP.
From Verif.Lib Require Import DictLemmas.
From stdpp Require Import sets.

(** ** Specification: what has become of the default portal, read off the calls and what they showed *)
Inductive fate := NotMade | InUse (i : nat) | Cleared (i : nat).
Definition fate_step (t : fate) (o : op) (x : output) : fate :=
  match o, created x with
  | (ODefault | OBest _), Some i => InUse i                 (* the default portal was made *)
  | OClearAll DefaultLocalPortal, _ => NotMade              (* reset that forgets the default portal *)
  | OClearAll _, _ => match t with InUse i => Cleared i | _ => t end   (* reset that only clears it *)
  | _, _ => t
  end.
Fixpoint fate_from (t : fate) (ops : list op) (xs : list output) : fate :=
  match ops, xs with o :: ops', x :: xs' => fate_from (fate_step t o x) ops' xs' | _, _ => t end.
Definition fate_of (ops : list op) : fate := fate_from NotMade ops (snd (run init_state ops)).
Definition usable (s : pstate) (i : nat) : Prop :=
  i ∈ dict_values (all_portals s) /\ dict_get i (objects s) = Some (Portal DefaultLocalPortal true).

(** ** Proof *)
Definition tells (t : fate) (s : pstate) : Prop :=
  match t with
  | NotMade => default_instance s = None
  | InUse i => default_instance s = Some i /\ usable s i
  | Cleared i => default_instance s = Some i /\ i ∉ dict_values (all_portals s) /\ dict_get i (objects s) = Some (Portal DefaultLocalPortal false)
  end.
Lemma get_cleared l : forall os i, i ∉ l -> dict_get i (fold_left clear_object l os) = dict_get i os.
Proof.
  induction l as [|j l IH]; intros os i Hi; [done|]. cbn. rewrite IH by set_solver. unfold clear_object.
  destruct (dict_get j os); [|done]. rewrite dict_get_set. rewrite decide_False; [done|]. intros ->. set_solver.
Qed.
Lemma get_clear_in l : forall os i c b, i ∈ l -> dict_get i os = Some (Portal c b) -> dict_get i (fold_left clear_object l os) = Some (Portal c false).
Proof.
  induction l as [|j l IH]; intros os i c b Hi Hg; [by apply elem_of_nil in Hi|]. cbn.
  assert (H : dict_get i (clear_object os j) = Some (Portal c (if decide (i = j) then false else b))).
  { unfold clear_object. destruct (decide (i = j)) as [->|Hn].
    - rewrite Hg. by rewrite dict_get_set, decide_True.
    - destruct (dict_get j os); [|done]. rewrite dict_get_set. by rewrite decide_False. }
  destruct (decide (i ∈ l)) as [Hl|Hl]; [by eapply IH|]. apply elem_of_cons in Hi as [->|Hi]; [|done].
  rewrite get_cleared by done. by rewrite H, decide_True.
Qed.
Lemma tells_same t s s' : objects s' = objects s -> all_portals s' = all_portals s -> default_instance s' = default_instance s -> tells t s -> tells t s'.
Proof. intros E1 E2 E3. unfold tells, usable. by rewrite E1, E2, E3. Qed.
Lemma tells_call t s v s' i b : Rel s v -> tells t s -> default_local_portal s = (s', i, b) ->
  tells (if b then InUse i else t) s' /\ (usable s' i <-> forall j, t <> Cleared j).
Proof.
  intros (_ & (R1 & R2 & R3 & R4 & R5) & _ & _) Ht. unfold default_local_portal.
  destruct (default_instance s) as [j|] eqn:Hdi.
  - rewrite decide_True by (by apply (R4 j)). intros [= <- <- <-]. split; [done|]. destruct t as [|k|k]; cbn in Ht.
    + congruence.
    + destruct Ht as [Hk Hu]. assert (k = j) as -> by congruence. done.
    + destruct Ht as (Hk & Hn & Hg). assert (k = j) as -> by congruence. split; [intros [? _]; done|]. intros H. by destruct (H j).
  - rewrite decide_False by (rewrite R5 by done; lia). intros [= <- <- <-].
    destruct (register_fresh _ _ R1 R2 R3) as (Q1 & Q2 & Q3 & Q4).
    assert (Hu : usable (PState (dict_set (next_id s) (Portal DefaultLocalPortal true) (objects s)) (S (next_id s)) (dict_set (next_id s) (next_id s) (all_portals s))
      (stack s) (counters s) (Some (next_id s)) (S (calls_counter s))) (next_id s)).
    { split; cbn [all_portals objects default_instance]; [rewrite Q4; set_solver|]. by rewrite dict_get_set, decide_True. }
    split; [by split|]. split; [|done]. intros _ j ->. cbn in Ht. destruct Ht as [? _]. congruence.
Qed.
Lemma tells_step t s v o s' x : Rel s v -> tells t s -> step s o = (s', x) -> tells (fate_step t o x) s'.
Proof.
  intros HR Ht. pose proof HR as (Hw & (R1 & R2 & R3 & R4 & R5) & Ho & Hk).
  destruct o as [c|p|p| |sg| |cls]; cbn [step].
  - unfold new_portal. intros [= <- <-]. cbn [fate_step created]. destruct (register_fresh _ _ R1 R2 R3) as (Q1 & Q2 & Q3 & Q4).
    destruct t as [|i|i]; cbn [tells default_instance] in *; [done| |].
    + destruct Ht as (Hd & Hi & Hg). split; [done|]. destruct (R4 i Hd) as [H3 _]. split; cbn [all_portals objects default_instance]; [rewrite Q4; set_solver|]. by rewrite dict_get_set, decide_False by lia.
    + destruct Ht as (Hd & Hi & Hg). split; [done|]. destruct (R4 i Hd) as [H3 _]. split; cbn [all_portals objects default_instance].
      * rewrite Q4, elem_of_app, elem_of_list_singleton. intros [?|?]; [done|lia].
      * by rewrite dict_get_set, decide_False by lia.
  - intros [= <- <-]. pose proof (enter_rest p s) as (E1 & E2 & E3 & E4 & E5). by apply (tells_same t s).
  - pose proof (exit_spec p s Hw) as He. destruct (flat _ _) as [|q l].
    + rewrite He. by intros [= <- <-].
    + case_decide.
      * destruct He as (s1 & -> & _ & (E1 & E2 & E3 & E4 & E5) & _). intros [= <- <-]. by apply (tells_same t s).
      * rewrite He. by intros [= <- <-].
  - destruct (exit_all_spec (list_sum (counters s)) s Hw (le_n _)) as (s1 & He & S1 & C1 & (E1 & E2 & E3 & E4 & E5)).
    unfold exit_all. rewrite He. intros [= <- <-]. by apply (tells_same t s).
  - destruct (best_portal sg s) as [[s1 p] b] eqn:Hb. intros [= <- <-].
    assert (Hsame : s1 = s /\ b = false \/ default_local_portal s = (s1, p, b)).
    { revert Hb. unfold best_portal. destruct sg; [by intros [= <- <- <-]; left|].
      destruct (most_recently_entered (Some BasicPortal) s) as [[q|]|]; [by intros [= <- <- <-]; left|..];
        (destruct (most_recently_added s); [by intros [= <- <- <-]; left|by right]). }
    destruct Hsame as [[-> ->]|Hdl]; [done|]. destruct (tells_call t s v s1 p b HR Ht Hdl) as [H _]. by destruct b.
  - destruct (default_local_portal s) as [[s1 p] b] eqn:Hdl. intros [= <- <-]. destruct (tells_call t s v s1 p b HR Ht Hdl) as [H _]. by destruct b.
  - intros [= <- <-]. cbn [fate_step created]. assert (cls = DefaultLocalPortal \/ cls <> DefaultLocalPortal) as [->|Hcls] by (destruct cls; auto; right; done); [done|].
    assert (Ht' : tells (match t with InUse i => Cleared i | _ => t end) (clear_all cls s)).
    { assert (Hc : clear_all cls s = PState (fold_left clear_object (dict_values (all_portals s)) (objects s)) (next_id s) [] [] [] (default_instance s) (calls_counter s)).
      { unfold clear_all. by destruct cls. }
      rewrite Hc. destruct t as [|i|i]; cbn [tells default_instance all_portals objects] in *; [done| |].
      - destruct Ht as (Hd & Hi & Hg). split; [done|]. split; [by intros ?%elem_of_nil|]. by eapply get_clear_in.
      - destruct Ht as (Hd & Hi & Hg). split; [done|]. split; [by intros ?%elem_of_nil|]. by rewrite get_cleared. }
    by destruct cls.
Qed.
Lemma tells_run ops : forall t s v s' xs, Rel s v -> tells t s -> run s ops = (s', xs) -> tells (fate_from t ops xs) s'.
Proof.
  induction ops as [|o ops IH]; intros t s v s' xs HR Ht; cbn [run].
  - by intros [= <- <-].
  - destruct (step s o) as [s1 x] eqn:Hst. destruct (run s1 ops) as [s2 xs'] eqn:Hrun. intros [= <- <-]. cbn [fate_from].
    eapply IH; [by eapply step_Rel| |exact Hrun]. by eapply tells_step.
Qed.
(** After any history of calls, DefaultLocalPortal() gives a usable portal, registered among the known ones, exactly if the
    default portal was not cleared since it was made (by a reset through a base class); otherwise it gives the cleared one. *)
Theorem C90_default_portal_exactly : forall ops s v, history ops s v -> forall s' i b, default_local_portal s = (s', i, b) ->
  match fate_of ops with
  | NotMade => usable s' i /\ b = true
  | InUse j => usable s' i /\ b = false /\ i = j /\ s' = s
  | Cleared j => ~ usable s' i /\ b = false /\ i = j /\ s' = s
  end.
Proof.
  intros ops s v Hh s' i b Hd. pose proof (history_Rel _ _ _ Hh) as HR. destruct Hh as (xs & Hrun & ->).
  pose proof (tells_run ops NotMade init_state (View [] []) s xs Rel_init eq_refl Hrun) as Ht.
  unfold fate_of. rewrite Hrun. cbn [snd]. destruct (tells_call _ s _ s' i b HR Ht Hd) as [_ Hu].
  destruct HR as (_ & (R1 & R2 & R3 & R4 & R5) & _ & _). revert Hd. unfold default_local_portal.
  destruct (fate_from NotMade ops xs) as [|j|j]; cbn [tells] in Ht.
  - rewrite Ht. rewrite decide_False by (rewrite R5 by done; lia). intros [= <- <- <-]. split; [by apply Hu|done].
  - destruct Ht as [Hi _]. rewrite Hi. rewrite decide_True by (by apply (R4 j)). intros [= <- <- <-]. split; [by apply Hu|done].
  - destruct Ht as [Hi _]. rewrite Hi. rewrite decide_True by (by apply (R4 j)). intros [= <- <- <-]. split; [|done]. intros X. by apply (proj1 Hu X j).
Qed.
Print Assumptions C90_default_portal_exactly.
(** When no portal is named, the one used is: the innermost entered one; else the last one constructed; else the default
    portal.  A portal that is named is used. *)
Theorem C90_selected_portal_exactly : forall ops s v, history ops s v ->
  (forall p, best_portal (Some p) s = (s, p, false)) /\
  best_portal None s = match current v, last (known v) with
                       | Some p, _ => (s, p, false)
                       | None, Some p => (s, p, false)
                       | None, None => default_local_portal s
                       end.
Proof.
  intros ops s v Hh. destruct (best_priority ops s v Hh) as (H1 & H2 & H3 & H4). split; [done|].
  destruct (current v) as [p|]; [by apply H2|]. destruct (last (known v)) as [p|] eqn:El; [by apply H3|]. apply H4; [done|].
  destruct (known v) as [|x l]; [done|]. exfalso. destruct l as [|y l] using rev_ind; [done|]. rewrite app_comm_cons, last_snoc in El. done.
Qed.
Print Assumptions C90_selected_portal_exactly.
Example C90_example :
  fate_of [OBest None; OClearAll BasicPortal; OBest None; ONew SwarmingPortal] = Cleared 0 /\
  fate_of [OBest None; OClearAll DefaultLocalPortal; ODefault] = InUse 1 /\
  fate_of [ONew SwarmingPortal; OBest None] = NotMade.
Proof. by vm_compute. Qed.
