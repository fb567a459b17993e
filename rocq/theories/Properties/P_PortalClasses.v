(** C111: asking for portals of a class; C11: how portal-aware objects get their portal. *)
From Verif.Lib Require Import Py DictLemmas.
From Verif.Model Require Import Portals.
From Verif.Spec Require Import PortalSpec.
From Verif.Proofs Require Import PortalsP.
From stdpp Require Import relations.

(** The class statements: logging_portals.py:92, data_portals.py:15, ordinary_core_classes.py:19, safe_core_classes.py:12,
    autonomous_core_classes.py:35, pure_core_classes.py:44, swarming_portals.py, default_local_portal.py. *)
Definition parent (c : pclass) : option pclass :=
  match c with
  | BasicPortal => None
  | LoggingPortal => Some BasicPortal
  | DataPortal => Some LoggingPortal
  | OrdinaryCodePortal => Some DataPortal
  | SafeCodePortal => Some OrdinaryCodePortal
  | AutonomousCodePortal => Some SafeCodePortal
  | PureCodePortal => Some AutonomousCodePortal
  | SwarmingPortal => Some PureCodePortal
  | DefaultLocalPortal => Some SwarmingPortal
  end.
Definition subclass : pclass -> pclass -> Prop := rtc (fun c d => parent c = Some d).
Theorem C111_isinstance_is_subclass : forall c d, instance_of c d = true <-> subclass c d.
Proof.
  intros c d. split.
  - intros H. unfold instance_of in H. apply Nat.leb_le in H. unfold subclass.
    destruct c, d; cbn in H; try (exfalso; lia); repeat (first [apply rtc_refl|eapply rtc_l; [reflexivity|]]).
  - intros H. induction H as [c|c e d H _ IH]; [destruct c; reflexivity|]. unfold instance_of in *. apply Nat.leb_le. apply Nat.leb_le in IH.
    destruct c, e; try discriminate; cbn in *; lia.
Qed.
Print Assumptions C111_isinstance_is_subclass.

(** The class a call gives to the portal it registers. *)
Definition created_class (o : op) : pclass := match o with ONew c => c | _ => DefaultLocalPortal end.
Definition classes_inv (s : pstate) : Prop := forall i, default_instance s = Some i -> i < next_id s /\ class_of s i = DefaultLocalPortal.
Definition class_in (os : dict nat portal) (j : nat) : pclass := match dict_get j os with Some o => po_class o | None => BasicPortal end.
Lemma class_in_set os i o j : class_in (dict_set i o os) j = if decide (j = i) then po_class o else class_in os j.
Proof. unfold class_in. rewrite dict_get_set. by destruct (decide (j = i)). Qed.
Lemma class_in_clear os p j : class_in (clear_object os p) j = class_in os j.
Proof.
  unfold clear_object. destruct (dict_get p os) as [o|] eqn:E; [|done]. rewrite class_in_set. destruct (decide (j = p)) as [->|]; [|done]. cbn. unfold class_in. by rewrite E.
Qed.
Lemma class_in_clears l os j : class_in (fold_left clear_object l os) j = class_in os j.
Proof. revert os. induction l as [|p l IH]; intros os; [done|]. cbn. by rewrite IH, class_in_clear. Qed.
(** a step keeps the classes of all portals there are *)
Record keeps (s s' : pstate) (cr : option nat) (c : pclass) : Prop := Keeps {
  k_inv : classes_inv s';
  k_next : next_id s <= next_id s';
  k_class : forall i, i < next_id s -> class_of s' i = class_of s i;
  k_created : forall i, cr = Some i -> i < next_id s' /\ class_of s' i = c
}.
Lemma keeps_same s s' c : classes_inv s -> objects s' = objects s -> next_id s' = next_id s -> default_instance s' = default_instance s -> keeps s s' None c.
Proof. intros Hi Ho Hn Hd. constructor; [|lia| |done]. { intros i. rewrite Hd. intros H. apply Hi in H. rewrite Hn. unfold class_of. rewrite Ho. done. } intros i _. unfold class_of. by rewrite Ho. Qed.
Lemma keeps_new s p c ap st cs di cc : classes_inv s -> di = default_instance s \/ (di = Some (next_id s) /\ po_class p = DefaultLocalPortal) -> po_class p = c ->
  keeps s (PState (dict_set (next_id s) p (objects s)) (S (next_id s)) ap st cs di cc) (Some (next_id s)) c.
Proof.
  intros Hi Hd Hc. assert (Hcl : forall i, i < next_id s -> class_in (dict_set (next_id s) p (objects s)) i = class_of s i).
  { intros i Hlt. rewrite class_in_set, decide_False by lia. done. }
  constructor; cbn [next_id default_instance].
  - intros i E. cbn in E. destruct Hd as [->|[-> Hp]].
    + apply Hi in E as [H1 H2]. split; [cbn; lia|]. change (class_in (dict_set (next_id s) p (objects s)) i = DefaultLocalPortal). by rewrite Hcl.
    + injection E as <-. split; [cbn; lia|]. change (class_in (dict_set (next_id s) p (objects s)) (next_id s) = DefaultLocalPortal). by rewrite class_in_set, decide_True.
  - lia.
  - exact Hcl.
  - intros i [= <-]. split; [lia|]. change (class_in (dict_set (next_id s) p (objects s)) (next_id s) = c). by rewrite class_in_set, decide_True.
Qed.
Lemma keeps_weaken s s' i c : keeps s s' (Some i) c -> keeps s s' None c.
Proof. intros []. by constructor. Qed.
Lemma keeps_default s s' i b : classes_inv s -> default_local_portal s = (s', i, b) -> keeps s s' (if b then Some i else None) DefaultLocalPortal.
Proof.
  intros Hi. unfold default_local_portal. destruct (default_instance s) as [j|] eqn:Ed; destruct (decide (0 < calls_counter s)); intros [= <- <- <-].
  - by apply keeps_same.
  - pose proof (Hi j Ed) as [H1 H2]. assert (Hcl : forall i, class_in (dict_set j (Portal DefaultLocalPortal true) (objects s)) i = class_of s i).
    { intros i. rewrite class_in_set. destruct (decide (i = j)) as [->|]; [by rewrite H2|done]. }
    constructor; cbn [next_id].
    + intros i [= <-]. split; [done|]. etransitivity; [exact (Hcl j)|done].
    + lia.
    + intros i _. exact (Hcl i).
    + intros i [= <-]. split; [done|]. etransitivity; [exact (Hcl j)|done].
  - eapply keeps_weaken. apply keeps_new; [done|right; done|done].
  - apply keeps_new; [done|right; done|done].
Qed.
Lemma exit_same p s : same_rest s (fst (exit_portal p s)).
Proof. unfold exit_portal. destruct (stack s); [done|]. destruct (decide _); [|done]. destruct (counters s); [done|]. by destruct (decide _). Qed.
Lemma exit_loop_same fuel : forall s, same_rest s (fst (exit_all_loop fuel s)).
Proof.
  induction fuel as [|fuel IH]; intros s; cbn; destruct (stack s) as [|p st] eqn:E; try done. pose proof (exit_same p s) as H. destruct (exit_portal p s) as [s1 [u|e]]; [|done].
  cbn in H. pose proof (IH s1) as H1. unfold same_rest in *. naive_solver congruence.
Qed.
Lemma keeps_step s o s' x : classes_inv s -> step s o = (s', x) -> keeps s s' (created x) (created_class o).
Proof.
  intros Hi. destruct o as [c|p|p| |sg| |cls]; cbn [step created_class].
  - intros [= <- <-]. cbn [created]. apply keeps_new; [done|by left|done].
  - intros [= <- <-]. pose proof (enter_rest p s) as H. unfold same_rest in H. apply keeps_same; naive_solver.
  - pose proof (exit_same p s) as H. destruct (exit_portal p s) as [s1 r]. intros [= <- <-]. cbn in H. unfold same_rest in H. apply keeps_same; naive_solver.
  - pose proof (exit_loop_same (list_sum (counters s)) s) as H. unfold exit_all. destruct (exit_all_loop _ s) as [s1 r]. intros [= <- <-]. cbn in H. unfold same_rest in H. apply keeps_same; naive_solver.
  - destruct (best_portal sg s) as [[s1 p] b] eqn:E. intros [= <- <-]. cbn [created]. unfold best_portal in E. destruct sg as [q|]; [injection E as <- <- <-; by apply keeps_same|].
    destruct (most_recently_entered (Some BasicPortal) s) as [[q|]|]; [injection E as <- <- <-; by apply keeps_same|..];
      (destruct (most_recently_added s); [injection E as <- <- <-; by apply keeps_same|by apply keeps_default]).
  - destruct (default_local_portal s) as [[s1 p] b] eqn:E. intros [= <- <-]. cbn [created]. by apply keeps_default.
  - intros [= <- <-]. cbn [created]. unfold clear_all. set (os := fold_left clear_object _ _).
    assert (Hcl : forall i, class_in os i = class_of s i) by (intros i; apply class_in_clears).
    destruct (match cls with DefaultLocalPortal => (None, 0) | _ => (default_instance s, calls_counter s) end) as [di cc] eqn:E.
    assert (Hdi : di = None \/ di = default_instance s) by (destruct cls; injection E as <- <-; auto). clear E.
    constructor; cbn [next_id]; [|lia|intros i _; exact (Hcl i)|done].
    intros i Hd. cbn in Hd. destruct Hdi as [->| ->]; [done|]. apply Hi in Hd as [H1 H2]. split; [done|]. etransitivity; [exact (Hcl i)|done].
Qed.
Lemma keeps_run ops : forall s s' xs, classes_inv s -> run s ops = (s', xs) ->
  next_id s <= next_id s' /\ (forall i, i < next_id s -> class_of s' i = class_of s i) /\
  forall k o x i, ops !! k = Some o -> xs !! k = Some x -> created x = Some i -> class_of s' i = created_class o.
Proof.
  induction ops as [|o ops IH]; intros s s' xs Hi H; cbn in H.
  - injection H as <- <-. split; [lia|]. split; [done|]. intros k o x i Hk. done.
  - destruct (step s o) as [s1 x] eqn:Es. destruct (run s1 ops) as [s2 ys] eqn:Er. injection H as <- <-. destruct (keeps_step s o s1 x Hi Es) as [K1 K2 K3 K4].
    destruct (IH s1 s2 ys K1 Er) as (R1 & R2 & R3). split; [lia|]. split.
    + intros i Hlt. rewrite R2 by lia. by apply K3.
    + intros k o' x' i Ho Hx Hc. destruct k as [|k]; [|by apply (R3 k o' x' i)]. cbn in Ho, Hx. injection Ho as <-. injection Hx as <-. destruct (K4 i Hc) as [H1 H2]. rewrite R2 by done. done.
Qed.
(** A portal keeps the class it was created with, whatever happens: entering, leaving, resets, other portals. *)
Theorem C111_class_for_life : forall ops s xs, run init_state ops = (s, xs) ->
  forall k o x i, ops !! k = Some o -> xs !! k = Some x -> created x = Some i -> class_of s i = created_class o.
Proof. intros ops s xs H. by apply (keeps_run ops init_state s xs). Qed.
Print Assumptions C111_class_for_life.

(** Asking a class for the current portal: the current portal if it belongs to the class, None if no portal is entered, and an
    exception otherwise - also if a portal of the class is entered further out. *)
Theorem C111_current_of_class : forall ops s v c, history ops s v ->
  (forall p, current v = Some p -> subclass (class_of s p) c -> most_recently_entered (Some c) s = Ok (Some p)) /\
  (forall p, current v = Some p -> ~ subclass (class_of s p) c -> most_recently_entered (Some c) s = Err AssertionError) /\
  (current v = None -> most_recently_entered (Some c) s = Ok None).
Proof.
  intros ops s v c H. pose proof (current_ok ops s v H) as Hc. unfold most_recently_entered in *.
  destruct (stack s) as [|q st]; injection Hc as Hc; rewrite <- Hc; (split; [|split]); try done.
  - intros p [= <-] Hs. apply C111_isinstance_is_subclass in Hs. by rewrite Hs.
  - intros p [= <-] Hs. destruct (instance_of (class_of s q) c) eqn:E; [|done]. by apply C111_isinstance_is_subclass in E.
Qed.
Print Assumptions C111_current_of_class.
(** Asking for the entered, or the other, portals of a class: all of them if all belong to the class, otherwise an exception. *)
Theorem C111_lists_of_class : forall ops s v c, history ops s v ->
  ((forall p, p ∈ open v -> subclass (class_of s p) c) -> entered_portals (Some c) s = Ok (first_occurrences (open v))) /\
  ((exists p, p ∈ open v /\ ~ subclass (class_of s p) c) -> entered_portals (Some c) s = Err AssertionError) /\
  ((forall p, p ∈ noncurrent v -> subclass (class_of s p) c) -> noncurrent_portals (Some c) s = Ok (noncurrent v)) /\
  ((exists p, p ∈ noncurrent v /\ ~ subclass (class_of s p) c) -> noncurrent_portals (Some c) s = Err AssertionError).
Proof.
  intros ops s v c H. rewrite (entered_ok ops s v (Some c) H), (noncurrent_ok ops s v (Some c) H).
  assert (Hgen : forall l, ((forall p, p ∈ l -> subclass (class_of s p) c) -> forallb (fun p => instance_of (class_of s p) c) l = true) /\
    ((exists p, p ∈ l /\ ~ subclass (class_of s p) c) -> forallb (fun p => instance_of (class_of s p) c) l = false)).
  { intros l. split.
    - intros Hl. apply forallb_forall. intros p Hp%elem_of_list_In. by apply C111_isinstance_is_subclass, Hl.
    - intros (p & Hp & Hn). apply not_true_iff_false. intros Ht. rewrite forallb_forall in Ht. apply Hn, C111_isinstance_is_subclass, Ht. by apply elem_of_list_In. }
  destruct (Hgen (first_occurrences (open v))) as [E1 E2]. destruct (Hgen (noncurrent v)) as [E3 E4]. split; [|split; [|split]].
  - intros Hl. rewrite E1; [done|]. intros p Hp. by apply Hl, first_occ_in.
  - intros (p & Hp & Hn). rewrite E2; [done|]. exists p. split; [by apply first_occ_in|done].
  - intros Hl. by rewrite E3.
  - intros Hl. by rewrite E4.
Qed.
Print Assumptions C111_lists_of_class.
(** with DataPortal(): with LoggingPortal(): - the current portal is no DataPortal, although one is entered *)
Example C111_example : exists s v, history [ONew DataPortal; ONew LoggingPortal; OEnter 0; OEnter 1] s v /\ current v = Some 1 /\ class_of s 1 = LoggingPortal /\
  most_recently_entered (Some DataPortal) s = Err AssertionError /\ most_recently_entered (Some LoggingPortal) s = Ok (Some 1) /\ noncurrent_portals (Some DataPortal) s = Ok [0].
Proof. eexists _, _. split; [eexists; split; reflexivity|]. repeat split. Qed.

(** C11: a new portal-aware object is bound to the suggested portal, else by the priority of C10. *)
Theorem C11_new_object : forall ops s v data, history ops s v ->
  (forall p, aware_new (Some p) data s = (s, Aware (Some p) data)) /\
  (forall p, current v = Some p -> aware_new None data s = (s, Aware (Some p) data)) /\
  (forall p, current v = None -> last (known v) = Some p -> aware_new None data s = (s, Aware (Some p) data)) /\
  (current v = None -> known v = [] -> aware_new None data s = let '(s', i, _) := default_local_portal s in (s', Aware (Some i) data)).
Proof.
  intros ops s v data H. destruct (best_priority ops s v H) as (H1 & H2 & H3 & H4). unfold aware_new. split; [|split; [|split]].
  - intros p. by rewrite H1.
  - intros p Hp. by rewrite (H2 p Hp).
  - intros p Hp Hk. by rewrite (H3 p Hp Hk).
  - intros Hp Hk. by rewrite H4.
Qed.
Print Assumptions C11_new_object.
(** C11: a copy is bound to the current portal, not to that of the original; it has the same data. *)
Theorem C11_copy_uses_current_portal : forall ops s v (a : aware), history ops s v -> aware_copy a s = Ok (Aware (current v) (aw_data a)).
Proof. intros ops s v a H. unfold aware_copy. by apply (restore_rebinds ops s v a). Qed.
Print Assumptions C11_copy_uses_current_portal.
(** C11: an object that has a portal keeps it: asking for the portal changes nothing, and capturing another one is refused. *)
Theorem C11_bound_for_life : forall s (a : aware) p, aw_portal a = Some p -> aware_portal a s = Ok (Some p, a) /\ capture_portal a s = Err AssertionError.
Proof. intros s a p H. unfold aware_portal, capture_portal. rewrite H. done. Qed.
Print Assumptions C11_bound_for_life.
