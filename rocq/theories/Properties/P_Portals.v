(** C05 - C12: portals. *)
From Verif.Lib Require Import Py.
From Verif.Model Require Import Portals.
From Verif.Spec Require Import PortalSpec.
From Verif.Proofs Require Import PortalsP.

(** A non-trivial history used as witness below: three portals, nested and repeated enters, a failed exit. *)
Definition demo_ops : list op :=
  [ONew DataPortal; ONew SwarmingPortal; OBest None; OEnter 0; OEnter 0; OEnter 1; OEnter 0; OExit 1; ONew BasicPortal].
Example demo_history : exists s v, history demo_ops s v
  /\ open v = [0; 1; 0; 0] /\ known v = [0; 1; 2] /\ current v = Some 0.
Proof. eexists _, _. split; [exists (snd (run init_state demo_ops)); split; vm_compute; reflexivity|]. vm_compute. auto. Qed.

(** C05: any block-structured program ends with the same stack of entered portals (both internal lists and
    everything observable about it), and 'with portal' never changes the outcome (which exception, if any). *)
Theorem C05_with_blocks_restore_stack : forall ops s v, history ops s v -> forall pr,
  exists s', exec pr s = (s', plain_outcome pr)
    /\ stack s' = stack s /\ counters s' = counters s
    /\ most_recently_entered None s' = most_recently_entered None s
    /\ entered_portals None s' = entered_portals None s.
Proof. intros ops s v H pr. exact (exec_restores_history ops s v pr H). Qed.
Print Assumptions C05_with_blocks_restore_stack.

Example C05_example :
  let pr := PWith 0 (PSeq (PTry (PWith 1 (PWith 1 (PWithNew DataPortal (PRaise (UserExn 7))))) (PWith 0 PSkip))
                          (PWithBest None (PRaise ValueError))) in
  exists s v, history demo_ops s v /\ snd (exec pr s) = Some ValueError /\ stack (fst (exec pr s)) = [0; 1; 0].
Proof. eexists _, _. split; [exists (snd (run init_state demo_ops)); split; vm_compute; reflexivity|]. vm_compute. auto. Qed.

(** C06: after every history of calls the current portal is the innermost open 'with' of the user's view. *)
Theorem C06_current_is_innermost : forall ops s v, history ops s v ->
  most_recently_entered None s = Ok (current v).
Proof. exact current_ok. Qed.
Print Assumptions C06_current_is_innermost.

(** C06: an exit succeeds exactly for the current portal. *)
Theorem C06_exit_succeeds_iff_current : forall ops s v p, history ops s v ->
  snd (exit_portal p s) = Ok tt <-> current v = Some p.
Proof. exact exit_outcome. Qed.
Print Assumptions C06_exit_succeeds_iff_current.

(** C06: k enters of the same portal need exactly k exits. *)
Theorem C06_k_enters_need_k_exits : forall ops s v p k j, history ops s v -> j <= k ->
  forall s', fst (run s (repeat (OEnter p) k ++ repeat (OExit p) j)) = s' ->
  most_recently_entered None s' = Ok (if j <? k then Some p else current v).
Proof. exact k_enters_k_exits. Qed.
Print Assumptions C06_k_enters_need_k_exits.

(** C07: exiting a portal that is not current raises and changes nothing at all. *)
Theorem C07_out_of_order_exit_rejected : forall ops s v p, history ops s v -> current v <> Some p ->
  exists e, exit_portal p s = (s, Err e).
Proof. exact bad_exit. Qed.
Print Assumptions C07_out_of_order_exit_rejected.

(** C07: exit-all terminates without error, empties the stack and keeps the registry and all portals. *)
Theorem C07_exit_all_empties_stack : forall ops s v, history ops s v -> exists s', exit_all s = (s', Ok tt)
  /\ most_recently_entered None s' = Ok None /\ entered_portals None s' = Ok []
  /\ all_portals s' = all_portals s /\ objects s' = objects s.
Proof. exact exit_all_ok. Qed.
Print Assumptions C07_exit_all_empties_stack.

(** C08: the entered portals, innermost first, once each (AssertionError if one is not of the asked class). *)
Theorem C08_entered_portals_exact : forall ops s v c, history ops s v ->
  entered_portals c s =
  if forallb (fun p => match c with Some c => instance_of (class_of s p) c | None => true end)
             (first_occurrences (open v))
  then Ok (first_occurrences (open v)) else Err AssertionError.
Proof. exact entered_ok. Qed.
Print Assumptions C08_entered_portals_exact.

(** C08: [first_occurrences] has no repetition and exactly the same members. *)
Theorem C08_first_occurrences_nodup : forall l, NoDup (first_occurrences l).
Proof. exact first_occ_nodup. Qed.
Print Assumptions C08_first_occurrences_nodup.
Theorem C08_first_occurrences_members : forall x l, x ∈ first_occurrences l <-> x ∈ l.
Proof. exact first_occ_in. Qed.
Print Assumptions C08_first_occurrences_members.

(** C09: the non-current portals are the known ones except the current one, in creation order. *)
Theorem C09_noncurrent_portals_exact : forall ops s v c, history ops s v ->
  noncurrent_portals c s =
  if forallb (fun p => match c with Some c => instance_of (class_of s p) c | None => true end) (noncurrent v)
  then Ok (noncurrent v) else Err AssertionError.
Proof. exact noncurrent_ok. Qed.
Print Assumptions C09_noncurrent_portals_exact.

Theorem C09_known_portals_nodup : forall ops s v, history ops s v -> NoDup (known v).
Proof. exact known_nodup. Qed.
Print Assumptions C09_known_portals_nodup.

(** C10: selection priority: explicit, current, most recently created, default. *)
Theorem C10_portal_selection_priority : forall ops s v, history ops s v ->
  (forall p, best_portal (Some p) s = (s, p, false))
  /\ (forall p, current v = Some p -> best_portal None s = (s, p, false))
  /\ (forall p, current v = None -> last (known v) = Some p -> best_portal None s = (s, p, false))
  /\ (current v = None -> known v = [] -> best_portal None s = default_local_portal s).
Proof. exact best_priority. Qed.
Print Assumptions C10_portal_selection_priority.

(** C10: in the last case the default portal is created and becomes (the only) known portal, for histories
    whose resets go through DefaultLocalPortal (otherwise see C12). *)
Theorem C10_default_becomes_known_partial : forall ops s v, history ops s v -> resets_through_default ops ->
  current v = None -> known v = [] ->
  exists s' i, best_portal None s = (s', i, true) /\ dict_values (all_portals s') = [i]
    /\ dict_get i (objects s') = Some (Portal DefaultLocalPortal true).
Proof. exact default_created. Qed.
Print Assumptions C10_default_becomes_known_partial.

(** C11: a restored (or copied) object is bound to the portal that is current at that moment, whatever it was
    bound to before; its other state is kept. *)
Theorem C11_restored_object_uses_current_portal : forall ops s v (a : aware), history ops s v ->
  aware_setstate (aware_getstate a) s = Ok (Aware (current v) (aw_data a)).
Proof. exact restore_rebinds. Qed.
Print Assumptions C11_restored_object_uses_current_portal.

(** C11: an object without a portal binds to the current one when its portal is next asked for. *)
Theorem C11_late_binding : forall ops s v (a : aware), history ops s v -> aw_portal a = None ->
  aware_portal a s = Ok (current v, Aware (current v) (aw_data a)).
Proof. exact late_binding. Qed.
Print Assumptions C11_late_binding.

(** C11 is false for value addresses: they override [portal] and stay without a portal for ever. *)
Theorem C11_value_address_never_rebinds_refuted : exists ops s v (a : aware),
  history ops s v /\ current v = Some 0 /\ aw_portal a = None
  /\ value_addr_portal a s = Ok (None, a).
Proof.
  exact (ex_intro _ [ONew DataPortal; OEnter 0] (ex_intro _ _ (ex_intro _ _ (ex_intro _ (Aware None 5)
    (conj (ex_intro _ (snd (run init_state [ONew DataPortal; OEnter 0])) (conj eq_refl eq_refl))
          (conj eq_refl (conj eq_refl eq_refl))))))).
Qed.
Print Assumptions C11_value_address_never_rebinds_refuted.

(** C12 (partial): if all resets go through DefaultLocalPortal, then DefaultLocalPortal() always yields a
    working portal of that class known to the system.  Missing: resets through another class, see below. *)
Theorem C12_default_portal_usable_partial : forall ops s v, history ops s v -> resets_through_default ops ->
  forall s' i b, default_local_portal s = (s', i, b) ->
  i ∈ dict_values (all_portals s') /\ dict_get i (objects s') = Some (Portal DefaultLocalPortal true).
Proof. exact default_usable. Qed.
Print Assumptions C12_default_portal_usable_partial.

(** C12 is false in general: after pth.initialize (a reset through BasicPortal) the default portal is
    a cleared portal that no one knows. *)
Theorem C12_default_portal_after_reset_refuted : exists ops s v, history ops s v /\
  exists s' i b, default_local_portal s = (s', i, b)
  /\ all_portals s' = [(1, 1)] /\ i = 0 /\ dict_get i (objects s') = Some (Portal DefaultLocalPortal false).
Proof.
  exact (ex_intro _ [ODefault; OClearAll BasicPortal; ONew SwarmingPortal; OEnter 1] (ex_intro _ _ (ex_intro _ _
    (conj (ex_intro _ (snd (run init_state [ODefault; OClearAll BasicPortal; ONew SwarmingPortal; OEnter 1])) (conj eq_refl eq_refl))
     (ex_intro _ _ (ex_intro _ _ (ex_intro _ _ (conj eq_refl (conj eq_refl (conj eq_refl eq_refl)))))))))).
Qed.
Print Assumptions C12_default_portal_after_reset_refuted.

Example C12_example : exists ops s v, history ops s v /\ resets_through_default ops /\ length ops = 4
  /\ snd (fst (default_local_portal s)) = 2.
Proof.
  exists [ODefault; ONew PureCodePortal; OEnter 0; OClearAll DefaultLocalPortal].
  eexists _, _. split; [eexists; split; [vm_compute; reflexivity|reflexivity]|].
  split; [|split; [done|vm_compute; done]].
  intros cls H. repeat (apply elem_of_cons in H as [H|H]; [by inversion H|]). by apply elem_of_nil in H.
Qed.
