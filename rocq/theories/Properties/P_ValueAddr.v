(** C17 - C22: value addresses.  [text_of] gives the address text of a value; [collision_free] says that different
    values have different addresses.  [reachable w]: w arises by some history from correctly filled stores. *)
From Verif.Lib Require Import Py.
From Verif.Model Require Import ValueAddr HashAddr.
From Verif.Spec Require Import ValueAddrSpec.
From Verif.Proofs Require Import ValueAddrP HashAddrP.
From stdpp Require Import sets.

(** a session with two portals at locations 1 and 2, the first one entered *)
Definition two_portals : list (op nat nat) := [ONewPortal 1; ONewPortal 2; OEnter 0].
Definition start (h : list (op nat nat)) : world nat nat := run id (init_world (fun _ => [])) h.
Lemma start_reachable h : reachable id (start h).
Proof. exists (fun _ => []), h. split; [|done]. intros l a v. done. Qed.
Lemma id_collision_free : collision_free (id : nat -> nat). Proof. intros v v' H. exact H. Qed.

(** C17: the address object of a stored value always gives the value back, after every further history (including
    dropping its cache). *)
Theorem C17_store_get_round_trip : forall A V (eqA : EqDecision A) (text_of : V -> A), collision_free text_of ->
  forall w v suggested w1 i, reachable text_of w -> opt_portal_exists w suggested = true ->
  new_of_value text_of v suggested w = (w1, Ok i) ->
  forall h, snd (get i (run text_of w1 h)) = Ok v.
Proof. intros A V eqA text_of Hc w v sg w1 i Hr He En h. by apply (round_trip text_of Hc w v sg w1 i h). Qed.
Print Assumptions C17_store_get_round_trip.
(** The portal to which a value goes: the one asked for; else the innermost entered one; outside of all [with] blocks the portal
    that was created last; the default portal - created now - if there is none. *)
Theorem C17_where_a_value_goes : forall A V (eqA : EqDecision A) (text_of : V -> A) w v suggested w1 i,
  reachable text_of w -> opt_portal_exists w suggested = true -> new_of_value text_of v suggested w = (w1, Ok i) ->
  let p := match suggested, head (open w) with
           | Some q, _ => q
           | None, Some q => q
           | None, None => length (places w) - 1
           end in
  bound_to w1 i (text_of v) p /\ (exists v', holds w1 p (text_of v) v') /\
  places w1 = (if bool_decide (suggested = None /\ head (open w) = None /\ places w = []) then [default_location] else places w).
Proof.
  intros A V eqA text_of w v sg w1 i Hr He En p.
  assert (inv text_of w) as Hi by by apply reachable_inv.
  unfold new_of_value in En. destruct (best sg w) as [w2 q] eqn:Eb.
  destruct (best_fine text_of _ _ _ _ Hi He Eb) as (_ & Hp & Hob & Hop & Hst).
  assert (q = p /\ places w2 = (if bool_decide (sg = None /\ head (open w) = None /\ places w = []) then [default_location] else places w)) as [-> Hpl].
  { unfold p. clear - Eb. unfold best, current in Eb. destruct sg as [s|].
    - injection Eb as <- <-. rewrite bool_decide_eq_false_2; [done|]. by intros (? & _).
    - destruct (head (open w)) as [h|].
      + injection Eb as <- <-. rewrite bool_decide_eq_false_2; [done|]. by intros (_ & ? & _).
      + destruct (places w) as [|x l] eqn:E; cbn in Eb; injection Eb as <- <-.
        * rewrite bool_decide_eq_true_2 by done. done.
        * rewrite bool_decide_eq_false_2 by (by intros (_ & _ & ?)). cbn. split; [lia|done]. }
  injection En as <- <-. rewrite <- Hpl. split; [|split].
  - eexists _, _. cbn. rewrite put_objs. by apply list_lookup_middle.
  - eexists. split; [cbn; by rewrite put_places|]. cbn. rewrite put_places.
    rewrite (put_get text_of). rewrite decide_True; [done|]. split; [done|done].
  - cbn. by rewrite put_places.
Qed.
Print Assumptions C17_where_a_value_goes.
(** Creation itself never fails. *)
Theorem C17_store_never_fails : forall A V (eqA : EqDecision A) (text_of : V -> A) w v suggested,
  exists w1 i, new_of_value text_of v suggested w = (w1, Ok i).
Proof. intros. unfold new_of_value. destruct (best suggested w) as [w1 p]. eauto. Qed.
Print Assumptions C17_store_never_fails.

(** C17 for derived addresses.  p is the portal the value was stored in.  A copy always works.  Any other address object
    with the same text, bound to portal c (unpickled while c was current, or rebuilt from its strings) works at every
    later moment at which p is c or p is not the current portal.
    MISSING: objects bound to another portal while p itself is current, and objects unpickled outside every 'with';
    there it is false, see below. *)
Theorem C17_derived_addresses_partial : forall A V (eqA : EqDecision A) (text_of : V -> A), collision_free text_of ->
  forall w v suggested w1 i h, reachable text_of w -> opt_portal_exists w suggested = true ->
  new_of_value text_of v suggested w = (w1, Ok i) ->
  exists p, bound_to w1 i (text_of v) p /\
    let w2 := run text_of w1 h in
    holds w2 p (text_of v) v /\
    (forall w3 j h', copy i w2 = (w3, Ok j) -> snd (get j (run text_of w3 h')) = Ok v) /\
    (forall w3 j c h', bound_to w3 j (text_of v) c -> reachable text_of w3 -> (exists h2, w3 = run text_of w2 h2) ->
        let w4 := run text_of w3 h' in p = c \/ current w4 <> Some p -> snd (get j w4) = Ok v).
Proof. intros A V eqA. exact round_trip_derived. Qed.
Print Assumptions C17_derived_addresses_partial.
(** value 7 stored in portal 0; its address pickled and restored while portal 1 is current, then read while portal 0
    is current: KeyError, although portal 0 holds the value *)
Definition restored_elsewhere : list (op nat nat) :=
  two_portals ++ [OValue 7 None; OEnter 1; OUnpickle 0; OExit].
Theorem C17_restored_address_fails_refuted : let w := start restored_elsewhere in
  bound_to w 1 7 1 /\ current w = Some 0 /\ holds w 0 7 7 /\ snd (get 1 w) = Err KeyError.
Proof. cbn zeta. split; [by exists false, None|]. repeat split; vm_compute; try done; lia. Qed.
Print Assumptions C17_restored_address_fails_refuted.
(** the same, restored outside every 'with': it is bound to no portal and can never be read, and asking whether it is
    ready fails *)
Theorem C17_restored_outside_with_fails_refuted : forall h,
  let w0 := start [ONewPortal 1; OValue 7 None; OUnpickle 0] in
  let w := run id w0 h in snd (get 1 w0) = Err KeyError /\ snd (ready 1 w0) = Err AttributeError /\
  exists r c, objs w !! 1 = Some (VAddr 7 None r c).
Proof.
  intros h. cbn zeta. split; [done|]. split; [done|]. set (w0 := start _).
  assert (Hi : inv id w0) by apply reachable_inv, start_reachable.
  destruct (run_fine id h w0 Hi) as (_ & He & _).
  destruct (He 1 (VAddr 7 None false None) eq_refl) as ([t p r c] & Ho & Ht & Hp). cbn in Ht, Hp. subst. eauto.
Qed.
Print Assumptions C17_restored_outside_with_fails_refuted.
Example C17_example : let h := two_portals ++ [OValue 7 None; OCopy 0; OEnter 1; OUnpickle 0; OInvalidate 0; OExternal 2 9] in
  let w := start h in bound_to w 2 7 1 /\ snd (get 0 w) = Ok 7 /\ snd (get 1 w) = Ok 7 /\ snd (get 2 w) = Ok 7
  /\ length (objs w) = 3 /\ dict_get 7 (stores w 2) = None.
Proof. cbn zeta. split; [by exists false, None|]. by vm_compute. Qed.

(** C18: in every reachable state all stores are content addressed, and nothing is ever removed or replaced. *)
Theorem C18_content_addressed_append_only : forall A V (eqA : EqDecision A) (text_of : V -> A) w h, reachable text_of w ->
  let w' := run text_of w h in
  (forall l, correct_store text_of (stores w' l)) /\
  (forall l a v, dict_get a (stores w l) = Some v -> dict_get a (stores w' l) = Some v).
Proof. intros A V eqA. exact append_only. Qed.
Print Assumptions C18_content_addressed_append_only.

(** C19: a value that is missing from the address's own portal c is taken from a portal that holds it; exactly this
    entry is added, at c's location; portals, stack and all other address objects are unchanged. *)
Theorem C19_cross_portal_copy : forall A V (eqA : EqDecision A) (text_of : V -> A) w, reachable text_of w ->
  forall i a c r, objs w !! i = Some (VAddr a (Some c) r None) -> (forall v, ~ holds w c a v) ->
  forall w' v, get i w = (w', Ok v) ->
  text_of v = a /\
  (exists q, q <> c /\ current w <> Some q /\ holds w q a v) /\
  adds_only (nth c (places w) 0) a v w w' /\ same_session w w' /\
  (forall j, j <> i -> objs w' !! j = objs w !! j).
Proof.
  intros A V eqA text_of w Hr i a c r Ho Hno w' v Eg. pose proof (reachable_inv text_of w Hr) as Hi. split.
  - exact (get_value_text text_of w i _ w' v Hi Ho Eg).
  - eapply (get_copies text_of w i a c); eauto. destruct r; auto.
Qed.
Print Assumptions C19_cross_portal_copy.
Example C19_example : let w := start (two_portals ++ [OValue 7 None; OEnter 1; OUnpickle 0]) in
  objs w !! 1 = Some (VAddr 7 (Some 1) false None) /\ (forall v, ~ holds w 1 7 v) /\
  let w' := fst (get 1 w) in snd (get 1 w) = Ok 7 /\ dict_get 7 (stores w' 2) = Some 7 /\ dict_get 7 (stores w 2) = None.
Proof. cbn zeta. split; [done|]. split; [|by vm_compute]. intros v [_ H]. by vm_compute in H. Qed.

(** C20: if ready says True then get succeeds, now and after every further history.  Proved for histories in which
    ValueAddr(address) is only applied to addresses whose value is in their portal.  MISSING: without that
    restriction it is false, see below. *)
Theorem C20_ready_implies_gettable_partial : forall A V (eqA : EqDecision A) (text_of : V -> A), collision_free text_of ->
  forall st h i w1, (forall l, correct_store text_of (st l)) ->
  good_history text_of (init_world st) h -> ready i (run text_of (init_world st) h) = (w1, Ok true) ->
  forall h', good_history text_of w1 h' -> exists v, snd (get i (run text_of w1 h')) = Ok v.
Proof. intros A V eqA. exact ready_then_get. Qed.
Print Assumptions C20_ready_implies_gettable_partial.
(** ValueAddr applied to an address (rebuilt from strings, not asserted ready) whose value nobody has: the new address
    says it is ready and get raises. *)
Theorem C20_ready_but_not_gettable_refuted : let w := start (two_portals ++ [OStrings 7 false None; OAddr 0 None]) in
  snd (ready 1 w) = Ok true /\ snd (get 1 w) = Err KeyError /\ forall p v, ~ holds w p 7 v.
Proof.
  cbn zeta. split; [done|]. split; [done|]. intros p v [Hp Hh]. destruct p as [|[|p]]; [by vm_compute in Hh..|].
  vm_compute in Hp. lia.
Qed.
Print Assumptions C20_ready_but_not_gettable_refuted.
(** An address rebuilt from its strings with assert_readiness=True exists only if its portal holds the value; otherwise
    AssertionError, and then no portal that is its own or not current holds the value. *)
Theorem C20_asserted_readiness_checked : forall A V (eqA : EqDecision A) (text_of : V -> A) w a suggested w' r,
  reachable text_of w -> opt_portal_exists w suggested = true -> from_strings a true suggested w = (w', r) ->
  exists p, (forall q, suggested = Some q -> p = q) /\ p < length (places w') /\ open w' = open w /\
  match r with
  | Ok i => bound_to w' i a p /\ (forall j, objs w !! j <> None -> j <> i) /\ exists v, holds w' p a v
  | Err e => e = AssertionError /\ forall q v, holds w' q a v -> q <> p /\ current w' = Some q
  end.
Proof. intros A V eqA text_of w a sg w' r Hr. apply (from_strings_asserted text_of). by apply reachable_inv. Qed.
Print Assumptions C20_asserted_readiness_checked.
Example C20_asserted_example : let w := start (two_portals ++ [OValue 7 None]) in
  snd (from_strings 7 true (Some 1) w) = Err AssertionError /\ snd (from_strings 7 true (Some 0) w) = Ok 1 /\
  snd (from_strings 8 true (Some 0) w) = Err AssertionError.
Proof. by vm_compute. Qed.
Example C20_example : let h := two_portals ++ [OValue 7 None; OAddr 0 (Some 1); OStrings 7 true (Some 1)] in
  good_history id (init_world (fun _ => [])) h /\ snd (ready 1 (start h)) = Ok true /\ snd (ready 2 (start h)) = Ok true.
Proof.
  cbn zeta. split; [|by vm_compute]. cbn. split_and!; try done. intros a p r c H. injection H as <- <- <- <-.
  exists 7. split; [cbn; lia|]. by vm_compute.
Qed.

(** C21: get and ready in terms of the portals that hold the value.  A bound address fails exactly when no portal
    other than the current one holds its value and its own portal does not.  In particular get and ready succeed if
    the holder is the address's own portal or is not current (e.g. no portal is entered, or the address's portal is
    the current one).  MISSING: the holder is current and not the address's own portal: false, see below. *)
Theorem C21_get_finds_value_partial : forall A V (eqA : EqDecision A) (text_of : V -> A), collision_free text_of ->
  forall w, reachable text_of w -> forall i a c q v, bound_to w i a c -> holds w q a v -> q = c \/ current w <> Some q ->
  snd (get i w) = Ok v.
Proof. intros A V eqA text_of Hc w Hr i a c q v. apply (get_anywhere text_of w i c q v a Hc). by apply reachable_inv. Qed.
Print Assumptions C21_get_finds_value_partial.
Theorem C21_get_error_exact : forall A V (eqA : EqDecision A) (text_of : V -> A) w, reachable text_of w ->
  forall i a c, bound_to w i a c -> forall w' r, get i w = (w', r) ->
  same_session w w' /\
  match r with
  | Ok v => text_of v = a
  | Err e => e = KeyError /\ w' = w /\ forall q v, holds w q a v -> q <> c /\ current w = Some q
  end.
Proof. intros A V eqA text_of w Hr i a c. apply get_exact. by apply reachable_inv. Qed.
Print Assumptions C21_get_error_exact.
Theorem C21_ready_exact_partial : forall A V (eqA : EqDecision A) (text_of : V -> A) w, reachable text_of w ->
  forall i a c ca, objs w !! i = Some (VAddr a (Some c) false ca) -> forall w' r, ready i w = (w', r) ->
  same_session w w' /\
  (r = Ok true /\ (exists v, holds w' c a v) /\ (exists q v, (q = c \/ current w <> Some q) /\ holds w q a v)
   \/ r = Ok false /\ w' = w /\ forall q v, holds w q a v -> q <> c /\ current w = Some q).
Proof. intros A V eqA text_of w Hr i a c ca. apply (ready_exact text_of). by apply reachable_inv. Qed.
Print Assumptions C21_ready_exact_partial.
Theorem C21_value_of_current_portal_not_found_refuted :
  let w := start (two_portals ++ [OValue 7 None; OStrings 7 false (Some 1)]) in
  bound_to w 1 7 1 /\ holds w 0 7 7 /\ current w = Some 0 /\
  snd (ready 1 w) = Ok false /\ snd (get 1 w) = Err KeyError.
Proof. cbn zeta. split; [by exists false, None|]. split; [split; [vm_compute; lia|done]|]. by vm_compute. Qed.
Print Assumptions C21_value_of_current_portal_not_found_refuted.

(** C22: equality of addresses *)
Theorem C22_equal_iff_same_kind_and_text : forall V (a b : address V),
  addr_eq a b = true <-> kind a = kind b /\ str_chain a = str_chain b.
Proof. intros. unfold addr_eq. rewrite andb_true_iff, !bool_decide_eq_true. done. Qed.
Print Assumptions C22_equal_iff_same_kind_and_text.
Theorem C22_equivalence : forall V (a b c : address V),
  addr_eq a a = true /\ addr_eq a b = addr_eq b a /\ (addr_eq a b = true -> addr_eq b c = true -> addr_eq a c = true)
  /\ addr_ne a b = negb (addr_eq a b).
Proof.
  intros V a b c. unfold addr_eq, addr_ne. split_and!.
  - by rewrite !bool_decide_true.
  - f_equal; apply bool_decide_ext; split; congruence.
  - rewrite !andb_true_iff, !bool_decide_eq_true. intuition congruence.
  - done.
Qed.
Print Assumptions C22_equivalence.
Theorem C22_independent_of_portal_and_cache : forall V (k k' : nat) s s' (p p' q q' : option nat) (x x' y y' : option V),
  addr_eq (Address k s p x) (Address k' s' q y) = addr_eq (Address k s p' x') (Address k' s' q' y').
Proof. done. Qed.
Print Assumptions C22_independent_of_portal_and_cache.
Example C22_example : addr_eq (Address 0 ["int"; "ab"]%string (Some 1) (Some 5)) (Address 0 ["int"; "ab"]%string None None) = true
  /\ addr_eq (Address 0 ["int"; "ab"]%string None (None : option nat)) (Address 1 ["int"; "ab"]%string None None) = false.
Proof. by vm_compute. Qed.
