(** C101: fetching values, exactly. *)
From Verif.Lib Require Import Py.
From Verif.Model Require Import ValueAddr.
From Verif.Spec Require Import ValueAddrSpec.
From Verif.Proofs Require Import ValueAddrP ValueExactP.
From Verif.Properties Require Import P_ValueAddr.
From stdpp Require Import sets.

(** get() of any address object, at any moment of any history, returns v exactly if the object has a portal and that portal,
    or some portal that is not the current one, holds v under the address; otherwise it raises KeyError and changes nothing. *)
Theorem C101_get_exactly : forall A V (eqA : EqDecision A) (text_of : V -> A), collision_free text_of ->
  forall w i o, reachable text_of w -> objs w !! i = Some o ->
  (forall v, snd (get i w) = Ok v <-> exists p q, va_portal o = Some p /\ (q = p \/ current w <> Some q) /\ holds w q (va_text o) v) /\
  ((forall v, snd (get i w) <> Ok v) -> get i w = (w, Err KeyError)).
Proof. intros A V eqA text_of Hc w i o Hr Ho. split; [by apply (get_iff text_of w i o Hc Hr Ho)|by eapply (get_fails text_of)]. Qed.
Print Assumptions C101_get_exactly.
(** What get() has returned once it returns for ever, whatever is done to the session, to the stores or to the cache. *)
Theorem C101_get_for_ever : forall A V (eqA : EqDecision A) (text_of : V -> A), collision_free text_of ->
  forall w i w1 v, reachable text_of w -> get i w = (w1, Ok v) -> forall h, snd (get i (run text_of w1 h)) = Ok v.
Proof. intros A V eqA text_of Hc w i w1 v. by apply get_for_ever. Qed.
Print Assumptions C101_get_for_ever.
(** ready of an address object that has a portal and was not made by ValueAddr(address) is True exactly if get() would return a
    value; otherwise it is False and nothing changes. *)
Theorem C101_ready_exactly : forall A V (eqA : EqDecision A) (text_of : V -> A), collision_free text_of ->
  forall st h i o, (forall l, correct_store text_of (st l)) -> let w := run text_of (init_world st) h in
  objs w !! i = Some o -> ~ made_from_address text_of st h i -> va_portal o <> None ->
  (snd (ready i w) = Ok true <-> exists v, snd (get i w) = Ok v) /\ (snd (ready i w) = Ok true \/ ready i w = (w, Ok false)).
Proof. intros A V eqA text_of Hc st h i o Hst. by apply ready_iff. Qed.
Print Assumptions C101_ready_exactly.
(** An address object made by ValueAddr(address) says it is ready, whether or not anyone holds the value, until its cache is dropped. *)
Theorem C101_made_from_address_always_ready : forall A V (eqA : EqDecision A) (text_of : V -> A) w j s w1 i h,
  new_of_addr j s w = (w1, Ok i) -> OInvalidate i ∉ h -> snd (ready i (run text_of w1 h)) = Ok true.
Proof. intros A V eqA text_of w j s w1 i h. by apply vouched. Qed.
Print Assumptions C101_made_from_address_always_ready.
(** In every case, a value that get() would return is ready. *)
Theorem C101_gettable_is_ready : forall A V (eqA : EqDecision A) (text_of : V -> A), collision_free text_of ->
  forall w i v, reachable text_of w -> snd (get i w) = Ok v -> snd (ready i w) = Ok true.
Proof.
  intros A V eqA text_of Hc w i v Hr Hg. destruct (objs w !! i) as [o|] eqn:Ho; [|by unfold get in Hg; rewrite Ho in Hg].
  pose proof Hg as Hg'. apply (get_iff text_of w i o Hc Hr Ho) in Hg' as (p & q & Hp & Hq & Hl & Hh).
  destruct (ready i w) as [w' r] eqn:E. cbn. apply (ready_cases text_of _ _ _ _ _ Ho) in E. inversion E; subst; try done; [congruence|].
  exfalso. replace p0 with p in * by congruence. destruct Hq as [->|Hq].
  - unfold store_of, place, default_location in *. congruence.
  - match goal with H : forall q, _ -> _ -> dict_get _ _ = None |- _ => specialize (H q Hl Hq) end. unfold store_of, place, default_location in *. congruence.
Qed.
Print Assumptions C101_gettable_is_ready.
(** three address objects of value 7, which portal 0 holds while it is current: the first was made from the value, the second was
    rebuilt in portal 1, the third is ValueAddr of the second *)
Example C101_example : let h := two_portals ++ [OValue 7 None; OStrings 7 false (Some 1); OAddr 1 (Some 1)] in let w := start h in
  snd (get 0 w) = Ok 7 /\ snd (get 1 w) = Err KeyError /\ snd (ready 1 w) = Ok false /\ snd (ready 2 w) = Ok true /\
  snd (get 2 w) = Err KeyError /\ made_from_address id (fun _ => []) h 2 /\ snd (get 1 (step id w OExit)) = Ok 7.
Proof. cbn zeta. repeat split; try (by vm_compute). exists (two_portals ++ [OValue 7 None; OStrings 7 false (Some 1)]), 1, (Some 1), []. done. Qed.
