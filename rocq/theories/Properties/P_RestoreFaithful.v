(** Restoring pickled functions: what is restored is what was pickled.  C112. *)
From Coq Require Import String Sorted.
From stdpp Require Import gmap.
From Verif Require Import Lib.Py Lib.DictLemmas Model.PyAst Model.Normalizer Model.NamesAnalyzer Model.CallGraph Model.Registry.
From Verif.Spec Require Import RegistrySpec.
From Verif.Proofs Require Import RegistryP RegistryInvP RegistryOpsP RegistryRunP RegistryFaithP.
From Verif.Properties Require Import P_Registry P_RegistryExamples.
Local Open Scope nat_scope.

Section Faithful.
  Variable normalise : bool -> string -> res string.
  Variable names_of : string -> res ana.
  Variable name_of : string -> res string.
  Variable builtins : gset string.
  Variable ord : nat -> gset string -> list string.
  Variable default_island : nat -> string.
  Notation get_state := (get_state normalise names_of builtins ord).
  Notation set_state := (set_state normalise names_of name_of builtins ord default_island).
  Notation reachable := (reachable normalise names_of name_of builtins ord default_island).
  Notation run := (run normalise names_of name_of builtins ord default_island).
  Hypothesis sens : sensible normalise names_of name_of ord.

  (** C112.  Whatever the session knows already: if a pickled pure function can be restored at all, pickling the restored function
      gives the name, source, island, guards and the sources of all functions it needs that were in the pickled state, and changes
      nothing.  (The strictness flag is found out again.) *)
  Theorem C112_restored_is_pickled : forall name src isl aug strictly guards p s s' self, reachable s ->
    honest_state name_of (PickPure name src isl aug strictly guards) ->
    set_state (PickPure name src isl aug strictly guards) p s = (s', Ok self) ->
    exists b, get_state self s' = (s', Ok (PickPure name src isl aug b guards)).
  Proof.
    intros name src isl aug strictly guards p s s' self Hs. destruct sens as [H1 H2 H3].
    intros Hh Hr. apply (restored_same normalise names_of name_of builtins False ord default_island H1 H2 H3) in Hr as [Hr _]; [done| |done].
    by apply (reachable_inv normalise names_of name_of builtins ord default_island sens).
  Qed.

  (** The same for autonomous functions, strictness included. *)
  Theorem C112_restored_autonomous : forall name src isl strictly p s s' self, reachable s -> name_of src = Ok name ->
    set_state (PickAut name src isl strictly) p s = (s', Ok self) -> get_state self s' = (s', Ok (PickAut name src isl strictly)).
  Proof.
    intros name src isl strictly p s s' self Hs. eapply (restored_same_aut normalise names_of name_of builtins False ord default_island).
    by apply (reachable_inv normalise names_of name_of builtins ord default_island sens).
  Qed.

  (** Hence code is never mixed up: once a function of the session has been pickled, whatever happens afterwards, a pickled state of
      the same name for the same island can only be restored there if it has the same source, guards and sources of the functions
      it needs. *)
  Theorem C112_no_two_versions : forall s f me s1 name src isl aug b guards h src2 aug2 b2 guards2 s3 self, reachable s -> Forall (honest_op name_of) h ->
    heap s !! f = Some me -> get_state f s = (s1, Ok (PickPure name src isl aug b guards)) ->
    honest_state name_of (PickPure name src2 isl aug2 b2 guards2) ->
    set_state (PickPure name src2 isl aug2 b2 guards2) (o_portal me) (run h s1) = (s3, Ok self) ->
    src2 = src /\ aug2 = aug /\ guards2 = guards.
  Proof.
    intros s f me s1 name src isl aug b guards h src2 aug2 b2 guards2 s3 self Hs Hh Hm Hp Hx Hr. pose proof sens as [H1 H2 H3].
    assert (Hi : invx normalise names_of name_of builtins False None s) by by apply (reachable_inv normalise names_of name_of builtins ord default_island sens).
    destruct (pickled_settled normalise names_of name_of builtins False ord H1 H2 H3 s f me s1 name src isl aug b guards Hi Hm Hp) as (Hi1 & _ & Hset).
    destruct (run_ok normalise names_of name_of builtins False ord default_island H1 H2 H3 h s1 Hi1 Hh ltac:(done)) as [Hi2 He2].
    destruct (restored_same normalise names_of name_of builtins False ord default_island H1 H2 H3 _ _ _ _ _ _ _ _ _ _ Hi2 Hx Hr) as [_ Hset2].
    destruct (step_ok normalise names_of name_of builtins False ord default_island H1 H2 H3 (Unpickle (PickPure name src2 isl aug2 b2 guards2) (o_portal me)) (run h s1) s3 (Ok tt) Hi2 Hx ltac:(done)) as [_ He3].
    { cbn [step]. unfold bnd. by rewrite Hr. }
    eapply settled_unique; [|exact Hset2]. eapply settled_ev; [exact He3|]. eapply settled_ev; [exact He2|]. exact Hset.
  Qed.
End Faithful.
Print Assumptions C112_restored_is_pickled.
Print Assumptions C112_restored_autonomous.
Print Assumptions C112_no_two_versions.

(** A pickled function [f] that needs [h]; restored in an empty session, in one that has both, and after its first call *)
Definition pickled_f : pickled := PickPure "f" "def f(): return h()" "Samos" [(DPure "Samos" None, "def f(): return h()"); (DAut false "Samos", "def h(): return 1")] false None.
Example C112_ex_state : (STATE 1 (RUN [autonomous "def h(): return 1"; pure "def f(): return h()" None])).2 = Ok pickled_f /\ honest_state nmo pickled_f.
Proof. split; [by vm_compute|]. split; [by vm_compute|done]. Qed.
Example C112_ex_restored : forall h, h ∈ [[]; [autonomous "def h(): return 1"; pure "def f(): return h()" None]; [autonomous "def h(): return 1"; pure "def f(): return h()" None; Call 1]] ->
  REACHABLE (RUN h) /\ match RESTORE pickled_f (RUN h) with (s, Ok i) => STATE i s = (s, Ok pickled_f) | _ => False end.
Proof.
  intros h Hh. repeat (apply elem_of_cons in Hh as [->|Hh]; [split; [apply plain_reachable; plain|by vm_compute]|]). by inversion Hh.
Qed.
(** refused: the session has called another [h] (strictly autonomous, since it was called) and [f] *)
Example C112_ex_refused : (RESTORE pickled_f (RUN [autonomous "def h(): return 1"; pure "def f(): return h()" None; Call 0; Call 1])).2 = Err AssertionError.
Proof. by vm_compute. Qed.
(** an autonomous function *)
Example C112_ex_aut : let x := PickAut "h" "def h(): return 1" "Samos" false in
  match RESTORE x (RUN [autonomous "def h(): return 1"]) with (s, Ok i) => STATE i s = (s, Ok x) | _ => False end.
Proof. by vm_compute. Qed.
