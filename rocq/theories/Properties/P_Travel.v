(** C138: a function restored elsewhere shares its results with the original, for good. *)
From Coq Require Import String Sorted.
From stdpp Require Import gmap.
From Verif Require Import Lib.Py Model.PyAst Model.Normalizer Model.NamesAnalyzer Model.CallGraph Model.Registry Model.AugText Model.PureAddr.
From Verif.Spec Require Import RegistrySpec RegistryExactSpec AugTextSpec PureAddrSpec.
From Verif.Proofs Require Import RegistryP RegistryInvP RegistryOpsP RegistryRunP RegistryRestoreP PureAddrP.
From Verif.Properties Require Import P_Registry P_RegistryExamples P_RestoreExact P_Edits.
Local Open Scope nat_scope.

Section Travel.
  Variable normalise : bool -> string -> res string.
  Variable names_of : string -> res ana.
  Variable name_of : string -> res string.
  Variable builtins : gset string.
  Variable ord : nat -> gset string -> list string.
  Variable default_island : nat -> string.
  Notation step := (step normalise names_of name_of builtins ord default_island).
  Notation run := (run normalise names_of name_of builtins ord default_island).
  Notation get_state := (get_state normalise names_of builtins ord).
  Notation set_state := (set_state normalise names_of name_of builtins ord default_island).
  Notation plainly_reachable := (plainly_reachable normalise names_of name_of builtins ord default_island).
  Notation regular := (regular normalise names_of name_of builtins ord default_island).
  Notation honest_op := (honest_op name_of).
  Hypothesis sens : sensible normalise names_of name_of ord.

  Lemma run_app h1 h2 s : run (h1 ++ h2) s = run h2 (run h1 s).
  Proof. revert s. induction h1 as [|o h1 IH]; intros s; [done|]. cbn. apply IH. Qed.
  Lemma regular_app h1 h2 s : regular h1 s -> regular h2 (run h1 s) -> regular (h1 ++ h2) s.
  Proof. revert s. induction h1 as [|o h1 IH]; intros s; [done|]. cbn. intros [H1 H2] H3. split; [done|]. by apply IH. Qed.
  (** one more operation *)
  Lemma plainly_step s o : plainly_reachable s -> honest_op o -> regular_op s o -> plainly_reachable (fst (step o s)).
  Proof.
    intros (ps & h & Hh & Hr & ->) Ho Hro. exists ps, (h ++ [o]). split; [by apply Forall_app_2; [|constructor]|]. split; [by apply regular_app; [|split]|]. by rewrite run_app.
  Qed.
  (** what a session pickles is an honest state *)
  Lemma pickled_honest s f s1 x : plainly_reachable s -> (exists me, heap s !! f = Some me /\ o_kind me = Pure) -> get_state f s = (s1, Ok x) -> honest_state name_of x.
  Proof.
    intros Hs (me & Hm & Hk) E. pose proof (plainly_inv normalise names_of name_of builtins ord default_island sens s Hs) as Hi. destruct sens as [H1 H2 H3].
    destruct x as [name src isl strictly|name src isl aug strictly guards].
    - exfalso. unfold Registry.get_state in E. rewrite (bnd_get _ _ _ _ Hm), Hk in E. unfold bnd at 1 in E. destruct (complete normalise names_of builtins ord f s) as [s2 [[]|]]; [|done].
      unfold bnd at 1 in E. destruct (get f s2) as [s3 [me3|]]; [|done]. unfold bnd at 1 in E. destruct (augmented_source f s3) as [s4 [aug|]]; done.
    - destruct (get_state_says normalise names_of name_of builtins True ord H1 H2 H3 s f s1 name src isl aug strictly guards I Hi E) as (_ & q & N & D & E0 & a & _ & _ & _ & _ & _ & _ & _ & _ & _ & Hn & _ & Hg). done.
  Qed.

  (** A pure function [f] of one session is pickled and restored in another session, which knew nothing of its island.  Whatever the two
      sessions do from then on, the original and the restored function pickle to the same state, and calls of the one have the addresses
      of the same calls of the other. *)
  Theorem C138_addresses_shared_for_good : forall s f s1 name src isl aug strictly guards t p, plainly_reachable s -> plainly_reachable t ->
    (exists me, heap s !! f = Some me /\ o_kind me = Pure) ->
    get_state f s = (s1, Ok (PickPure name src isl aug strictly guards)) ->
    (forall a, names_of src = Ok a -> strictly = bool_decide (required_names builtins name a = ∅)) ->
    (forall e, e ∈ aug -> normalise true e.2 = Ok e.2) -> guards_first name_of name aug ->
    (forall n, reg t (p, isl) n = None) ->
    exists t' self, set_state (PickPure name src isl aug strictly guards) p t = (t', Ok self) /\
    forall h h', Forall honest_op h -> regular h s1 -> Forall honest_op h' -> regular h' t' ->
    exists s2 t2 y y', get_state f (run h s1) = (s2, Ok y) /\ get_state self (run h' t') = (t2, Ok y') /\ y = y' /\
    forall D data_prefix hash_of (kw kw' : list (string * arg D)), acceptable kw -> acceptable kw' -> kw ≡ₚ kw' ->
      get_address data_prefix hash_of (as_fn_state y) kw = get_address data_prefix hash_of (as_fn_state y') kw'.
  Proof.
    intros * Hs Ht Hf Hget Hst Hno Hgf Hemp.
    destruct (C40_restore_partial normalise names_of name_of builtins ord default_island sens s f s1 name src isl aug strictly guards t p Hs Ht Hget Hst Hno Hgf Hemp)
      as (t' & Hrest & Hpick & _). set (x := PickPure name src isl aug strictly guards) in *. set (self := List.length (heap t)) in *.
    exists t', self. split; [done|]. intros h h' Hh Hr Hh' Hr'.
    assert (Hx : honest_state name_of x) by exact (pickled_honest s f s1 x Hs Hf Hget).
    assert (Ht' : plainly_reachable t').
    { assert (Es : fst (step (Unpickle x p) t) = t') by (cbn [Registry.step]; unfold bnd; by rewrite Hrest). rewrite <- Es. by apply plainly_step. }
    assert (Hself : exists me, heap t' !! self = Some me /\ o_kind me = Pure).
    { unfold Registry.get_state in Hpick. destruct (heap t' !! self) as [me|] eqn:Em; [|unfold bnd, get in Hpick; by rewrite Em in Hpick]. exists me. split; [done|].
      rewrite (bnd_get _ _ _ _ Em) in Hpick. by destruct (o_kind me). }
    destruct (C39_stable_partial normalise names_of name_of builtins ord default_island sens s f s1 x h Hs Hget Hf Hh Hr) as (s2 & E1).
    destruct (C39_stable_partial normalise names_of name_of builtins ord default_island sens t' self t' x h' Ht' Hpick Hself Hh' Hr') as (t2 & E2).
    exists s2, t2, x, x. split; [done|]. split; [done|]. split; [done|]. intros D data_prefix hash_of kw kw' A A' Hkw.
    rewrite !get_address_canonical by done. f_equal. apply canonical_perm; [apply A|done].
  Qed.
End Travel.
Print Assumptions C138_addresses_shared_for_good.

(** The hypotheses are met: b of [session1], which uses f, which uses h, restored in an empty session of another portal. *)
Definition b_blocks : list entry := [(DPure "Samos" None, "def b(): return f()"); (DAut false "Samos", "def f(): return h()"); (DAut false "Samos", "def h(): return 1")]%string.
Example C138_ex : PLAIN session1 /\ (exists me, heap session1 !! 1 = Some me /\ o_kind me = Pure) /\
  (STATE 1 session1).2 = Ok (PickPure "b" "def b(): return f()" "Samos" b_blocks false None)%string /\
  (forall a, nms "def b(): return f()"%string = Ok a -> false = bool_decide (required_names ∅ "b" a = ∅)) /\
  guards_first nmo "b" b_blocks /\ PLAIN (RUN []) /\ (forall n, reg (RUN []) (0, "Samos"%string) n = None) /\
  exists t', RESTORE (PickPure "b" "def b(): return f()" "Samos" b_blocks false None)%string (RUN []) = (t', Ok 0) /\ (STATE 0 t').2 = Ok (PickPure "b" "def b(): return f()" "Samos" b_blocks false None)%string.
Proof.
  split; [plain|]. split; [exists b_object; by vm_compute|]. split; [by vm_compute|]. split; [|split; [|split; [|split]]].
  - intros a Ha. injection Ha as <-. symmetry. by vm_compute.
  - intros i e g He Hg. exfalso. assert (H : forall e, e ∈ b_blocks -> guards_in e.1 = []).
    { intros e0 He0. repeat (apply elem_of_cons in He0 as [->|He0]; [done|]). by inversion He0. }
    rewrite (H e) in Hg by (by eapply elem_of_list_lookup_2). by inversion Hg.
  - plain.
  - intros n. by vm_compute.
  - eexists. split; [vm_compute; reflexivity|by vm_compute].
Qed.
