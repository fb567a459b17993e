(** C40: exactly when a pickled pure function can be restored where its island is unknown. *)
From Coq Require Import String Sorted.
From stdpp Require Import gmap.
From Verif Require Import Lib.Py Model.PyAst Model.Normalizer Model.NamesAnalyzer Model.CallGraph Model.Registry.
From Verif.Spec Require Import RegistrySpec RegistryExactSpec.
From Verif.Proofs Require PureAddrP.
From Verif.Proofs Require Import RegistryP RegistryInvP RegistryOpsP RegistryCompleteP RegistryRunP RegistryUseP RegistryFrameP RegistryPureP RegistryRestoreP RegistryClaimsP RegistryExactP RegistryGuardsP.
From Verif.Properties Require Import P_Registry P_RegistryExamples.
Local Open Scope nat_scope.

Section RestoreExact.
  Variable normalise : bool -> string -> res string.
  Variable names_of : string -> res ana.
  Variable name_of : string -> res string.
  Variable builtins : gset string.
  Variable ord : nat -> gset string -> list string.
  Variable default_island : nat -> string.
  Notation get_state := (get_state normalise names_of builtins ord).
  Notation set_state := (set_state normalise names_of name_of builtins ord default_island).
  Notation plainly_reachable := (plainly_reachable normalise names_of name_of builtins ord default_island).
  Hypothesis sens : sensible normalise names_of name_of ord.

  (** every function that guards one of the functions in the state comes before it, or is the pickled function itself *)
  Definition guards_first (name : string) (aug : list entry) : Prop :=
    forall i e g, aug !! i = Some e -> g ∈ guards_in e.1 -> g = name \/ exists i' e', i' < i /\ aug !! i' = Some e' /\ name_of e'.2 = Ok g.

  (** The state of a pure function, taken in one session, is restored by a session that knows nothing of its island exactly if the guards
      come first (the state lists functions in the order of their names: exactly if every guard has a name that sorts before the names of
      the functions it guards), the sources being normal; otherwise restoring raises. *)
  Theorem C40_restores_iff_guards_first : forall s f s1 name src isl aug strictly guards t p, plainly_reachable s -> plainly_reachable t ->
    get_state f s = (s1, Ok (PickPure name src isl aug strictly guards)) ->
    (forall a, names_of src = Ok a -> strictly = bool_decide (required_names builtins name a = ∅)) ->
    (forall e, e ∈ aug -> normalise true e.2 = Ok e.2) ->
    (forall n, reg t (p, isl) n = None) ->
    (exists t' self, set_state (PickPure name src isl aug strictly guards) p t = (t', Ok self)) <-> guards_first name aug.
  Proof.
    intros s f s1 name src isl aug strictly guards t p Hs Ht Hget Hst Hno Hemp. split.
    - intros (t' & self & Hrun) i e g He Hg. pose proof (plainly_inv _ _ _ _ _ _ sens s Hs) as Hi. pose proof (plainly_inv _ _ _ _ _ _ sens t Ht) as Hi'.
      destruct sens as [H1 H2 H3].
      destruct (get_state_says normalise names_of name_of builtins True ord H1 H2 H3 s f s1 name src isl aug strictly guards I Hi Hget)
        as (Hi1 & q & N & D & E & a & _ & Ea & HE & _ & _ & _ & _ & _ & _ & Hname & _ & Hsort).
      destruct (restore_needs normalise names_of name_of builtins True ord default_island name src isl aug strictly guards p t t' self Hi' Hname Hsort) with (i := i) (e := e) (g := g)
        as [H|(i' & e' & src' & Hlt & He' & Hn' & Hg')]; try done; [|by left|].
      + intros e0 He0. rewrite Ea in He0. apply elem_of_list_fmap in He0 as (n & -> & Hn). rewrite (sorted_perm (_ ++ _)) in Hn. destruct (HE n Hn) as [_ (j & o & Hj & Ho & _ & Hd)].
        destruct (inv_enrolled _ _ _ _ _ _ _ Hi1 _ _ _ Hj) as (o' & Ho' & Hh & _). assert (o' = o) as -> by congruence.
        assert (o_island o = isl) as <- by (unfold home in Hh; congruence). destruct (E n) as [[] ?]; cbn in *; tauto || (by destruct Hd as (_ & -> & _)) || by destruct Hd as [_ ->].
      + right. exists i', e'. split; [done|]. split; [done|]. rewrite Hno in Hn' by (by eapply elem_of_list_lookup_2). injection Hn' as <-. done.
    - intros Hg. destruct (C40_restore_partial normalise names_of name_of builtins ord default_island sens s f s1 name src isl aug strictly guards t p Hs Ht Hget Hst Hno Hg Hemp) as (t' & H & _). by eexists _, _.
  Qed.

  (** What "first" means: the blocks are in the order of their names, so (no function guarding itself) the guards come first exactly if each guard of
      each function in the state is in the state too and has a name that sorts before the name of that function - or is the pickled function. *)
  Theorem C40_guards_first_by_name : forall s f s1 name src isl aug strictly guards, plainly_reachable s ->
    get_state f s = (s1, Ok (PickPure name src isl aug strictly guards)) ->
    (forall e n, e ∈ aug -> name_of e.2 = Ok n -> n ∉ guards_in e.1) ->
    guards_first name aug <->
    forall e n g, e ∈ aug -> name_of e.2 = Ok n -> g ∈ guards_in e.1 -> g = name \/ (PureAddr.str_le g n = true /\ exists e', e' ∈ aug /\ name_of e'.2 = Ok g).
  Proof.
    intros s f s1 name src isl aug strictly guards Hs Hget Hself. pose proof (plainly_inv _ _ _ _ _ _ sens s Hs) as Hi. destruct sens as [H1 H2 H3].
    destruct (get_state_says normalise names_of name_of builtins True ord H1 H2 H3 s f s1 name src isl aug strictly guards I Hi Hget)
      as (Hi1 & q & N & D & E & a & _ & Ea & HE & _). clear Hget Hi.
    set (ns := sorted (match guards with Some g => g | None => [] end ++ sorted (elements D))) in *.
    assert (Hname : forall n, n ∈ ns -> name_of (E n).2 = Ok n).
    { intros n Hn. unfold ns in Hn. rewrite (sorted_perm (_ ++ _)) in Hn. destruct (HE n Hn) as [_ (j & o & Hj & Ho & -> & _)].
      destruct (inv_enrolled _ _ _ _ _ _ _ Hi1 _ _ _ Hj) as (o' & Ho' & _ & _ & Hn' & _). by assert (o' = o) as -> by congruence. }
    assert (Hlook : forall i e, aug !! i = Some e -> exists n, ns !! i = Some n /\ e = E n /\ name_of e.2 = Ok n).
    { intros i e He. rewrite Ea, list_lookup_fmap in He. destruct (ns !! i) as [n|] eqn:En; [|done]. injection He as <-. exists n. split; [done|]. split; [done|]. apply Hname. by eapply elem_of_list_lookup_2. }
    assert (Hsorted : forall i j m n, i < j -> ns !! i = Some m -> ns !! j = Some n -> PureAddr.str_le m n = true).
    { intros i j m n Hij Hm Hn. assert (Hss : StronglySorted sle ns) by apply sorted_sorted. clear - Hss Hij Hm Hn. revert i j Hij Hm Hn. induction Hss as [|z l Hl IH Hz]; intros i j Hij Hm Hn; [done|].
      destruct j as [|j]; [lia|]. cbn in Hn. destruct i as [|i]; cbn in Hm; [|by apply (IH i j); [lia| |]]. injection Hm as <-. rewrite Forall_forall in Hz. apply Hz. by eapply elem_of_list_lookup_2. }
    split.
    - intros Hf e n g He Hn Hg. apply elem_of_list_lookup in He as [i He]. destruct (Hf i e g He Hg) as [H|(i' & e' & Hlt & He' & Hg')]; [by left|right].
      destruct (Hlook i e He) as (n1 & E1 & _ & F1), (Hlook i' e' He') as (n2 & E2 & _ & F2).
      assert (n1 = n) as -> by congruence. assert (n2 = g) as -> by congruence. split; [by eapply Hsorted|]. exists e'. split; [by eapply elem_of_list_lookup_2|done].
    - intros Hf i e g He Hg. destruct (Hlook i e He) as (n & En & _ & Fn). pose proof (elem_of_list_lookup_2 _ _ _ He) as Hin.
      destruct (Hf e n g Hin Fn Hg) as [H|(Hle & e' & He' & Hg')]; [by left|right]. apply elem_of_list_lookup in He' as [i' He'].
      exists i', e'. split; [|done]. destruct (Hlook i' e' He') as (m & Em & _ & Fm). assert (m = g) as -> by congruence.
      destruct (lt_eq_lt_dec i' i) as [[?| ->]|Hgt]; [done| |].
      + exfalso. assert (n = g) as -> by congruence. by apply (Hself e g).
      + exfalso. pose proof (Hsorted _ _ _ _ Hgt En Em) as Hle'. assert (g = n) as -> by (by apply PureAddrP.str_le_antisym). by apply (Hself e n).
  Qed.
End RestoreExact.
Print Assumptions C40_guards_first_by_name.
Print Assumptions C40_restores_iff_guards_first.

(** Both cases occur: a guard with a name that sorts after the function's, and one with a name that sorts before. *)
Definition late_guard : list entry := [(DPure "Samos" (Some ["g"]), "def f(): return 1"); (DAut true "Samos", "def g(): return None")]%string.
Definition early_guard : list entry := [(DAut false "Samos", "def c(): return k()"); (DPure "Samos" (Some ["c"]), "def f(): return 1")]%string.
Example C40_ex_late_guard : (STATE 1 (RUN [strict "def g(): return None"; pure "def f(): return 1" (Some [GFn 0])])).2 = Ok (PickPure "f" "def f(): return 1" "Samos" late_guard true (Some ["g"]))%string
  /\ ~ guards_first nmo "f" late_guard /\ (forall t' self, RESTORE (PickPure "f" "def f(): return 1" "Samos" late_guard true (Some ["g"]))%string (RUN []) <> (t', Ok self)).
Proof.
  assert (H : ~ guards_first nmo "f" late_guard).
  { intros H. destruct (H 0 (DPure "Samos" (Some ["g"]), "def f(): return 1")%string "g"%string eq_refl) as [?|(i' & _ & Hi & _)]; [by left|done|lia]. }
  split; [by vm_compute|]. split; [done|]. intros t' self E. apply (f_equal snd) in E. by vm_compute in E.
Qed.
Example C40_ex_early_guard : (STATE 2 (RUN [autonomous "def c(): return k()"; autonomous "def k(): return 0"; pure "def f(): return 1" (Some [GName "c"])])).2
    = Ok (PickPure "f" "def f(): return 1" "Samos" early_guard true (Some ["c"]))%string
  /\ guards_first nmo "f" early_guard.
Proof.
  split; [by vm_compute|]. intros [|[|i]] e g He Hg; [injection He as <-; by apply elem_of_nil in Hg| |done].
  injection He as <-. apply elem_of_list_singleton in Hg as ->. right. exists 0, (DAut false "Samos", "def c(): return k()")%string. split; [lia|]. by vm_compute.
Qed.
