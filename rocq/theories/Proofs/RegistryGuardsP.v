(** Registration of functions: restoring a pickled pure function needs every guard in its state to come before the function it guards. *)
From Coq Require Import String Sorted.
From stdpp Require Import gmap.
From Verif Require Import Lib.Py Lib.DictLemmas Model.PyAst Model.Normalizer Model.NamesAnalyzer Model.CallGraph Model.Registry.
From Verif.Spec Require Import RegistrySpec RegistryExactSpec.
From Verif.Proofs Require Import RegistryP RegistryInvP RegistryOpsP RegistryCompleteP RegistryRunP RegistryUseP RegistryFrameP RegistryPureP RegistryRestoreP RegistryClaimsP RegistryExactP.
Local Open Scope nat_scope.

Section Guards.
  Variable normalise : bool -> string -> res string.
  Variable names_of : string -> res ana.
  Variable name_of : string -> res string.
  Variable builtins : gset string.
  Variable strong : Prop.
  Variable ord : nat -> gset string -> list string.
  Variable default_island : nat -> string.
  Hypothesis ord_perm : forall t X, ord t X ≡ₚ elements X.
  Hypothesis function_name : forall src n a, normalise false src = Ok src -> name_of src = Ok n -> names_of src = Ok a -> a_function a = Some n.
  Hypothesis no_empty : forall n, name_of "" <> Ok n.
  Notation invx := (invx normalise names_of name_of builtins strong).
  Notation inv := (invx None).
  Notation ev := (ev strong).
  Notation process_augmented := (process_augmented normalise names_of name_of default_island).
  Notation set_state := (set_state normalise names_of name_of builtins ord default_island).
  Notation new_fn := (new_fn normalise names_of name_of default_island).

  (** [g] is the name of one of the first [i] functions of the state *)
  Definition earlier (aug : list entry) (i : nat) (g : string) : Prop :=
    exists i' e src, i' < i /\ aug !! i' = Some e /\ normalise true e.2 = Ok src /\ name_of src = Ok g.

  Lemma process_needs p isl es : forall u u', inv u -> (forall e, e ∈ es -> decor_island e.1 = isl) -> process_augmented p es u = (u', Ok tt) ->
    forall i e g, es !! i = Some e -> g ∈ guards_in e.1 -> reg u (p, isl) g <> None \/ earlier es i g.
  Proof.
    induction es as [|[d sc] es IH]; intros u u' Hinv Hisl Hrun i e g He Hg; [done|]. cbn [Registry.process_augmented] in Hrun.
    pose proof (Hisl (d, sc) ltac:(left)) as Hd. cbn in Hd.
    assert (Hnew : exists k island strictly gs u1 j, new_fn k sc (Some island) strictly gs p u = (u1, Ok j) /\ process_augmented p es u1 = (u', Ok tt) /\ island = isl /\
      (forall x, x ∈ guards_in d -> k = Pure /\ exists l, gs = Some l /\ GName x ∈ l)).
    { unfold bnd at 1 in Hrun. destruct d as [strictly island|island gs]; cbn in Hd; subst island.
      - destruct (new_fn Aut sc (Some isl) strictly None p u) as [u1 [j|]] eqn:E; [|done]. exists Aut, isl, strictly, None, u1, j. split; [done|]. split; [done|]. split; [done|]. intros x Hx. by apply elem_of_nil in Hx.
      - destruct (new_fn Pure sc (Some isl) false (option_map (map GName) gs) p u) as [u1 [j|]] eqn:E; [|done]. exists Pure, isl, false, (option_map (map GName) gs), u1, j.
        split; [done|]. split; [done|]. split; [done|]. intros x Hx. split; [done|]. destruct gs as [l|]; [|by apply elem_of_nil in Hx]. exists (map GName l). split; [done|]. by apply elem_of_list_fmap_1. }
    destruct Hnew as (k & island & strictly & gs & u1 & j0 & Hn & Hp & -> & Hgs).
    destruct (new_fn_effect normalise names_of name_of builtins strong default_island u k sc (Some isl) strictly gs p u1 _ Hinv Hn) as (Hi1 & _ & _ & -> & src & name & me & j & o & Hsrc & Hname & Hreg & _).
    cbn [island_or_default] in Hreg. destruct i as [|i]; cbn in He.
    - injection He as <-. left. cbn in Hg. destruct (Hgs g Hg) as (-> & l & -> & Hl).
      assert (Ha : accepted normalise names_of name_of default_island u Pure sc (Some isl) strictly (Some l) p).
      { apply (new_fn_exact normalise names_of name_of builtins strong default_island u Pure sc (Some isl) strictly (Some l) p Hinv). by eexists. }
      destruct Ha as (src' & name' & _ & _ & Hga & _). destruct (Hga eq_refl) as [_ Hf]. apply (Hf _ Hl).
    - destruct (IH u1 u' Hi1 ltac:(intros e' He'; apply Hisl; by right) Hp i e g He Hg) as [H|(i' & e' & src' & Hi' & He' & Hs' & Hn')].
      + rewrite Hreg in H. destruct (decide ((p, isl) = (p, isl) /\ g = name)) as [[_ ->]|_]; [|by left].
        right. exists 0, (d, sc), src. split; [lia|]. done.
      + right. exists (S i'), e', src'. split; [lia|]. done.
  Qed.

  Theorem restore_needs name src isl aug strictly guards p t t' self : inv t -> name_of src = Ok name -> (forall g, guards = Some g -> sorted g = g) ->
    (forall e, e ∈ aug -> decor_island e.1 = isl) -> (forall n, reg t (p, isl) n = None) ->
    set_state (PickPure name src isl aug strictly guards) p t = (t', Ok self) ->
    forall i e g, aug !! i = Some e -> g ∈ guards_in e.1 -> g = name \/ earlier aug i g.
  Proof.
    intros Hinv Hname Hgs Hisl Hemp Hrun i e g He Hg. unfold Registry.set_state in Hrun; rewrite bnd_alloc in Hrun.
    set (me := FnObj Pure p src name isl strictly false None None guards None) in *.
    set (sf := List.length (heap t)) in *. unfold bnd at 1 in Hrun. destruct (discard _ _ _ _) as [s2 r2] eqn:E.
    destruct (keeps_begin normalise names_of name_of builtins strong t me s2 r2 Hinv ltac:(done) E) as (H1 & H2 & _ & H3). destruct r2 as [[]|]; [|done].
    destruct H3 as (me' & j & o & Hm' & Hid & Hj & Ho & Hk & Hs & Hd & Hreg & _ & Hnew & _). destruct (Hnew (Hemp name)) as (-> & -> & ->).
    revert Hrun. ms. cbn in Hj. unfold reg in Hj. change (home me) with (p, isl) in *.
    destruct (dict_get (p, isl) (known s2)) as [il|] eqn:Eil; [|done]. cbn [or_raise]. ms. rewrite Hj. cbn [or_raise]. ms. rewrite (bnd_get _ _ _ _ Ho).
    match goal with |- bnd ?m0 ?k0 s2 = _ -> _ => set (m1 := m0); set (k1 := k0) end.
    set (t2 := St (<[sf := set_aug (Some aug) me]> (heap s2)) (known s2)).
    assert (Hm1 : m1 s2 = process_augmented p aug t2). { unfold m1. change (o_full me) with false. cbv iota. ms. by rewrite (alter_eq_insert _ _ _ me Ho). }
    unfold bnd at 1. rewrite Hm1. destruct (process_augmented p aug t2) as [s3 [[]|]] eqn:Ep; [|done]. intros _.
    assert (Ht : inv t2 /\ ev s2 t2).
    { apply (inv_touch normalise names_of name_of builtins strong s2); [done|done|]. intros i0. cbn. destruct (decide (i0 = sf)) as [->|Hne].
      - right. exists me, (set_aug (Some aug) me). split; [done|]. split; [apply list_lookup_insert; by eapply lookup_lt_Some|].
        split; [done|]. split; [done|]. split; [done|]. split.
        + destruct (inv_obj _ _ _ _ _ _ _ H1 sf me ltac:(done) Ho) as ((Hc1 & Hc2) & Hc). exact Hc1.
        + split; [done|]. split; [intros q Hq; by apply (f_equal o_kind) in Hq|exact (fun x => x)].
      - left. by rewrite list_lookup_insert_ne. }
    destruct (process_needs p isl aug t2 s3 (proj1 Ht) Hisl Ep i e g He Hg) as [H|H]; [left|by right].
    change (reg t2 (p, isl) g) with (reg s2 (p, isl) g) in H. rewrite Hreg in H. destruct (decide ((p, isl) = (p, isl) /\ g = o_name me)) as [[_ ->]|_]; [done|]. by rewrite Hemp in H.
  Qed.
End Guards.
