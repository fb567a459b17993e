(** Registration of functions: a pure function restored from its pickled state is the function that was pickled. *)
From Coq Require Import String Sorted.
From stdpp Require Import gmap.
From Verif Require Import Lib.Py Lib.DictLemmas Model.PyAst Model.Normalizer Model.NamesAnalyzer Model.CallGraph Model.Registry.
From Verif.Spec Require Import RegistrySpec.
From Verif.Proofs Require Import RegistryP RegistryInvP RegistryOpsP RegistryCompleteP RegistryRunP RegistryUseP RegistryFrameP RegistryPureP.
Local Open Scope nat_scope.

Section Faith.
  Variable normalise : bool -> string -> res string.
  Variable names_of : string -> res ana.
  Variable name_of : string -> res string.
  Variable builtins : gset string.
  Variable strong : Prop.
  Variable ord : nat -> gset string -> list string.
  Variable default_island : nat -> string.
  Hypothesis ord_perm : forall t X, ord t X ≡ₚ elements X.
  Hypothesis function_name : forall src n a, normalise false src = Ok src -> name_of src = Ok n -> names_of src = Ok a -> a_function a = Some n.
  Hypothesis no_empty : forall n, name_of "" <> Ok n.
  Notation invx := (invx normalise names_of name_of builtins strong).
  Notation inv := (invx None).
  Notation complete := (complete normalise names_of builtins ord).
  Notation new_fn := (new_fn normalise names_of name_of default_island).
  Notation process_augmented := (process_augmented normalise names_of name_of default_island).
  Notation get_state := (get_state normalise names_of builtins ord).
  Notation set_state := (set_state normalise names_of name_of builtins ord default_island).

  Lemma process_old p es : forall s s' r, inv s -> process_augmented p es s = (s', r) -> forall i o, heap s !! i = Some o -> heap s' !! i = Some o.
  Proof.
    induction es as [|[d src] es IH]; intros s s' r Hinv; cbn [Registry.process_augmented]; [intros [= <- <-]; done|].
    unfold bnd at 1. match goal with |- context [?m s] => destruct (m s) as [s1 r1] eqn:E end.
    assert (Hi1 : inv s1 /\ forall i o, heap s !! i = Some o -> heap s1 !! i = Some o).
    { destruct d as [strictly isl|isl gs]; eapply (new_fn_effect normalise names_of name_of builtins strong default_island) in E; try done; destruct E as (E1 & _ & E3 & _); done. }
    destruct Hi1 as [Hi1 Ha]. destruct r1 as [i|e]; [|intros [= <- <-]; done]. intros Hr i' o Ho. eapply IH; [exact Hi1|exact Hr|]. by apply Ha.
  Qed.

  Notation ev := (ev strong).
  (** what a successful pickling leaves behind *)
  Definition settled (s : st) (k : nat * string) (name src : string) (aug : list entry) (gs : option (list string)) : Prop :=
    exists j o, reg s k name = Some j /\ heap s !! j = Some o /\ o_full o = true /\ o_aug o = Some aug /\ o_src o = src /\ o_guards o = gs.
  Lemma pickled_settled s f me s1 name src isl aug b gs : inv s -> heap s !! f = Some me ->
    get_state f s = (s1, Ok (PickPure name src isl aug b gs)) -> inv s1 /\ ev s s1 /\ settled s1 (o_portal me, isl) name src aug gs.
  Proof.
    intros Hinv Hm Hrun. destruct (keeps_get_state normalise names_of name_of builtins strong ord ord_perm function_name no_empty f s s1 _ Hinv Hrun) as [Hi1 He1].
    split; [done|]. split; [done|]. unfold Registry.get_state in Hrun. rewrite (bnd_get _ _ _ _ Hm) in Hrun. destruct (o_kind me) eqn:Ek; [done|].
    apply bnd_ok in Hrun as (s2 & [] & Hc & Hrun). apply bnd_ok in Hrun as (s3 & m2 & Hg & Hrun).
    unfold get in Hg. destruct (heap s2 !! f) as [m2'|] eqn:Hm2; [|done]. injection Hg as <- ->.
    apply bnd_ok in Hrun as (s4 & aug' & Ha & Hrun). pose proof (reader_augmented f _ _ _ Ha) as ->. injection Hrun as <- <- <- <- <- _ <-.
    destruct (keeps_complete normalise names_of name_of builtins strong ord ord_perm function_name no_empty f s s2 _ Hinv Hc) as [_ [E2 _]].
    destruct (E2 _ _ Hm) as (m2' & Hm2' & (J1 & J2 & _) & _). rewrite Hm2 in Hm2'. injection Hm2' as <-.
    unfold augmented_source in Ha. rewrite (bnd_get _ _ _ _ Hm2), bnd_check in Ha. destruct (o_full m2) eqn:Ef; [|done]. rewrite bnd_island in Ha.
    destruct (dict_get (o_portal m2, o_island m2) (known s2)) as [il|] eqn:Eil; [|done]. cbn [or_raise] in Ha. rewrite bnd_ret in Ha.
    destruct (dict_get (o_name m2) il) as [j|] eqn:Ej; [|done]. cbn [or_raise] in Ha. rewrite bnd_ret in Ha.
    assert (Hok : obj_ok strong s2 m2) by (by eapply inv_obj). destruct Hok as (_ & _ & HP & _). destruct (HP ltac:(congruence)) as (j' & o & Hj & Ho & Hs & Hg & Hk & Hf). destruct (Hf Ef) as [Hfo _].
    assert (j' = j) as ->. { unfold reg, home in Hj. rewrite Eil in Hj. congruence. }
    rewrite (bnd_get _ _ _ _ Ho) in Ha. destruct (o_aug o) as [x|] eqn:Ex; [|done]. injection Ha as ->.
    exists j, o. rewrite J2. split; [done|]. split; [done|]. split; [done|]. split; [done|]. split; done.
  Qed.
  Lemma settled_ev s s' k name src aug gs : ev s s' -> settled s k name src aug gs -> settled s' k name src aug gs.
  Proof.
    intros [E1 E2] (j & o & Hj & Ho & Hf & Ha & Hs & Hg). destruct (E1 _ _ Ho) as (o' & Ho' & (J1 & J2 & J3 & J4 & J5 & J6) & Hk & _).
    destruct (Hk Hf) as (K1 & _ & _ & _ & [K5|[K5 _]] & _); [|congruence]. exists j, o'. split; [by apply E2|]. split; [done|]. split; [done|]. split; [congruence|]. split; congruence.
  Qed.
  Lemma settled_unique s k name src aug gs src' aug' gs' : settled s k name src aug gs -> settled s k name src' aug' gs' -> src' = src /\ aug' = aug /\ gs' = gs.
  Proof. intros (j & o & A1 & A2 & A3 & A4 & A5 & A6) (j' & o' & B1 & B2 & B3 & B4 & B5 & B6). assert (j' = j) as -> by congruence. assert (o' = o) as -> by congruence. split; [congruence|]. split; congruence. Qed.

  Theorem restored_same name src isl aug strictly guards p s s' self : inv s ->
    honest_state name_of (PickPure name src isl aug strictly guards) ->
    set_state (PickPure name src isl aug strictly guards) p s = (s', Ok self) ->
    (exists b, get_state self s' = (s', Ok (PickPure name src isl aug b guards))) /\ settled s' (p, isl) name src aug guards.
  Proof.
    intros Hinv Hh Hrun. cbn in Hh. unfold Registry.set_state in Hrun; rewrite bnd_alloc in Hrun.
    set (me := FnObj Pure p src name isl strictly false None None guards None) in *.
    set (n := List.length (heap s)) in *. unfold bnd at 1 in Hrun. destruct (discard _ _ _ _) as [s2 r2] eqn:E.
    assert (Hraw : raw_ok name_of me) by (destruct Hh; done).
    destruct (keeps_begin normalise names_of name_of builtins strong s me s2 r2 Hinv Hraw E) as (H1 & _ & H2 & H3). cbn zeta in H2. fold n in H2, H3.
    destruct r2 as [[]|]; [|done].
    destruct H3 as (me' & j & o & Hm' & Hid & Hj & Ho & Hk & Hs & Hd & Hreg & Hd2 & Hnew & Hold). revert Hrun. ms. change (home me) with (p, isl) in Hj. cbn [o_name me] in Hj.
    destruct (inv_enrolled _ _ _ _ _ _ _ H1 _ _ _ Hj) as (o1 & Ho1 & Hho & _). rewrite Ho in Ho1. injection Ho1 as <-.
    pose proof Hj as Hj0. unfold reg in Hj0. destruct (dict_get (p, isl) (known s2)) as [il|] eqn:Eil; [|done]. cbn [or_raise]. ms. rewrite Hj0. cbn [or_raise]. ms. rewrite (bnd_get _ _ _ _ Ho).
    assert (Hfull : o_full me' = o_full o).
    { destruct (reg s (home me) (o_name me)) as [j'|] eqn:Er.
      - destruct (Hold _ eq_refl) as (-> & -> & Hu). destruct (upd_ok me o Hu) as (_ & _ & U1 & U2). destruct (o_full o); [by apply U1|by apply U2].
      - destruct (Hnew eq_refl) as (-> & -> & ->). done. }
    destruct Hid as (I1 & I2 & I3 & I4 & I5 & I6). cbn in I1, I2, I3, I4, I5, I6.
    assert (Hhome : home me' = (p, isl)) by (unfold home; congruence).
    destruct (o_full o) eqn:Ef.
    - ms. destruct (bool_decide (Some aug = o_aug o)) eqn:Eb; cbn [lift]; [|unfold bnd; done]. apply bool_decide_eq_true_1 in Eb. ms.
      unfold bnd. rewrite (complete_unfold normalise names_of builtins ord _ _ _ Hm'), <- I1, Hfull. intros [= <- <-].
      assert (G : get_state n s2 = (s2, Ok (PickPure name src isl aug (o_strict me') guards))).
      {      rewrite (get_state_full normalise names_of builtins ord s2 n me' j o aug); try done; try congruence. }
      split; [by eexists|]. rewrite I2. by eapply (pickled_settled s2 n me').
    - ms. rewrite (alter_eq_insert _ _ _ o Ho). set (s3 := St (<[j := set_aug (Some aug) o]> (heap s2)) (known s2)) in *.
      assert (Ht : inv s3).
      { apply (inv_touch normalise names_of name_of builtins strong s2); [done|done|]. intros i. cbn. destruct (decide (i = j)) as [->|Hne].
        - right. exists o, (set_aug (Some aug) o). split; [done|]. split; [apply list_lookup_insert; by eapply lookup_lt_Some|].
          split; [done|]. split; [done|]. split; [done|]. split.
          + assert (Hok : obj_ok strong s2 o) by (by eapply inv_obj). apply Hok.
          + split; [cbn; rewrite Hk; done|]. split; [intros q ->; done|done].
        - left. by rewrite list_lookup_insert_ne. }
      unfold bnd at 1. destruct (process_augmented p aug s3) as [s4 [[]|e]] eqn:Ep; [|done].
      destruct (keeps_process normalise names_of name_of builtins strong default_island p aug _ _ _ Ht Ep) as [Hi4 [_ Hr4]].
      pose proof (process_old p aug _ _ _ Ht Ep) as Hold4.
      assert (Hj3 : heap s3 !! j = Some (set_aug (Some aug) o)) by (cbn; apply list_lookup_insert; by eapply lookup_lt_Some).
      assert (Hm3 : exists m3, heap s3 !! n = Some m3 /\ same_identity me m3 /\ o_full m3 = false).
      { destruct (decide (n = j)) as [->|Hne].
        - exists (set_aug (Some aug) o). rewrite Hm' in Ho. injection Ho as <-. split; [done|]. split; [|done]. repeat split; done.
        - exists me'. split; [cbn; by rewrite list_lookup_insert_ne|]. split; [|congruence]. repeat split; done. }
      destruct Hm3 as (m3 & Hm3 & (K1 & K2 & K3 & K4 & K5 & K6) & Kf). cbn in K1, K2, K3, K4, K5, K6.
      assert (Hun : unfinished s4 n m3 j (set_aug (Some aug) o)).
      { constructor.
        - by apply Hold4.
        - congruence.
        - done.
        - unfold home. rewrite <- K2, <- K4, <- K5. apply Hr4. exact Hj.
        - by apply Hold4.
        - cbn. cbn in Hs. congruence.
        - cbn. rewrite <- K6. unfold decorator in Hd2. rewrite Hk in Hd2. cbn in Hd2. congruence.
        - cbn. rewrite Hk. done.
        - done. }
      unfold bnd at 1. destruct (complete n s4) as [s5 [[]|e]] eqn:Ec; [|done]. intros [= <- <-].
      pose proof (inv_enrolled _ _ _ _ _ _ _ Hi4) as Hen. pose proof (inv_wf _ _ _ _ _ _ _ Hi4) as Hwf.
      destruct (complete_first normalise names_of name_of builtins ord ord_perm function_name s4 n m3 j _ s5 Hen Hwf Hun Ec) as (a & D & es & Ha & Hreq & Hstr & HD & Hsz & Hbl & Haug & ->).
      destruct (get_state_fwd normalise names_of name_of builtins ord ord_perm function_name s4 n m3 j _ a D es Hen Hwf Hun Ha Hreq Hstr HD Hsz Hbl Haug) as (_ & _ & E2).
      destruct Haug as [?|Haug]; [done|]. injection Haug as <-. split; [eexists; rewrite E2, K3, K4, K5, K6; reflexivity|].
      destruct (keeps_complete normalise names_of name_of builtins strong ord ord_perm function_name no_empty n s4 _ _ Hi4 Ec) as [Hi5 [E5 _]].
      destruct (E5 n m3 (un_me _ _ _ _ _ Hun)) as (m5 & Hm5 & (_ & L2 & _) & _). rewrite K2, L2, K3, K4, K5, K6. eapply pickled_settled; [exact Hi5|exact Hm5|exact E2].
  Qed.

  Theorem restored_same_aut name src isl strictly p s s' self : inv s -> name_of src = Ok name ->
    set_state (PickAut name src isl strictly) p s = (s', Ok self) -> get_state self s' = (s', Ok (PickAut name src isl strictly)).
  Proof.
    intros Hinv Hh Hrun. unfold Registry.set_state in Hrun; rewrite bnd_alloc in Hrun.
    set (me := FnObj Aut p src name isl strictly false None None None None) in *.
    set (n := List.length (heap s)) in *. unfold bnd at 1 in Hrun. destruct (discard _ _ _ _) as [s2 r2] eqn:E.
    assert (Hraw : raw_ok name_of me) by done.
    destruct (keeps_begin normalise names_of name_of builtins strong s me s2 r2 Hinv Hraw E) as (H1 & _ & H2 & H3). cbn zeta in H2. fold n in H2, H3.
    destruct r2 as [[]|]; [|done]. injection Hrun as <- <-.
    destruct H3 as (me' & j & o & Hm' & (I1 & I2 & I3 & I4 & I5 & I6) & Hj & Ho & Hk & Hs & Hd & Hreg & Hd2 & Hnew & Hold).
    cbn in I1, I2, I3, I4, I5, I6. unfold Registry.get_state. rewrite (bnd_get _ _ _ _ Hm'), <- I1. unfold ret. rewrite <- I3, <- I4, <- I5.
    rewrite Hd2 in Hd. unfold decorator in Hd. rewrite <- I1 in Hd. cbn in Hd. by injection Hd as <- _.
  Qed.

End Faith.
