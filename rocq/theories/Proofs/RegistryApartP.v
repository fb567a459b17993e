(** Registration of functions: an operation leaves the islands it does not speak of alone. *)
From Coq Require Import String Sorted.
From stdpp Require Import gmap.
From Verif Require Import Lib.Py Lib.DictLemmas Model.PyAst Model.Normalizer Model.NamesAnalyzer Model.CallGraph Model.Registry.
From Verif.Spec Require Import RegistrySpec.
From Verif.Proofs Require Import RegistryP RegistryInvP RegistryOpsP RegistryCompleteP RegistryRunP RegistryUseP RegistryFrameP.
Local Open Scope nat_scope.

(** nothing in island [k] changed *)
Definition apart (k : nat * string) (s s' : st) : Prop :=
  (forall n, reg s' k n = reg s k n) /\ (forall i o, heap s !! i = Some o -> home o = k -> heap s' !! i = Some o).
Lemma apart_refl k s : apart k s s.
Proof. done. Qed.
Lemma apart_trans k s1 s2 s3 : apart k s1 s2 -> apart k s2 s3 -> apart k s1 s3.
Proof. intros [A1 A2] [B1 B2]. split; [intros n; by rewrite B1|auto]. Qed.
Lemma apart_put k s i o o' : heap s !! i = Some o -> home o <> k -> apart k s (St (<[i := o']> (heap s)) (known s)).
Proof. intros Hi Hk. split; [done|]. intros i' x Hx Hh. cbn. rewrite list_lookup_insert_ne; [done|]. intros ->. congruence. Qed.
Lemma apart_within k k' n s s' : within k' n s s' -> k <> k' -> apart k s s'.
Proof. intros (H1 & H2 & H3) Hk. split; [intros m; unfold reg; by rewrite H1|]. intros i o Hi Hh. apply H3; [done|]. left. congruence. Qed.
Lemma apart_beside k s me s' : beside (List.length (heap s)) (St (heap s ++ [me]) (known s)) s' -> (forall n, reg s' k n = reg s k n) -> apart k s s'.
Proof. intros (B1 & _) Hr. split; [done|]. intros i o Hi _. assert (i < List.length (heap s)) by (by eapply lookup_lt_Some). rewrite B1 by lia. cbn. by rewrite lookup_app_l. Qed.

Section Apart.
  Variable normalise : bool -> string -> res string.
  Variable names_of : string -> res ana.
  Variable name_of : string -> res string.
  Variable builtins : gset string.
  Variable strong : Prop.
  Variable ord : nat -> gset string -> list string.
  Variable default_island : nat -> string.
  Hypothesis ord_perm : forall t X, ord t X ≡ₚ elements X.
  Hypothesis function_name : forall src n a, normalise false src = Ok src -> name_of src = Ok n -> names_of src = Ok a -> a_function a = Some n.
  Hypothesis no_empty : forall n, name_of "" <> Ok n.
  Notation invx := (invx normalise names_of name_of builtins strong).
  Notation inv := (invx None).
  Notation complete := (complete normalise names_of builtins ord).
  Notation new_fn := (new_fn normalise names_of name_of default_island).
  Notation process_augmented := (process_augmented normalise names_of name_of default_island).
  Notation set_state := (set_state normalise names_of name_of builtins ord default_island).
  Notation step := (step normalise names_of name_of builtins ord default_island).
  Notation honest_op := (honest_op name_of).

  Lemma new_fn_apart s k code isl strictly gs p s' r : inv s -> new_fn k code isl strictly gs p s = (s', r) ->
    forall k', k' <> (p, island_or_default default_island isl p) -> apart k' s s'.
  Proof.
    intros Hinv Hrun k' Hk'. destruct (new_fn_effect normalise names_of name_of builtins strong default_island s k code isl strictly gs p s' r Hinv Hrun) as (_ & _ & H3 & H4).
    split; [|intros i o Hi _; by apply H3]. intros n. destruct r as [i|e]; [|apply H4]. destruct H4 as (_ & src & name & me & j & o & _ & _ & R & _).
    rewrite R, decide_False by (intros [-> _]; done). done.
  Qed.
  Lemma process_apart p k' es : forall s s' r, inv s -> (forall e, e ∈ es -> k' <> (p, decor_island e.1)) -> process_augmented p es s = (s', r) -> apart k' s s'.
  Proof.
    induction es as [|[d src] es IH]; intros s s' r Hinv Hes; cbn [Registry.process_augmented]; [intros [= <- <-]; apply apart_refl|].
    assert (Hd : k' <> (p, decor_island d)) by (apply (Hes (d, src)); left).
    unfold bnd at 1. match goal with |- context [?m s] => destruct (m s) as [s1 r1] eqn:E end.
    assert (Hi1 : inv s1 /\ apart k' s s1).
    { destruct d as [strictly isl|isl gs]; (split; [by eapply keeps_new_fn|]); eapply new_fn_apart; (done || exact E). }
    destruct Hi1 as [Hi1 Ha]. destruct r1 as [i|e]; [|intros [= <- <-]; done]. intros Hr. eapply apart_trans; [exact Ha|]. eapply IH; [done| |exact Hr]. intros e He. apply Hes. by right.
  Qed.
  Lemma complete_apart s self s' r k' : inv s -> complete self s = (s', r) -> (forall me, heap s !! self = Some me -> k' <> home me) -> apart k' s s'.
  Proof.
    intros Hinv Hrun Hk. destruct (heap s !! self) as [me|] eqn:E.
    - eapply apart_within; [by eapply (complete_within normalise names_of name_of builtins strong ord ord_perm function_name)|by apply Hk].
    - unfold Registry.complete, bnd, get in Hrun. rewrite E in Hrun. injection Hrun as <- <-. apply apart_refl.
  Qed.

  Lemma set_state_apart x p s s' r k' : inv s -> honest_state name_of x -> ~ speaks_of default_island s (Unpickle x p) k' -> set_state x p s = (s', r) -> apart k' s s'.
  Proof.
    intros Hinv Hh Hk' Hrun. destruct x as [name src isl strictly|name src isl aug strictly gs]; cbn in Hh; unfold Registry.set_state in Hrun; rewrite bnd_alloc in Hrun; cbn in Hk'.
    - set (me := FnObj Aut p src name isl strictly false None None None None) in *.
      unfold bnd in Hrun. destruct (discard _ _ _ _) as [s2 r2] eqn:E.
      assert (Hraw : raw_ok name_of me) by done.
      destruct (keeps_begin normalise names_of name_of builtins strong s me s2 r2 Hinv Hraw E) as (_ & _ & H2 & H3).
      assert (Ha : apart k' s s2).
      { eapply apart_beside; [exact H2|]. intros n. destruct r2; [|apply H3]. destruct H3 as (me' & j & o & K1 & K2 & K3 & K4 & K5 & K6 & K7 & K8 & _).
        rewrite K8, decide_False by (intros [-> _]; done). done. }
      destruct r2; injection Hrun as <- _; done.
    - set (me := FnObj Pure p src name isl strictly false None None gs None) in *.
      set (self := List.length (heap s)) in *. unfold bnd at 1 in Hrun. destruct (discard _ _ _ _) as [s2 r2] eqn:E.
      assert (Hraw : raw_ok name_of me) by (destruct Hh; done).
      assert (Hk1 : k' <> (p, isl)) by (intros ->; apply Hk'; by left).
      assert (Hk2 : forall e, e ∈ aug -> k' <> (p, decor_island e.1)) by (intros e He ->; apply Hk'; right; by exists e).
      destruct (keeps_begin normalise names_of name_of builtins strong s me s2 r2 Hinv Hraw E) as (H1 & _ & H2 & H3). cbn zeta in H2. fold self in H2, H3.
      assert (Ha : apart k' s s2).
      { eapply apart_beside; [exact H2|]. intros n. destruct r2; [|apply H3]. destruct H3 as (me' & j & o & K1 & K2 & K3 & K4 & K5 & K6 & K7 & K8 & _).
        rewrite K8, decide_False by (intros [-> _]; done). done. }
      destruct r2 as [[]|]; [|injection Hrun as <- _; done]. eapply apart_trans; [exact Ha|].
      destruct H3 as (me' & j & o & Hm' & Hid & Hj & Ho & Hk & Hs & Hd & Hreg & _). revert Hrun. ms. cbn in Hj. change (home me) with (p, isl) in Hj.
      destruct (inv_enrolled _ _ _ _ _ _ _ H1 _ _ _ Hj) as (o1 & Ho1 & Hho & _). rewrite Ho in Ho1. injection Ho1 as <-.
      unfold reg in Hj. destruct (dict_get (p, isl) (known s2)) as [il|] eqn:Eil; [|done]. cbn [or_raise]. ms. rewrite Hj. cbn [or_raise]. ms. rewrite (bnd_get _ _ _ _ Ho).
      match goal with |- bnd ?m0 ?k0 s2 = _ -> _ => set (m1 := m0); set (k1 := k0) end.
      assert (Hm1 : forall s3 r3, m1 s2 = (s3, r3) -> inv s3 /\ apart k' s2 s3 /\ ev strong s2 s3).
      { intros s3 r3. unfold m1. destruct (o_full o) eqn:Ef.
        { intros Hc. assert (s3 = s2) as ->. { revert Hc. match goal with |- ?m s2 = _ -> _ => assert (Hrd : reader m) by rd end. apply Hrd. } split; [done|]. split; [apply apart_refl|apply ev_refl]. }
        ms. rewrite (alter_eq_insert _ _ _ o Ho). intros Hp.
        assert (Ht : inv (St (<[j := set_aug (Some aug) o]> (heap s2)) (known s2)) /\ ev strong s2 (St (<[j := set_aug (Some aug) o]> (heap s2)) (known s2))).
        { apply (inv_touch normalise names_of name_of builtins strong s2); [done|done|]. intros i. cbn. destruct (decide (i = j)) as [->|Hne].
          - right. exists o, (set_aug (Some aug) o). split; [done|]. split; [apply list_lookup_insert; by eapply lookup_lt_Some|].
            split; [done|]. split; [done|]. split; [done|]. split.
            + assert (Hok : obj_ok strong s2 o) by (by eapply inv_obj). apply Hok.
            + split; [cbn; rewrite Hk; done|]. split; [intros q ->; done|done].
          - left. by rewrite list_lookup_insert_ne. }
        destruct Ht as [Ht1 Ht2]. destruct (keeps_process normalise names_of name_of builtins strong default_island p aug _ _ _ Ht1 Hp) as [Hp1 Hp2]. split; [done|]. split; [|by eapply ev_trans].
        eapply apart_trans; [apply (apart_put _ _ j o); [done|congruence]|]. by eapply process_apart. }
      intros Hrun. unfold bnd in Hrun. destruct (m1 s2) as [s3 [[]|e]] eqn:Em; destruct (Hm1 _ _ eq_refl) as (A1 & A2 & A3); [|injection Hrun as <- <-; done].
      eapply apart_trans; [exact A2|]. unfold k1, bnd in Hrun. destruct (complete self s3) as [s4 r4] eqn:Ec.
      assert (Hc : apart k' s3 s4).
      { eapply complete_apart; [done|exact Ec|]. intros m3 Hm3. destruct A3 as [A3 _]. destruct (A3 _ _ Hm') as (m3' & Hm3' & (_ & I2 & _ & _ & I5 & _) & _). rewrite Hm3 in Hm3'. injection Hm3' as <-.
        destruct Hid as (_ & J2 & _ & _ & J5 & _). unfold home. rewrite <- I2, <- I5, <- J2, <- J5. done. }
      destruct r4; injection Hrun as <- _; done.
  Qed.

  Lemma step_apart o s s' r k' : inv s -> honest_op o -> (strong -> regular_op s o) -> ~ speaks_of default_island s o k' -> step o s = (s', r) -> apart k' s s'.
  Proof.
    intros Hinv Hh Hreg Hk.
    assert (Hu : forall A (m : M A) s' r, bnd m (fun _ => ret tt) s = (s', r) -> exists r', m s = (s', r')).
    { intros A m s1 r1. unfold bnd. destruct (m s) as [s2 [a|e]]; intros [= <- <-]; eauto. }
    destruct o; cbn [Registry.step]; intros Hrun; apply Hu in Hrun as (r' & Hrun); cbn [speaks_of] in Hk.
    - by eapply new_fn_apart.
    - destruct (wrap_fn_ok normalise names_of name_of builtins strong default_island s k f island gs p s' r' Hinv Hreg Hrun) as [[(_ & _ & H3)| ->] H4]; [|apply apart_refl].
      eapply apart_beside; [exact H3|]. intros n. by apply H4.
    - destruct (heap s !! f) as [me|] eqn:E.
      + eapply apart_within; [by eapply (prepare_within normalise names_of name_of builtins strong ord ord_perm function_name)|]. intros ->. apply Hk. by exists me.
      + unfold prepare, Registry.complete, bnd, get in Hrun. rewrite E in Hrun. injection Hrun as <- <-. apply apart_refl.
    - destruct (heap s !! f) as [me|] eqn:E.
      + eapply apart_within; [by eapply (get_state_within normalise names_of name_of builtins strong ord ord_perm function_name)|]. intros ->. apply Hk. by exists me.
      + unfold get_state, bnd, get in Hrun. rewrite E in Hrun. injection Hrun as <- <-. apply apart_refl.
    - by eapply set_state_apart.
  Qed.
End Apart.
