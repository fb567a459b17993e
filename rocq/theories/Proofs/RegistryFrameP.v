(** Registration of functions: what calls and pickling leave alone. *)
From Coq Require Import String Sorted.
From stdpp Require Import gmap.
From Verif Require Import Lib.Py Lib.DictLemmas Model.PyAst Model.Normalizer Model.NamesAnalyzer Model.CallGraph Model.Registry.
From Verif.Spec Require Import RegistrySpec.
From Verif.Proofs Require Import RegistryP RegistryInvP RegistryOpsP RegistryCompleteP RegistryRunP RegistryUseP.
Local Open Scope nat_scope.

Section Frame.
  Variable normalise : bool -> string -> res string.
  Variable names_of : string -> res ana.
  Variable name_of : string -> res string.
  Variable builtins : gset string.
  Variable strong : Prop.
  Variable ord : nat -> gset string -> list string.
  Hypothesis ord_perm : forall t X, ord t X ≡ₚ elements X.
  Hypothesis function_name : forall src n a, normalise false src = Ok src -> name_of src = Ok n -> names_of src = Ok a -> a_function a = Some n.
  Notation invx := (invx normalise names_of name_of builtins strong).
  Notation inv := (invx None).
  Notation complete := (complete normalise names_of builtins ord).
  Notation complete_autonomous := (complete_autonomous normalise names_of builtins ord).
  Notation get_state := (get_state normalise names_of builtins ord).
  Notation prepare := (prepare normalise names_of builtins ord).

  (** only functions of this island and name change *)
  Definition within (k : nat * string) (n : string) (s s' : st) : Prop :=
    known s' = known s /\ List.length (heap s') = List.length (heap s) /\ forall i o, heap s !! i = Some o -> home o <> k \/ o_name o <> n -> heap s' !! i = Some o.
  Lemma within_refl k n s : within k n s s.
  Proof. done. Qed.
  Lemma within_put k n s i o : (forall o0, heap s !! i = Some o0 -> home o0 = k /\ o_name o0 = n) -> within k n s (St (<[i := o]> (heap s)) (known s)).
  Proof.
    intros H. split; [done|]. split; [cbn; by rewrite insert_length|]. intros i' o' Hi Hne. cbn. rewrite list_lookup_insert_ne; [done|]. intros ->. destruct (H _ Hi). destruct Hne; congruence.
  Qed.
  Lemma within_put2 k n s i1 o1 i2 o2 : (forall o0, heap s !! i1 = Some o0 -> home o0 = k /\ o_name o0 = n) -> (forall o0, heap s !! i2 = Some o0 -> home o0 = k /\ o_name o0 = n) ->
    within k n s (St (<[i1 := o1]> (<[i2 := o2]> (heap s))) (known s)).
  Proof.
    intros H1 H2. split; [done|]. split; [cbn; by rewrite !insert_length|]. intros i' o' Hi Hne. cbn.
    rewrite list_lookup_insert_ne, list_lookup_insert_ne; [done|..]; intros ->; [destruct (H2 _ Hi)|destruct (H1 _ Hi)]; destruct Hne; congruence.
  Qed.
  Lemma within_trans k n s1 s2 s3 : within k n s1 s2 -> within k n s2 s3 -> within k n s1 s3.
  Proof. intros (A1 & A2 & A3) (B1 & B2 & B3). split; [congruence|]. split; [lia|]. intros i o Hi Hne. auto. Qed.

  Lemma complete_aut_within s self me s' r : inv s -> heap s !! self = Some me -> complete_autonomous self s = (s', r) -> within (home me) (o_name me) s s'.
  Proof.
    intros Hinv Hm Hrun. pose proof (inv_enrolled _ _ _ _ _ _ _ Hinv) as Hen. pose proof (inv_wf _ _ _ _ _ _ _ Hinv) as Hwf.
    pose proof (complete_aut_run normalise names_of name_of builtins ord ord_perm function_name s self me s' r Hen Hwf Hm Hrun) as Hc.
    assert (Hself : forall o0, heap s !! self = Some o0 -> home o0 = home me /\ o_name o0 = o_name me) by (intros o0 H0; rewrite Hm in H0; by injection H0 as <-).
    assert (Hreg : forall j, reg s (home me) (o_name me) = Some j -> forall o0, heap s !! j = Some o0 -> home o0 = home me /\ o_name o0 = o_name me).
    { intros j Hj o0 H0. destruct (Hen _ _ _ Hj) as (o1 & Ho1 & -> & -> & _). rewrite H0 in Ho1. by injection Ho1 as ->. }
    destruct Hc; try apply within_refl; try (by apply within_put). apply within_put2; [done|]. by eapply Hreg.
  Qed.
  Lemma complete_within s self me s' r : inv s -> heap s !! self = Some me -> complete self s = (s', r) -> within (home me) (o_name me) s s'.
  Proof.
    intros Hinv Hm Hrun. rewrite (complete_unfold _ _ _ _ _ _ _ Hm) in Hrun. destruct (o_kind me) eqn:Ek; [by eapply complete_aut_within|].
    destruct (o_full me) eqn:Ef; [by injection Hrun as <- <-|]. unfold bnd in Hrun. destruct (complete_autonomous self s) as [s1 r1] eqn:E1.
    pose proof (complete_aut_within s self me s1 r1 Hinv Hm E1) as W1. destruct r1 as [[]|e]; [|by injection Hrun as <- <-].
    assert (Hok : obj_ok strong s me) by (by eapply inv_obj). destruct Hok as (_ & _ & HP & _). destruct (HP Ek) as (j & o & Hj & Ho & _).
    pose proof (inv_enrolled _ _ _ _ _ _ _ Hinv) as Hen. pose proof (inv_wf _ _ _ _ _ _ _ Hinv) as Hwf.
    pose proof (complete_aut_run normalise names_of name_of builtins ord ord_perm function_name s self me s1 (Ok tt) Hen Hwf Hm E1) as Hc.
    destruct (Hen _ _ _ Hj) as (oj & Hoj & Hhj & Hnj & _). rewrite Ho in Hoj. injection Hoj as <-.
    assert (Hx : known s1 = known s /\ exists me1 o1, heap s1 !! self = Some me1 /\ same_identity me me1 /\ heap s1 !! j = Some o1 /\ home o1 = home o /\ o_name o1 = o_name o).
    { inversion Hc; subst; try congruence.
      - split; [done|]. exists me, o. split; [done|]. split; [apply same_identity_refl|]. done.
      - assert (j0 = j) as -> by congruence. assert (o0 = o) as -> by congruence. split; [done|].
        assert (j < List.length (heap s)) by (by eapply lookup_lt_Some). assert (self < List.length (heap s)) by (by eapply lookup_lt_Some).
        match goal with |- context [<[self := ?x]> (<[j := ?y]> (heap s))] => exists x, (if decide (self = j) then x else y) end.
        split; [cbn; apply list_lookup_insert; by rewrite insert_length|]. split; [by repeat split|]. cbn. destruct (decide (self = j)) as [->|Hne].
        + rewrite list_lookup_insert by (by rewrite insert_length). split; [done|]. assert (o = me) as -> by congruence. by split.
        + rewrite list_lookup_insert_ne by done. rewrite list_lookup_insert by done. done. }
    destruct Hx as (Hk1 & me1 & o1 & Hm1 & Hid & Ho1 & Hh1 & Hn1).
    assert (Hj1 : reg s1 (home me) (o_name me) = Some j) by (unfold reg; rewrite Hk1; exact Hj).
    eapply within_trans; [exact W1|].
    destruct (tail_run s1 self me me1 j o1 s' r Hm1 Hid Hj1 Ho1 Hrun) as [[-> _]|(_ & d & es & _ & _ & _ & _ & _ & _ & ->)]; [apply within_refl|].
    apply within_put2; intros o0 H0.
    - rewrite Hm1 in H0. injection H0 as <-. destruct Hid as (_ & I2 & _ & I4 & I5 & _). unfold home. rewrite I2, I4, I5. done.
    - rewrite Ho1 in H0. injection H0 as <-. split; congruence.
  Qed.
  Lemma get_state_within s self me s' r : inv s -> heap s !! self = Some me -> get_state self s = (s', r) -> within (home me) (o_name me) s s'.
  Proof.
    intros Hinv Hm. unfold Registry.get_state. rewrite (bnd_get _ _ _ _ Hm). destruct (o_kind me); [intros [= <- <-]; apply within_refl|].
    unfold bnd at 1. destruct (complete self s) as [s1 [[]|e]] eqn:E; [|intros [= <- <-]; by eapply complete_within].
    intros Hr. assert (s' = s1) as ->; [|by eapply complete_within]. revert Hr. match goal with |- ?m s1 = _ -> _ => assert (Hrd : reader m) by rd end. apply Hrd.
  Qed.
  Lemma prepare_within s self me s' r : inv s -> heap s !! self = Some me -> prepare self s = (s', r) -> within (home me) (o_name me) s s'.
  Proof.
    intros Hinv Hm. unfold Registry.prepare. unfold bnd at 1. destruct (complete self s) as [s1 [[]|e]] eqn:E; [|intros [= <- <-]; by eapply complete_within].
    intros Hr. assert (s' = s1) as ->; [|by eapply complete_within]. revert Hr. match goal with |- ?m s1 = _ -> _ => assert (Hrd : reader m) by rd end. apply Hrd.
  Qed.
End Frame.
