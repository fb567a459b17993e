(** Registration of functions: the augmented source of a pure function. *)
From Coq Require Import String Sorted.
From stdpp Require Import gmap.
From Verif Require Import Lib.Py Lib.DictLemmas Model.PyAst Model.Normalizer Model.NamesAnalyzer Model.CallGraph Model.Registry.
From Verif.Spec Require Import RegistrySpec.
From Verif.Proofs Require Import RegistryP RegistryInvP RegistryOpsP RegistryCompleteP RegistryRunP RegistryUseP RegistryFrameP.
Local Open Scope nat_scope.

Lemma tail_fwd s self me me1 j o d es : heap s !! self = Some me1 -> same_identity me me1 ->
  reg s (home me) (o_name me) = Some j -> heap s !! j = Some o -> o_deps o = Some d -> 1 <= List.length d -> (o_strict me1 = true -> List.length d = 1) ->
  o_kind o = Pure -> (o_aug o = None \/ o_aug o = Some es) -> Forall2 (block s (home me)) (sorted (guard_names me ++ sorted d)) es ->
  tail self me s = (tailed s self j me1 o es, Ok tt).
Proof.
  intros Hm Hid Hj Ho Hd Hl Hst Hk Haug Hbl. destruct (tail self me s) as [s' r] eqn:E.
  pose proof Hid as (I1 & I2 & I3 & I4 & I5 & I6).
  destruct (tail_run s self me me1 j o s' r Hm Hid Hj Ho E) as [[-> (e & ->)]|(-> & d' & es' & Hd' & _ & _ & _ & Haug' & Hbl' & ->)].
  - exfalso. revert E. unfold tail. ms. fold (home me).
    destruct (dict_get (home me) (known s)) as [isl|] eqn:Ek; [|unfold reg in Hj; by rewrite Ek in Hj]. cbn [or_raise]. ms.
    unfold bnd at 1. rewrite (dependencies_run s self me1 j o Hm) by (unfold home in *; by rewrite <- ?I2, <- ?I4, <- ?I5). rewrite Hd.
    assert ((1 <=? List.length d) && (negb (o_strict me1) || (List.length d =? 1)) = true) as ->.
    { apply andb_true_iff. split; [by apply Nat.leb_le|]. destruct (o_strict me1); [cbn; apply Nat.eqb_eq; auto|done]. }
    cbn zeta. fold (guard_names me). unfold bnd at 1. rewrite (proj1 (blocks_run s (home me) isl _ Ek) es Hbl).
    assert (Hj' : dict_get (o_name me) isl = Some j) by (unfold reg in Hj; by rewrite Ek in Hj). rewrite Hj'. cbn [or_raise]. ms. rewrite (bnd_get _ _ _ _ Ho). ms.
    rewrite (bool_decide_eq_true_2 (o_kind o = Pure)) by done.
    destruct Haug as [->| ->]; ms; [done|]. rewrite (bool_decide_eq_true_2 (es = es)) by done. ms. done.
  - assert (es' = es) as ->; [|done]. assert (d' = d) as -> by congruence. clear -Hbl Hbl'. revert es Hbl. induction Hbl' as [|n e ns es' He _ IH]; intros es F; inversion F as [|? e2 ? es2 He2 F2]; subst; [done|].
    f_equal; [|by apply IH]. destruct He as (j1 & o1 & A1 & A2 & ->). destruct He2 as (j2 & o2 & B1 & B2 & ->). congruence.
Qed.

Section Pure.
  Variable normalise : bool -> string -> res string.
  Variable names_of : string -> res ana.
  Variable name_of : string -> res string.
  Variable builtins : gset string.
  Variable strong : Prop.
  Variable ord : nat -> gset string -> list string.
  Hypothesis ord_perm : forall t X, ord t X ≡ₚ elements X.
  Hypothesis function_name : forall src n a, normalise false src = Ok src -> name_of src = Ok n -> names_of src = Ok a -> a_function a = Some n.
  Notation enrolled_ok := (enrolled_ok normalise names_of name_of).
  Notation invx := (invx normalise names_of name_of builtins strong).
  Notation inv := (invx None).
  Notation complete := (complete normalise names_of builtins ord).
  Notation complete_autonomous := (complete_autonomous normalise names_of builtins ord).
  Notation get_state := (get_state normalise names_of builtins ord).
  Notation prepare := (prepare normalise names_of builtins ord).
  Notation required := (required_names builtins).

  (** a pure object and the object registered under its name, neither completed *)
  Record unfinished (s : st) (self : nat) (me : fnobj) (j : nat) (o : fnobj) : Prop := Unf {
    un_me : heap s !! self = Some me; un_kind : o_kind me = Pure; un_full : o_full me = false;
    un_reg : reg s (home me) (o_name me) = Some j; un_o : heap s !! j = Some o; un_src : o_src o = o_src me;
    un_guards : o_guards o = o_guards me; un_okind : o_kind o = Pure; un_ofull : o_full o = false }.

  Definition after_aut (D : gset string) (b : bool) (me : fnobj) : fnobj := set_full false (set_deps (Some (sorted (elements D))) (built (o_src me) b me)).
  (** the two objects after a successful first completion *)
  Definition finished (s : st) (self j : nat) (me o : fnobj) (D : gset string) (b : bool) (es : list entry) : st :=
    let me1 := after_aut D b me in
    let o1 := if decide (self = j) then me1 else set_full false (set_deps (Some (sorted (elements D))) o) in
    St (<[self := whole es me1]> (<[j := whole es o1]> (heap s))) (known s).

  Lemma aut_step s self me j o : enrolled_ok s -> wf_known s -> unfinished s self me j o ->
    exists a, names_of (o_src me) = Ok a /\
      let req := required (o_name me) a in
      ( (exists s1, complete_autonomous self s = (s1, Err AssertionError) /\ req <> ∅ /\ ((exists m, m ∈ req /\ reg s (home me) m = None) \/ o_strict me = true))
      \/ (exists D : gset string, (forall m, m ∈ req -> reg s (home me) m <> None) /\ (o_strict me = true -> req = ∅)
          /\ (forall m, m ∈ D <-> rtc (refers names_of s (home me)) (o_name me) m)
          /\ let me1 := after_aut D (bool_decide (req = ∅)) me in
             let o1 := if decide (self = j) then me1 else set_full false (set_deps (Some (sorted (elements D))) o) in
             let s1 := St (<[self := me1]> (<[j := o1]> (heap s))) (known s) in
             complete_autonomous self s = (s1, Ok tt) /\ heap s1 !! self = Some me1 /\ heap s1 !! j = Some o1 /\ same_identity me me1 /\ same_identity o o1
             /\ o_deps o1 = Some (sorted (elements D)) /\ o_full o1 = false /\ o_aug o1 = o_aug o
             /\ (forall k n e, block s1 k n e <-> block s k n e)) ).
  Proof.
    intros Hen Hwf [Hm Ek Hf Hj Ho Hs Hg Hko Hfo]. destruct (complete_autonomous self s) as [s1 r1] eqn:E1.
    pose proof (complete_aut_run normalise names_of name_of builtins ord ord_perm function_name s self me s1 r1 Hen Hwf Hm E1) as Hc.
    destruct Hc as [Hf'|Hf' Hn|j' o' Hf' Hj' Ho' Hd|j' o' Hf' Hk Hj' Ho' Hs' Hfo' Hne|j' o' Hf' Hk Hj' Ho' Hs' Hfo'|j' o' a b Hf' Hj' Ho' Hs' Hfo' Ha Hreq Hwhy Hb|j' o' a D Hf' Hj' Ho' Hs' Hfo' Ha Hreq Hstr HD]; try congruence.
    - exists a. split; [done|]. left. eexists. split; [done|]. done.
    - exists a. split; [done|]. right. exists D. do 3 (split; [done|]). assert (j' = j) as -> by congruence. assert (o' = o) as -> by congruence.
      revert E1. rewrite (bool_decide_eq_false_2 (o_kind me = Aut)) by congruence. fold (after_aut D (bool_decide (required (o_name me) a = ∅)) me). intros E1.
      set (me1 := after_aut _ _ me) in *. cbn zeta. set (o1 := if decide (self = j) then me1 else _).
      assert (Hlj : j < List.length (heap s)) by (by eapply lookup_lt_Some). assert (Hls : self < List.length (heap s)) by (by eapply lookup_lt_Some).
      set (s1' := St (<[self := me1]> (<[j := o1]> (heap s))) (known s)).
      assert (Hhp : St (<[self:=me1]> (<[j:=set_full false (set_deps (Some (sorted (elements D))) o)]> (heap s))) (known s) = s1').
      { unfold s1', o1. destruct (decide (self = j)) as [<-|]; [|done]. by rewrite !list_insert_insert. }
      rewrite Hhp.
      assert (Hm1 : heap s1' !! self = Some me1) by (cbn; apply list_lookup_insert; by rewrite insert_length).
      assert (Ho1 : heap s1' !! j = Some o1).
      { unfold o1. destruct (decide (self = j)) as [E|Hne]; [by rewrite <- E|]. cbn. rewrite list_lookup_insert_ne by done. by apply list_lookup_insert. }
      assert (Hio : same_identity o o1). { unfold o1. destruct (decide (self = j)) as [<-|]; [|done]. assert (o = me) as -> by congruence. done. }
      split; [done|]. do 2 (split; [done|]). split; [done|]. split; [done|]. split; [unfold o1; by destruct (decide _)|]. split; [unfold o1; by destruct (decide _)|].
      split. { unfold o1. destruct (decide _) as [<-|]; [|done]. assert (o = me) as -> by congruence. done. }
      assert (Hdec : forall i, option_map (fun x => (decorator x, o_src x)) (heap s1' !! i) = option_map (fun x => (decorator x, o_src x)) (heap s !! i)).
      { intros i. destruct (decide (i = self)) as [->|Hns].
        - rewrite Hm1, Hm. cbn. unfold decorator. cbn. by rewrite Ek.
        - destruct (decide (i = j)) as [->|Hnj]; [|cbn; by rewrite !list_lookup_insert_ne by done]. rewrite Ho1, Ho. cbn. destruct Hio as (I1 & I2 & I3 & I4 & I5 & I6).
          unfold decorator. rewrite <- I1, <- I3, <- I5, <- I6, Hko. done. }
      intros k n e. unfold block. change (reg s1' k n) with (reg s k n). split; intros (i & oi & Hi & Hoi & ->); specialize (Hdec i); rewrite Hoi in Hdec.
      + destruct (heap s !! i) as [x|] eqn:Ex; [|done]. cbn in Hdec. injection Hdec as -> ->. by exists i, x.
      + destruct (heap s1' !! i) as [x|] eqn:Ex; [|done]. cbn in Hdec. injection Hdec as <- <-. by exists i, x.
  Qed.

  Lemma tailed_finished s self j me o D b es :
    let me1 := after_aut D b me in let o1 := if decide (self = j) then me1 else set_full false (set_deps (Some (sorted (elements D))) o) in
    tailed (St (<[self := me1]> (<[j := o1]> (heap s))) (known s)) self j me1 o1 es = finished s self j me o D b es.
  Proof.
    intros me1 o1. unfold tailed, finished. cbn [heap known]. cbn zeta. fold me1. fold o1. f_equal.
    destruct (decide (self = j)) as [->|Hne]; [by rewrite !list_insert_insert|].
    rewrite (list_insert_commute _ j self) by done. rewrite !list_insert_insert. done.
  Qed.

  Lemma complete_first s self me j o s' : enrolled_ok s -> wf_known s -> unfinished s self me j o -> complete self s = (s', Ok tt) ->
    exists a (D : gset string) es, names_of (o_src me) = Ok a /\ (forall m, m ∈ required (o_name me) a -> reg s (home me) m <> None) /\ (o_strict me = true -> required (o_name me) a = ∅)
      /\ (forall m, m ∈ D <-> rtc (refers names_of s (home me)) (o_name me) m)
      /\ (required (o_name me) a = ∅ -> size D = 1)
      /\ Forall2 (block s (home me)) (sorted (guard_names me ++ sorted (elements D))) es /\ (o_aug o = None \/ o_aug o = Some es)
      /\ s' = finished s self j me o D (bool_decide (required (o_name me) a = ∅)) es.
  Proof.
    intros Hen Hwf Hun Hrun. pose proof Hun as [Hm Ek Hf Hj Ho Hs Hg Hko Hfo].
    rewrite (complete_unfold normalise names_of builtins ord _ _ _ Hm), Ek, Hf in Hrun. unfold bnd in Hrun.
    destruct (aut_step s self me j o Hen Hwf Hun) as (a & Ha & [(s1 & E & _)|(D & Hreq & Hstr & HD & HX)]); [rewrite E in Hrun; done|].
    cbn zeta in HX. set (me1 := after_aut D _ me) in *. set (o1 := if decide (self = j) then me1 else _) in *. set (s1 := St _ _) in HX.
    destruct HX as (E & Hm1 & Ho1 & Hid & Hio & Hdo & Hfo1 & Hao1 & Hblk). rewrite E in Hrun.
    destruct (tail_run s1 self me me1 j o1 s' (Ok tt) Hm1 Hid Hj Ho1 Hrun) as [[_ (e & ?)]|(_ & d & es & Hd & Hl1 & Hst1 & Hkp & Haug & Hbl & ->)]; [done|].
    rewrite Hdo in Hd. injection Hd as <-. exists a, D, es. do 4 (split; [done|]). split.
    { intros Hq. rewrite list_to_gset_len in Hst1. apply Hst1. cbn. by apply bool_decide_eq_true_2. }
    split; [rewrite sorted_idemp in Hbl; eapply Forall2_impl; [exact Hbl|]; intros; by apply Hblk|]. split; [by rewrite <- Hao1|]. apply tailed_finished.
  Qed.

  Lemma complete_fwd s self me j o a (D : gset string) es : enrolled_ok s -> wf_known s -> unfinished s self me j o ->
    names_of (o_src me) = Ok a -> (forall m, m ∈ required (o_name me) a -> reg s (home me) m <> None) -> (o_strict me = true -> required (o_name me) a = ∅) ->
    (forall m, m ∈ D <-> rtc (refers names_of s (home me)) (o_name me) m) -> (required (o_name me) a = ∅ -> size D = 1) ->
    Forall2 (block s (home me)) (sorted (guard_names me ++ sorted (elements D))) es -> (o_aug o = None \/ o_aug o = Some es) ->
    complete self s = (finished s self j me o D (bool_decide (required (o_name me) a = ∅)) es, Ok tt).
  Proof.
    intros Hen Hwf Hun Ha Hreq Hstr HD Hsz Hbl Haug. pose proof Hun as [Hm Ek Hf Hj Ho Hs Hg Hko Hfo].
    rewrite (complete_unfold normalise names_of builtins ord _ _ _ Hm), Ek, Hf.
    destruct (aut_step s self me j o Hen Hwf Hun) as (a' & Ha' & HX). assert (a' = a) as -> by congruence. cbn zeta in HX.
    destruct HX as [(s1 & _ & Hne & [(m & Hin & Hno)|Hst])|(D' & _ & _ & HD' & HX)]; [by apply Hreq in Hin|by apply Hstr in Hst|].
    assert (D' = D) as -> by (apply set_eq; intros m; by rewrite HD', HD).
    set (me1 := after_aut D _ me) in *. set (o1 := if decide (self = j) then me1 else _) in *. set (s1 := St _ _) in HX.
    destruct HX as (E & Hm1 & Ho1 & Hid & Hio & Hdo & Hfo1 & Hao1 & Hblk). unfold bnd. rewrite E.
    assert (Hne : 1 <= List.length (sorted (elements D))).
    { rewrite list_to_gset_len. assert (Hin : o_name me ∈ D) by (apply HD; constructor). destruct (decide (size D = 0)) as [Hz|]; [|lia].
      apply size_empty_inv in Hz. exfalso. apply Hz in Hin. by apply not_elem_of_empty in Hin. }
    rewrite (tail_fwd s1 self me me1 j o1 (sorted (elements D)) es Hm1 Hid Hj Ho1 Hdo Hne).
    - do 2 f_equal. apply tailed_finished.
    - cbn. intros Hq. apply bool_decide_eq_true in Hq. rewrite list_to_gset_len. auto.
    - destruct Hio as (I1 & _). congruence.
    - by rewrite Hao1.
    - rewrite sorted_idemp. eapply Forall2_impl; [exact Hbl|]. intros n e. apply Hblk.
  Qed.

  (** what pickling returns: the completed objects hold it *)
  Lemma augmented_run s self me j o : heap s !! self = Some me -> reg s (home me) (o_name me) = Some j -> heap s !! j = Some o ->
    augmented_source self s = (s, if o_full me then match o_aug o with Some es => Ok es | None => Err AssertionError end else Err AssertionError).
  Proof.
    intros Hm Hj Ho. unfold augmented_source. rewrite (bnd_get _ _ _ _ Hm). ms. destruct (o_full me); ms; [|done]. unfold reg, home in Hj.
    destruct (dict_get _ (known s)) as [isl|]; [|done]. cbn [or_raise]. ms. rewrite Hj. cbn [or_raise]. ms. rewrite (bnd_get _ _ _ _ Ho). by destruct (o_aug o).
  Qed.
  Lemma get_state_full s self me j o es : heap s !! self = Some me -> o_kind me = Pure -> o_full me = true ->
    reg s (home me) (o_name me) = Some j -> heap s !! j = Some o -> o_aug o = Some es ->
    get_state self s = (s, Ok (PickPure (o_name me) (o_src me) (o_island me) es (o_strict me) (o_guards me))).
  Proof.
    intros Hm Ek Hf Hj Ho Ha. unfold Registry.get_state. rewrite (bnd_get _ _ _ _ Hm). rewrite Ek. unfold bnd at 1.
    rewrite (complete_unfold normalise names_of builtins ord _ _ _ Hm), Ek, Hf. rewrite (bnd_get _ _ _ _ Hm). unfold bnd. rewrite (augmented_run _ _ _ _ _ Hm Hj Ho), Hf, Ha. done.
  Qed.
  Lemma finished_look s self j me o D b es : unfinished s self me j o ->
    heap (finished s self j me o D b es) !! self = Some (whole es (after_aut D b me)) /\
    exists o', heap (finished s self j me o D b es) !! j = Some o' /\ o_aug o' = Some es /\ o_full o' = true.
  Proof.
    intros [Hm Ek Hf Hj Ho Hs Hg Hko Hfo]. assert (Hlj : j < List.length (heap s)) by (by eapply lookup_lt_Some). assert (Hls : self < List.length (heap s)) by (by eapply lookup_lt_Some).
    unfold finished. cbn zeta. cbn [heap]. split; [apply list_lookup_insert; by rewrite insert_length|]. destruct (decide (self = j)) as [<-|Hne].
    - rewrite list_lookup_insert by (by rewrite insert_length). eexists. split; [reflexivity|]. done.
    - rewrite list_lookup_insert_ne by done. rewrite list_lookup_insert by done. eexists. split; [reflexivity|]. done.
  Qed.
  Lemma get_state_first s self me j o s' x : enrolled_ok s -> wf_known s -> unfinished s self me j o -> get_state self s = (s', Ok x) ->
    exists a (D : gset string) es, names_of (o_src me) = Ok a /\ (forall m, m ∈ required (o_name me) a -> reg s (home me) m <> None)
      /\ (forall m, m ∈ D <-> rtc (refers names_of s (home me)) (o_name me) m) /\ (required (o_name me) a = ∅ -> size D = 1)
      /\ Forall2 (block s (home me)) (sorted (guard_names me ++ sorted (elements D))) es
      /\ x = PickPure (o_name me) (o_src me) (o_island me) es (bool_decide (required (o_name me) a = ∅)) (o_guards me)
      /\ s' = finished s self j me o D (bool_decide (required (o_name me) a = ∅)) es
      /\ (o_strict me = true -> required (o_name me) a = ∅) /\ (o_aug o = None \/ o_aug o = Some es).
  Proof.
    intros Hen Hwf Hun Hrun. pose proof Hun as [Hm Ek Hf Hj Ho Hs Hg Hko Hfo]. unfold Registry.get_state in Hrun. rewrite (bnd_get _ _ _ _ Hm), Ek in Hrun.
    unfold bnd at 1 in Hrun. destruct (complete self s) as [s1 [[]|e]] eqn:E; [|done].
    destruct (complete_first s self me j o s1 Hen Hwf Hun E) as (a & D & es & Ha & Hreq & Hstr & HD & Hsz & Hbl & Haug & ->).
    exists a, D, es. do 5 (split; [done|]). destruct (finished_look s self j me o D (bool_decide (required (o_name me) a = ∅)) es Hun) as (L1 & o' & L2 & L3 & L4).
    rewrite (bnd_get _ _ _ _ L1) in Hrun. unfold bnd in Hrun. rewrite (augmented_run _ _ _ _ _ L1 Hj L2), L3 in Hrun. cbn in Hrun. injection Hrun as <- <-. done.
  Qed.
  Lemma get_state_fwd s self me j o a (D : gset string) es : enrolled_ok s -> wf_known s -> unfinished s self me j o ->
    names_of (o_src me) = Ok a -> (forall m, m ∈ required (o_name me) a -> reg s (home me) m <> None) -> (o_strict me = true -> required (o_name me) a = ∅) ->
    (forall m, m ∈ D <-> rtc (refers names_of s (home me)) (o_name me) m) -> (required (o_name me) a = ∅ -> size D = 1) ->
    Forall2 (block s (home me)) (sorted (guard_names me ++ sorted (elements D))) es -> (o_aug o = None \/ o_aug o = Some es) ->
    let s' := finished s self j me o D (bool_decide (required (o_name me) a = ∅)) es in
    complete self s = (s', Ok tt) /\ get_state self s = get_state self s' /\ get_state self s' = (s', Ok (PickPure (o_name me) (o_src me) (o_island me) es (bool_decide (required (o_name me) a = ∅)) (o_guards me))).
  Proof.
    intros Hen Hwf Hun Ha Hreq Hstr HD Hsz Hbl Haug s'. pose proof Hun as [Hm Ek Hf Hj Ho Hs Hg Hko Hfo].
    assert (Hc : complete self s = (s', Ok tt)) by (by apply complete_fwd). split; [done|]. destruct (finished_look s self j me o D (bool_decide (required (o_name me) a = ∅)) es Hun) as (L1 & o' & L2 & L3 & L4).
    fold s' in L1, L2. split.
    { unfold Registry.get_state. rewrite (bnd_get _ _ _ _ Hm), (bnd_get _ _ _ _ L1). change (o_kind (whole es _)) with (o_kind me). rewrite Ek. unfold bnd at 1. rewrite Hc. symmetry. unfold bnd at 1.
      rewrite (complete_unfold normalise names_of builtins ord _ _ _ L1). change (o_kind (whole es _)) with (o_kind me). rewrite Ek. done. }
    rewrite (get_state_full s' self _ j o' es L1); [done|done|done|exact Hj|done|done].
  Qed.
End Pure.
