(** Registration of functions: the invariant of sessions. *)
From Coq Require Import String Sorted.
From stdpp Require Import gmap.
From Verif Require Import Lib.Py Lib.DictLemmas Model.PyAst Model.Normalizer Model.NamesAnalyzer Model.CallGraph Model.Registry.
From Verif.Spec Require Import RegistrySpec.
From Verif.Proofs Require Import RegistryP.
Local Open Scope nat_scope.

Section Inv.
  Variable normalise : bool -> string -> res string.
  Variable names_of : string -> res ana.
  Variable name_of : string -> res string.
  Variable builtins : gset string.
  Variable ord : nat -> gset string -> list string.
  (** [strong]: nobody wrapped a pure function, or a function of another portal, in an autonomous one *)
  Variable strong : Prop.
  Variable default_island : nat -> string.
  Hypothesis ord_perm : forall t X, ord t X ≡ₚ elements X.
  Hypothesis function_name : forall src n a, normalise false src = Ok src -> name_of src = Ok n -> names_of src = Ok a -> a_function a = Some n.
  Notation enrolled_ok := (enrolled_ok normalise names_of name_of).
  Notation required := (required_names builtins).

  Definition guard_names (o : fnobj) : list string := match o_guards o with Some g => g | None => [] end.

  (** references inside a set of names *)
  Definition refersN (s : st) (k : nat * string) (N : gset string) (a b : string) : Prop :=
    (exists src, source_of s k a = Some src /\ mentions_name names_of src b) /\ b ∈ N.
  (** a block of an augmented source shows the function registered under the name *)
  Definition shows (s : st) (k : nat * string) (n : string) (e : entry) : Prop :=
    exists j o, reg s k n = Some j /\ heap s !! j = Some o /\ e.2 = o_src o /\
      match e.1 with
      | DAut _ i => o_kind o = Aut /\ i = o_island o
      | DPure i g => o_kind o = Pure /\ i = o_island o /\ g = o_guards o
      end.

  (** the results of a registration *)
  Definition deps_ok (s : st) (o : fnobj) : Prop := exists (N D : gset string),
    o_deps o = Some (sorted (elements D))
    /\ (forall m, m ∈ N -> reg s (home o) m <> None)
    /\ o_name o ∈ N
    /\ (forall m, m ∈ D <-> rtc (refersN s (home o) N) (o_name o) m)
    /\ (forall a, names_of (o_src o) = Ok a -> (forall m, m ∈ required (o_name o) a -> m ∈ N) /\ (strong -> o_kind o = Pure -> required (o_name o) a = ∅ -> size D = 1))
    /\ (strong -> o_kind o = Pure -> exists E : string -> entry, o_aug o = Some (map E (sorted (guard_names o ++ sorted (elements D)))) /\ (forall g, g ∈ guard_names o -> g ∈ N)
          /\ forall n, n ∈ guard_names o ++ sorted (elements D) -> shows s (home o) n (E n)).
  Definition obj_ok (s : st) (o : fnobj) : Prop :=
    ((forall c, o_code o = Some c -> c = o_src o) /\ (forall g, o_guards o = Some g -> sorted g = g))
    /\ (o_kind o = Aut -> o_guards o = None /\ o_aug o = None)
    /\ (o_kind o = Pure -> exists j o', reg s (home o) (o_name o) = Some j /\ heap s !! j = Some o'
          /\ o_src o' = o_src o /\ o_guards o' = o_guards o /\ o_kind o' = Pure /\ (o_full o = true -> o_full o' = true /\ (strong -> o_aug o' = o_aug o)))
    /\ (strong -> o_kind o = Aut -> o = blank Aut (o_portal o) \/ exists j o', reg s (home o) (o_name o) = Some j /\ heap s !! j = Some o'
          /\ o_kind o' = Aut /\ o_src o' = o_src o /\ (o_full o = true -> o_full o' = true)).
  (** [x]: an object under construction *)
  Record invx (x : option nat) (s : st) : Prop := Inv {
    inv_enrolled : enrolled_ok s;
    inv_wf : wf_known s;
    inv_reg : forall k n j o, reg s k n = Some j -> heap s !! j = Some o -> o_full o = true -> deps_ok s o;
    inv_obj : forall i o, Some i <> x -> heap s !! i = Some o -> obj_ok s o
  }.
  Notation inv := (invx None).

  (** a completed registration stays *)
  Definition kept (o o' : fnobj) : Prop :=
    o_full o' = true /\ o_strict o' = o_strict o /\ o_code o' = o_code o /\ o_deps o' = o_deps o
    /\ (o_aug o' = o_aug o \/ o_aug o = None /\ o_kind o = Pure) /\ (strong -> o' = o).
  Lemma kept_refl o : o_full o = true -> kept o o.
  Proof. intros H. repeat split; auto. Qed.
  Lemma kept_trans a b c : same_identity a b -> kept a b -> kept b c -> kept a c.
  Proof.
    intros (I1 & _) (A1 & A2 & A3 & A4 & A5 & A6) (B1 & B2 & B3 & B4 & B5 & B6). repeat split; try congruence.
    - destruct A5 as [A5|A5]; [|by right]. rewrite <- A5, I1. destruct B5; [left|right]; congruence.
    - intros H. rewrite B6, A6; done.
  Qed.
  (** what a session may do to the objects it had *)
  Definition ev (s s' : st) : Prop :=
    (forall i o, heap s !! i = Some o -> exists o', heap s' !! i = Some o' /\ same_identity o o' /\ (o_full o = true -> kept o o') /\ (enrolled s i -> o_strict o = true -> o_strict o' = true))
    /\ (forall k n j, reg s k n = Some j -> reg s' k n = Some j).
  (** the same, for registered objects only *)
  Definition mono (s s' : st) : Prop :=
    (forall i o, enrolled s i -> heap s !! i = Some o -> exists o', heap s' !! i = Some o' /\ same_identity o o' /\ (o_full o = true -> kept o o') /\ (enrolled s i -> o_strict o = true -> o_strict o' = true))
    /\ (forall k n j, reg s k n = Some j -> reg s' k n = Some j).

  Lemma same_identity_refl o : same_identity o o.
  Proof. repeat split. Qed.
  Lemma same_identity_trans a b c : same_identity a b -> same_identity b c -> same_identity a c.
  Proof. unfold same_identity. intros (?&?&?&?&?&?) (?&?&?&?&?&?). repeat split; congruence. Qed.
  Lemma ev_refl s : ev s s.
  Proof. split; [|done]. intros i o H. exists o. split; [done|]. split; [apply same_identity_refl|split; [apply kept_refl|done]]. Qed.
  Lemma ev_trans s1 s2 s3 : ev s1 s2 -> ev s2 s3 -> ev s1 s3.
  Proof.
    intros [H1 R1] [H2 R2]. split; [|auto]. intros i o H. destruct (H1 _ _ H) as (o' & H' & I & F & G). destruct (H2 _ _ H') as (o'' & H'' & I' & F' & G').
    exists o''. split; [done|]. split; [by eapply same_identity_trans|]. split; [|intros He Hs; apply G'; [destruct He as (k & n & He); exists k, n; by apply R1|by apply G]]. intros Hf. pose proof (F Hf) as K. eapply kept_trans; [done|done|]. apply F', K.
  Qed.
  Lemma ev_mono s s' : ev s s' -> mono s s'.
  Proof. intros [H R]. split; [|done]. intros i o _. apply H. Qed.
  Lemma mono_reg s s' k n j : mono s s' -> reg s k n = Some j -> reg s' k n = Some j.
  Proof. intros [_ H]. apply H. Qed.

  Lemma mono_source s s' k n src : enrolled_ok s -> mono s s' -> source_of s k n = Some src -> source_of s' k n = Some src.
  Proof.
    intros Hen [Ho Hr] H. unfold source_of, definition_of in *. destruct (reg s k n) as [j|] eqn:E; [|done].
    destruct (Hen _ _ _ E) as (o & Hj & _). rewrite Hj in H. rewrite (Hr _ _ _ E).
    destruct (Ho j o) as (o' & -> & I & _); [by exists k, n|done|]. cbn in *. destruct I as (_ & _ & <- & _). done.
  Qed.
  Lemma enrolled_source s k n : enrolled_ok s -> reg s k n <> None -> is_Some (source_of s k n).
  Proof.
    intros Hen H. unfold source_of, definition_of. destruct (reg s k n) as [j|] eqn:E; [|done]. destruct (Hen _ _ _ E) as (o & -> & _). by eexists.
  Qed.

  Lemma mono_closure s s' k N n : enrolled_ok s -> mono s s' -> (forall m, m ∈ N -> reg s k m <> None) -> n ∈ N ->
    forall m, rtc (refersN s' k N) n m <-> rtc (refersN s k N) n m.
  Proof.
    intros Hen Hmo HN Hn m. split; intros H.
    - revert Hn. induction H as [|x y z [(src & Hs & Hm) Hy] _ IH]; intros Hx; [constructor|].
      destruct (enrolled_source s k x Hen (HN _ Hx)) as [src' Hs']. pose proof (mono_source _ _ _ _ _ Hen Hmo Hs') as E. rewrite Hs in E. injection E as <-.
      eapply rtc_l; [|by apply IH]. split; [by exists src|done].
    - eapply rtc_subrel; [|exact H]. intros x y [(src & Hs & Hm) Hy]. split; [|done]. exists src. split; [by eapply mono_source|done].
  Qed.
  Lemma mono_shows s s' k n e : enrolled_ok s -> mono s s' -> shows s k n e -> shows s' k n e.
  Proof.
    intros Hen [Ho Hr] (j & o & Hj & Hh & H2 & H1). destruct (Ho j o) as (o' & Hh' & (I1 & I2 & I3 & I4 & I5 & I6) & _); [by exists k, n|done|].
    exists j, o'. split; [by apply Hr|]. split; [done|]. rewrite <- I3. split; [done|]. destruct (e.1); rewrite <- I1, <- I5, <- ?I6; done.
  Qed.
  Lemma mono_deps_ok s s' o : enrolled_ok s -> mono s s' -> deps_ok s o -> deps_ok s' o.
  Proof.
    intros Hen Hmo (N & D & H1 & H2 & H3 & H4 & H5 & H6). exists N, D. split; [done|]. split.
    { intros m Hm E. apply (H2 m Hm). destruct (reg s (home o) m) as [j|] eqn:Ej; [|done]. apply (mono_reg _ _ _ _ _ Hmo) in Ej. congruence. }
    split; [done|]. split; [intros m; rewrite H4; symmetry; by apply mono_closure|]. split; [done|].
    intros Hst Hp. destruct (H6 Hst Hp) as (E & Ea & G & F). exists E. split; [done|]. split; [done|]. intros n Hn. eapply mono_shows; [done|done|by apply F].
  Qed.
  Lemma mono_obj_ok s s' o : mono s s' -> obj_ok s o -> obj_ok s' o.
  Proof.
    intros [Ho Hr] (H1 & H2 & H3 & H4). split; [done|]. split; [done|]. split.
    2:{ intros Hst Hk. destruct (H4 Hst Hk) as [?|(j & o' & Hj & Hh & Hkk & Hs & Hf)]; [by left|right]. destruct (Ho j o') as (o'' & Hh' & (I1 & _ & I3 & _) & K & _); [by eexists _, _|done|].
        exists j, o''. split; [by apply Hr|]. split; [done|]. split; [congruence|]. split; [congruence|]. intros Hfo. by apply (K (Hf Hfo)). }
    intros Hk. destruct (H3 Hk) as (j & o' & Hj & Hh & Hs & Hg & Hkk & Hf).
    destruct (Ho j o') as (o'' & Hh' & (I1 & I2 & I3 & I4 & I5 & I6) & E & _); [by eexists _, _|done|]. exists j, o''. split; [by apply Hr|]. split; [done|].
    rewrite <- I1, <- I3, <- I6. do 3 (split; [done|]). intros Hfo. destruct (Hf Hfo) as [F1 F2]. destruct (E F1) as (K1 & _ & _ & _ & _ & K6). split; [done|]. intros Hst. rewrite (K6 Hst). auto.
  Qed.

  (** changing the object under construction *)
  Lemma inv_put x s self o kn : invx x s -> (x = None \/ x = Some self) -> (forall k n, reg (St (heap s) kn) k n = reg s k n) -> wf_known (St (heap s) kn) -> ~ enrolled s self ->
    invx (Some self) (St (<[self := o]> (heap s)) kn) /\ (obj_ok s o -> invx None (St (<[self := o]> (heap s)) kn)).
  Proof.
    intros [Hen Hwf Hreg Hobj] Hx Hrg Hwf' Hne. set (s' := St _ _).
    assert (Hreg' : forall k n, reg s' k n = reg s k n) by (intros; rewrite <- Hrg; done).
    assert (Hlook : forall j, enrolled s j -> heap s' !! j = heap s !! j).
    { intros j Hj. cbn. apply list_lookup_insert_ne. intros ->. done. }
    assert (Hmo : mono s s').
    { split; [|intros; by rewrite Hreg']. intros i oi Hi Hh. exists oi. rewrite Hlook by done. split; [done|]. split; [apply same_identity_refl|split; [apply kept_refl|done]]. }
    assert (H1 : enrolled_ok s').
    { intros k n j Hj. rewrite Hreg' in Hj. destruct (Hen _ _ _ Hj) as (oj & H). exists oj. rewrite Hlook by (by exists k, n). done. }
    assert (H2 : forall k n j o, reg s' k n = Some j -> heap s' !! j = Some o -> o_full o = true -> deps_ok s' o).
    { intros k n j oj Hj Hh Hf. rewrite Hreg' in Hj. rewrite Hlook in Hh by (by exists k, n). apply (mono_deps_ok s); [done..|]. (eapply Hreg; eassumption). }
    assert (H3 : forall i oi, i <> self -> heap s' !! i = Some oi -> obj_ok s' oi).
    { intros i oi Hi Hh. cbn in Hh. rewrite list_lookup_insert_ne in Hh by done. apply (mono_obj_ok s); [done|]. eapply Hobj; [|exact Hh]. destruct Hx as [->| ->]; congruence. }
    split; [|intros Hok]; split; try done.
    - intros i oi Hi. apply H3. congruence.
    - intros i oi _ Hi. destruct (decide (i = self)) as [->|Hn]; [|by eapply H3]. cbn in Hi.
      apply list_lookup_insert_Some in Hi as [(_ & -> & _)|[? _]]; [|done]. by apply (mono_obj_ok s).
  Qed.
  Lemma inv_alloc s o : inv s -> let s' := St (heap s ++ [o]) (known s) in
    invx (Some (List.length (heap s))) s' /\ ev s s' /\ ~ enrolled s' (List.length (heap s)) /\ heap s' !! List.length (heap s) = Some o.
  Proof.
    intros [Hen Hwf Hreg Hobj] s'.
    assert (Hlook : forall j x, heap s !! j = Some x -> heap s' !! j = Some x).
    { intros j x Hj. cbn. rewrite lookup_app_l; [done|]. by eapply lookup_lt_Some. }
    assert (Hev : ev s s').
    { split; [|done]. intros i oi Hh. exists oi. split; [by apply Hlook|]. split; [apply same_identity_refl|split; [apply kept_refl|done]]. }
    pose proof (ev_mono _ _ Hev) as Hmo.
    split; [split|split; [done|split]].
    - intros k n j Hj. destruct (Hen _ _ _ Hj) as (oj & H1 & H). exists oj. split; [by apply Hlook|done].
    - done.
    - intros k n j oj Hj Hh Hf. destruct (Hen _ _ _ Hj) as (oj' & H1 & _). assert (oj = oj') as -> by (apply Hlook in H1; congruence).
      apply (mono_deps_ok s); [done..|]. (eapply Hreg; eassumption).
    - intros i oi Hn Hi. cbn in Hi. apply (mono_obj_ok s); [done|]. apply lookup_app_Some in Hi as [Hi|[? Hi]]; [by eapply Hobj|].
      apply list_lookup_singleton_Some in Hi as [? _]. exfalso. apply Hn. f_equal. lia.
    - intros (k & n & Hr). destruct (Hen _ _ _ Hr) as (oj & H1 & _). apply lookup_lt_Some in H1. lia.
    - cbn. by rewrite lookup_app_r, Nat.sub_diag.
  Qed.

  (** registering a new object *)
  Lemma inv_enrol s self me kn : invx (Some self) s -> heap s !! self = Some me -> o_full me = false -> reg s (home me) (o_name me) = None ->
    name_of (o_src me) = Ok (o_name me) -> fit normalise names_of (o_src me) = Ok tt ->
    (forall c, o_code me = Some c -> c = o_src me) -> (forall g, o_guards me = Some g -> sorted g = g) -> (o_kind me = Aut -> o_guards me = None /\ o_aug me = None) ->
    (forall k n, reg (St (heap s) kn) k n = if decide (k = home me /\ n = o_name me) then Some self else reg s k n) ->
    wf_known (St (heap s) kn) -> inv (St (heap s) kn).
  Proof.
    intros [Hen Hwf Hreg Hobj] Hm Hf Hnone Hnm Hfit Hcode Hgs Haut Hrg Hwf'.
    assert (Hmo : mono s (St (heap s) kn)).
    { split; [intros i oi _ Hi; exists oi; split; [done|]; split; [apply same_identity_refl|split; [apply kept_refl|done]]|]. intros k n j Hj. rewrite Hrg, decide_False; [done|].
      intros [-> ->]. congruence. }
    split.
    - intros k n j Hj. rewrite Hrg in Hj. destruct (decide _) as [[-> ->]|]; [|by apply Hen]. injection Hj as <-. exists me. done.
    - done.
    - intros k n j oj Hj Hh Hfj. rewrite Hrg in Hj. cbn in Hh. destruct (decide _) as [[-> ->]|]; [congruence|]. apply (mono_deps_ok s); [done..|]. (eapply Hreg; eassumption).
    - intros i oi _ Hi. destruct (decide (i = self)) as [->|Hne].
      + cbn in Hi. rewrite Hm in Hi. injection Hi as <-. split; [done|]. split; [done|]. split; [intros Hp|intros _ Hp; right]; exists self, me; rewrite Hrg, decide_True by done; cbn; done.
      + apply (mono_obj_ok s); [done|]. apply (Hobj i); [congruence|done].
  Qed.

  (** changing objects without completing them *)
  Definition touched (o o' : fnobj) : Prop :=
    same_identity o o' /\ o_full o = false /\ o_full o' = false /\ (forall c, o_code o' = Some c -> c = o_src o') /\ (o_kind o' = Aut -> o_aug o' = None) /\ (forall p, o <> blank Aut p) /\ (o_strict o = true -> o_strict o' = true).
  Lemma inv_touch s s' : inv s -> known s' = known s ->
    (forall i, heap s' !! i = heap s !! i \/ exists o o', heap s !! i = Some o /\ heap s' !! i = Some o' /\ touched o o') -> inv s' /\ ev s s'.
  Proof.
    intros [Hen Hwf Hreg Hobj] Hk Hh.
    assert (Hrg : forall k n, reg s' k n = reg s k n) by (intros; unfold reg; by rewrite Hk).
    assert (Hev : ev s s').
    { split; [|intros; by rewrite Hrg]. intros i o Hi. destruct (Hh i) as [->|(o1 & o' & E & E' & T)].
      - exists o. split; [done|]. split; [apply same_identity_refl|split; [apply kept_refl|done]].
      - rewrite Hi in E. injection E as <-. exists o'. split; [done|]. destruct T as (T1 & T2 & _ & _ & _ & _ & T3). split; [done|]. split; [congruence|done]. }
    pose proof (ev_mono _ _ Hev) as Hmo. split; [|done]. split.
    - intros k n j Hj. rewrite Hrg in Hj. destruct (Hen _ _ _ Hj) as (o & Ho & H1 & H2 & H3 & H4). destruct Hev as [He _].
      destruct (He _ _ Ho) as (o' & Ho' & (I1 & I2 & I3 & I4 & I5 & I6) & _). exists o'. split; [done|]. unfold home in *. rewrite <- I2, <- I5, <- I4, <- I3. done.
    - unfold wf_known. rewrite Hk. done.
    - intros k n j o Hj Ho Hf. rewrite Hrg in Hj. destruct (Hh j) as [E|(o1 & o' & E & E' & T)].
      + rewrite E in Ho. apply (mono_deps_ok s); [done..|]. (eapply Hreg; eassumption).
      + rewrite Ho in E'. injection E' as <-. destruct T as (_ & _ & T & _). congruence.
    - intros i o _ Ho. destruct (Hh i) as [E|(o1 & o' & E & E' & T)].
      + rewrite E in Ho. apply (mono_obj_ok s); [done|]. by eapply Hobj.
      + rewrite Ho in E'. injection E' as <-. destruct T as ((I1 & I2 & I3 & I4 & I5 & I6) & T2 & T3 & T4 & T5 & T6 & T7).
        assert (Hok : obj_ok s' o1) by (apply (mono_obj_ok s); [done|by eapply Hobj]). destruct Hok as ([_ HG] & HA & HP & HL). split; [rewrite <- I6; done|]. split; [|split].
        * intros Ha. split; [|by apply T5]. rewrite <- I6. apply HA. congruence.
        * intros Hp. destruct HP as (j & oj & Hj & Hoj & Hs & Hg & Hkk & _); [congruence|]. exists j, oj. unfold home in *. rewrite <- I2, <- I3, <- I4, <- I5, <- I6.
          do 5 (split; [done|]). congruence.
        * intros Hst Hka. destruct (HL Hst) as [HL'|(j & oj & Hj & Hoj & Hkk & Hss & Hff)]; [congruence| |right; exists j, oj; unfold home in *; rewrite <- I2, <- I4, <- I5, <- I3; do 4 (split; [done|]); congruence].
          exfalso. by apply (T6 (o_portal o1)).
  Qed.

  (** completing an object and the registered one *)
  Lemma inv_complete s j o o' self me me' : inv s -> reg s (home me) (o_name me) = Some j -> heap s !! j = Some o -> heap s !! self = Some me ->
    same_identity o o' -> (o_full o = true -> kept o o') -> o_full o' = true -> deps_ok s o' -> (forall c, o_code o' = Some c -> c = o_src o') -> (o_kind o' = Aut -> o_aug o' = None) ->
    same_identity me me' -> o_full me = false -> (self = j -> me' = o') -> (forall c, o_code me' = Some c -> c = o_src me') -> (o_kind me' = Aut -> o_aug me' = None) ->
    (strong -> o_kind me = Pure -> o_aug o' = o_aug me') -> (strong -> o_kind me = Aut -> o_kind o' = Aut) -> o_src me = o_src o ->
    (o_strict o = true -> o_strict o' = true) ->
    let s' := St (<[self := me']> (<[j := o']> (heap s))) (known s) in inv s' /\ ev s s'.
  Proof.
    intros [Hen Hwf Hreg Hobj] Hj Ho Hme Io Hfo Hfull Hdeps Hco Hao Im Hfm Hsj Hcm Ham Haug Hkind Hsmo Hstro s'.
    assert (Hrg : forall k n, reg s' k n = reg s k n) by done.
    assert (Hlj : j < List.length (heap s)) by (by eapply lookup_lt_Some). assert (Hls : self < List.length (heap s)) by (by eapply lookup_lt_Some).
    assert (Hself : heap s' !! self = Some me') by (cbn; apply list_lookup_insert; by rewrite insert_length).
    assert (Hjj : heap s' !! j = Some o').
    { destruct (decide (self = j)) as [->|Hne]; [by rewrite <- Hsj|]. cbn. rewrite list_lookup_insert_ne by done. by apply list_lookup_insert. }
    assert (Hother : forall i, i <> self -> i <> j -> heap s' !! i = heap s !! i).
    { intros i H1 H2. cbn. rewrite !list_lookup_insert_ne by done. done. }
    assert (Hev : ev s s').
    { split; [|done]. intros i oi Hi. destruct (decide (i = self)) as [->|Hns].
      - rewrite Hme in Hi. injection Hi as <-. exists me'. split; [done|]. split; [done|]. split; [congruence|]. intros (k & n & Hen') Hs. destruct (Hen _ _ _ Hen') as (om & Hom & Hhm & Hnm & _). rewrite Hme in Hom. injection Hom as <-. subst k n.
        assert (self = j) as -> by congruence. rewrite Hsj by done. apply Hstro. congruence.
      - destruct (decide (i = j)) as [->|Hnj].
        + rewrite Ho in Hi. injection Hi as <-. exists o'. done.
        + exists oi. rewrite Hother by done. split; [done|]. split; [apply same_identity_refl|split; [apply kept_refl|done]]. }
    pose proof (ev_mono _ _ Hev) as Hmo. split; [|done].
    destruct (Hen _ _ _ Hj) as (o1 & Ho1 & Hh1 & Hn1 & _). rewrite Ho in Ho1. injection Ho1 as <-.
    split.
    - intros k n i Hi. rewrite Hrg in Hi. destruct (Hen _ _ _ Hi) as (oi & Hoi & H1 & H2 & H3 & H4). destruct Hev as [He _].
      destruct (He _ _ Hoi) as (oi' & Hoi' & (I1 & I2 & I3 & I4 & I5 & I6) & _). exists oi'. split; [done|]. unfold home in *. rewrite <- I2, <- I5, <- I4, <- I3. done.
    - done.
    - intros k n i oi Hi Hoi Hf. rewrite Hrg in Hi. destruct (decide (i = j)) as [->|Hnj].
      + rewrite Hjj in Hoi. injection Hoi as <-. by eapply mono_deps_ok.
      + destruct (decide (i = self)) as [->|Hns].
        * exfalso. destruct (Hen _ _ _ Hi) as (om & Hom & Hhm & Hnm & _). rewrite Hme in Hom. injection Hom as <-. subst k n. congruence.
        * rewrite Hother in Hoi by done. apply (mono_deps_ok s); [done..|]. (eapply Hreg; eassumption).
    - assert (Hpair : forall x x', heap s !! j = Some o -> same_identity x x' -> obj_ok s x -> (forall c, o_code x' = Some c -> c = o_src x') -> (o_kind x' = Aut -> o_aug x' = None) ->
                home x = home o -> o_name x = o_name o -> (strong -> o_kind x = Pure -> o_aug o' = o_aug x') -> (strong -> o_kind x = Aut -> o_kind o' = Aut) -> o_src x = o_src o -> obj_ok s' x').
      { intros x x' _ (I1 & I2 & I3 & I4 & I5 & I6) Hx Hc Ha Hhx Hnx Hax Hkx Hsx. apply (mono_obj_ok _ _ _ Hmo) in Hx. destruct Hx as ([_ HG] & HA & HP & HL). split; [rewrite <- I6; done|]. split; [|split].
        - intros Hk. split; [|by apply Ha]. rewrite <- I6. apply HA. congruence.
        - intros Hk. destruct HP as (j' & oj & Hj' & Hoj & Hs & Hg & Hkk & _); [congruence|].
          assert (home x' = home x) as Hhx' by (unfold home; congruence).
          assert (j' = j) as -> by (rewrite Hrg, Hhx, Hnx, <- Hh1, <- Hn1, Hj in Hj'; by injection Hj').
          rewrite Hjj in Hoj. injection Hoj as <-. exists j, o'. rewrite Hhx', <- I4, Hrg, Hhx, Hnx, <- Hh1, <- Hn1. split; [done|]. split; [done|].
          rewrite Hs, Hg. split; [done|]. split; [done|]. split; [done|]. intros _. split; [done|]. intros Hst. apply Hax; congruence.
        - intros Hst Hk. right. exists j, o'. assert (home x' = home x) as Hhx' by (unfold home; congruence).
          rewrite Hhx', <- I4, Hrg, Hhx, Hnx, <- Hh1, <- Hn1. split; [done|]. split; [done|]. split; [apply Hkx; congruence|]. split; [|done]. destruct Io as (_ & _ & Io & _). congruence. }
      intros i oi _ Hoi. destruct (decide (i = self)) as [->|Hns].
      + rewrite Hself in Hoi. injection Hoi as <-. eapply (Hpair me); try done. by eapply Hobj.
      + destruct (decide (i = j)) as [->|Hnj].
        * rewrite Hjj in Hoi. injection Hoi as <-. eapply (Hpair o); try done; [by eapply Hobj|]. intros _ ?. destruct Io; congruence.
        * rewrite Hother in Hoi by done. apply (mono_obj_ok s); [done|]. by eapply Hobj.
  Qed.
End Inv.
