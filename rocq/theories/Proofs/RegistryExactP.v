(** Exactly when a definition is accepted and when a first use goes ahead. *)
From Coq Require Import String Sorted.
From stdpp Require Import gmap.
From Verif Require Import Lib.Py Lib.DictLemmas Model.PyAst Model.Normalizer Model.NamesAnalyzer Model.CallGraph Model.Registry.
From Verif.Spec Require Import RegistrySpec RegistryExactSpec.
From Verif.Proofs Require Import RegistryP RegistryInvP RegistryOpsP RegistryCompleteP RegistryRunP RegistryUseP RegistryFrameP RegistryPureP RegistryRestoreP RegistryClaimsP.
Local Open Scope nat_scope.

Lemma guards_conv self me l s s' g : heap s !! self = Some me -> preprocess_guards self (Some l) s = (s', Ok g) ->
  dict_get (home me) (known s) <> None /\ forall x, x ∈ l -> guard_fits s (home me) x.
Proof.
  intros Hm. unfold preprocess_guards. rewrite (bnd_get _ _ _ _ Hm). ms. fold (home me).
  destruct (dict_get (home me) (known s)) as [isl|] eqn:Ek; cbn [or_raise]; ms; [|done].
  match goal with |- bnd (mapm ?f0 _) _ _ = _ -> _ => set (f := f0) end.
  assert (E : forall l1 ns s1, mapm f l1 s = (s1, Ok ns) -> s1 = s /\ forall x, x ∈ l1 -> guard_fits s (home me) x).
  { induction l1 as [|x l0 IH]; intros ns s1; cbn [mapm]; [unfold ret; intros H; injection H as <- <-; split; [done|]; intros x Hx; inversion Hx|].
    unfold f at 1. destruct x as [i|x]; ms.
    - unfold bnd at 1, get. destruct (heap s !! i) as [o|] eqn:Ho; [|done]. ms. destruct (o_strict o) eqn:Es; [|done]. ms.
      destruct (bool_decide_reflect (o_island o = o_island me)); ms; [|done]. destruct (bool_decide_reflect (o_portal o = o_portal me)); ms; [|done].
      unfold bnd at 1. destruct (mapm f l0 s) as [s2 [ns'|]]; [|done]. intros [= <- <-]. destruct (IH _ _ eq_refl) as (-> & E).
      split; [done|]. intros y Hy. apply elem_of_cons in Hy as [->|Hy]; [|by apply E]. exists o. split; [done|]. split; [done|]. unfold home. congruence.
    - destruct (dict_mem x isl) eqn:Ex; ms; [|done]. unfold bnd at 1. destruct (mapm f l0 s) as [s2 [ns'|]]; [|done]. intros [= <- <-]. destruct (IH _ _ eq_refl) as (-> & E).
      split; [done|]. intros y Hy. apply elem_of_cons in Hy as [->|Hy]; [|by apply E]. cbn. unfold reg. rewrite Ek. unfold dict_mem in Ex. by destruct (dict_get x isl). }
  unfold bnd. destruct (mapm f l s) as [s2 [ns|]] eqn:El; [|done]. apply E in El. destruct El as (-> & El). intros _. split; [done|exact El].
Qed.

Section Exact.
  Variable normalise : bool -> string -> res string.
  Variable names_of : string -> res ana.
  Variable name_of : string -> res string.
  Variable builtins : gset string.
  Variable strong : Prop.
  Variable ord : nat -> gset string -> list string.
  Variable default_island : nat -> string.
  Hypothesis ord_perm : forall t X, ord t X ≡ₚ elements X.
  Hypothesis function_name : forall src n a, normalise false src = Ok src -> name_of src = Ok n -> names_of src = Ok a -> a_function a = Some n.
  Notation enrolled_ok := (enrolled_ok normalise names_of name_of).
  Notation invx := (invx normalise names_of name_of builtins strong).
  Notation inv := (invx None).
  Notation required := (required_names builtins).
  Notation begin_registration := (begin_registration normalise names_of).
  Notation complete := (complete normalise names_of builtins ord).
  Notation new_fn := (new_fn normalise names_of name_of default_island).
  Notation get_state := (get_state normalise names_of builtins ord).
  Notation prepare := (prepare normalise names_of builtins ord).
  Notation iod := (island_or_default default_island).
  Notation accepted := (accepted normalise names_of name_of default_island).
  Notation self_contained := (self_contained normalise names_of).

  Lemma fit_iff src : fit normalise names_of src = Ok tt <-> self_contained src.
  Proof.
    unfold self_contained. split.
    - intros H. apply fit_ok in H as (a & _ & Hn & Ha & Hb). split; [done|]. exists a. split; [done|]. unfold begin_check, passert in Hb.
      destruct (bool_decide_reflect (a_nonlocal a ∖ names_set all_decorators = ∅)) as [E|]; [|done]. cbn [rbind] in Hb. destruct (a_yields a =? 0) eqn:Ey; [|done].
      apply Nat.eqb_eq in Ey. split; [done|]. intros x Hx. destruct (decide (x ∈ all_decorators)); [done|]. exfalso. apply (not_elem_of_empty (C := gset string) x). rewrite <- E.
      apply elem_of_difference. split; [done|]. unfold names_set. by rewrite elem_of_list_to_set.
    - intros (Hn & a & Ha & Hy & Hd). unfold fit, analyse. rewrite Hn. cbn [rbind]. rewrite Ha. cbn [rbind]. unfold passert. rewrite bool_decide_eq_true_2 by done. cbn [rbind].
      unfold begin_check, passert. rewrite bool_decide_eq_true_2, Hy; [done|]. apply leibniz_equiv. intros x. rewrite elem_of_difference. unfold names_set. rewrite elem_of_list_to_set.
      split; [|intros H; by apply not_elem_of_empty in H]. intros [H1 H2]. by apply Hd in H1.
  Qed.

  Lemma lookup_unique s j o k n : inv s -> reg s k n = Some j -> heap s !! j = Some o -> k = home o /\ n = o_name o /\ name_of (o_src o) = Ok n /\ fit normalise names_of (o_src o) = Ok tt.
  Proof. intros Hi Hj Ho. destruct (inv_enrolled _ _ _ _ _ _ _ Hi _ _ _ Hj) as (o1 & Ho1 & H). assert (o1 = o) as -> by congruence. done. Qed.

  Lemma new_fn_exact s k code isl strictly gs p : inv s ->
    (exists s', new_fn k code isl strictly gs p s = (s', Ok (List.length (heap s)))) <-> accepted s k code isl strictly gs p.
  Proof.
    intros Hinv. split.
    - intros (s' & Hrun).
      destruct (new_fn_run normalise names_of name_of builtins strong default_island s k code isl strictly gs p s' _ Hinv Hrun) as (_ & _ & _ & H). cbn zeta in H.
      destruct H as (_ & src & name & g & Hn & Hnm & Hg0 & Hix & Hne & Hraw & Hb & Hg). set (self := List.length (heap s)) in *.
      set (me := raw_fn k src name (iod isl p) strictly g p) in *. set (s2 := St (heap s ++ [me]) (known s)) in *.
      exists src, name. split; [done|]. split; [done|]. split.
      { intros Hk. destruct (Hg Hk) as (s3 & Hpg & Hk3 & Hh3 & m3 & Hm3 & Hp3 & Hi3 & Hs3). destruct gs as [l|]; [|done].
        destruct (guards_conv self m3 l s3 s3 g Hm3 Hpg) as [G1 G2]. assert (Hhm : home m3 = (p, iod isl p)) by (unfold home; congruence). rewrite Hhm, ?Hk3 in *.
        split; [done|]. intros x Hx. specialize (G2 x Hx). destruct x as [f|x]; cbn in *; [|unfold reg in *; by rewrite Hk3 in G2].
        destruct G2 as (o & Ho & Hst & Hh). exists o. split; [|done]. assert (f <> self) by congruence. rewrite Hh3 in Ho by done. cbn in Ho.
        apply lookup_app_Some in Ho as [Ho|[Hge Ho]]; [done|]. destruct (f - List.length (heap s)) eqn:E; [exfalso; unfold self in *; lia|done]. }
      assert (Hl : heap s2 !! self = Some me) by apply lookup_snoc.
      pose proof (begin_run normalise names_of s2 self me s' (Ok tt) Hl Hne (enrolled_alive _ _ _ _ (inv_enrolled _ _ _ _ _ _ _ Hix)) Hb) as Hbg.
      assert (Hd : decorator me = requested s k strictly (iod isl p) gs).
      { unfold decorator, requested, me. cbn. destruct k; cbn; [done|]. f_equal. destruct (Hg eq_refl) as (s3 & Hpg & Hk3 & Hh3 & m3 & Hm3 & Hp3 & Hi3 & Hs3).
        destruct (guards_meaning self m3 gs s3 s3 g Hm3 Hs3 Hpg) as [-> Hf]. destruct gs as [l|]; [|done]. cbn. do 2 f_equal. apply map_ext_in. intros x Hx. apply elem_of_list_In in Hx.
        destruct x as [f|x]; [|done]. cbn. specialize (Hf f l eq_refl Hx). rewrite (Hh3 f Hf). cbn.
        destruct (decide (f < self)) as [Hlt|Hge]; [by rewrite lookup_app_l|]. rewrite lookup_app_r by (unfold self in *; lia).
        rewrite (lookup_ge_None_2 (heap s)) by (unfold self in *; lia). destruct (f - List.length (heap s)) eqn:E; [unfold self in *; lia|done]. }
      inversion Hbg as [j o Hj Ho Hsd Es Er|j o Hj Ho Hsd Es Er|kn e Hj Hf Hr Hw Es Er|kn Hj Hf Hr Hw Es].
      + change (reg s2 (home me) (o_name me)) with (reg s (p, iod isl p) name) in Hj.
        assert (Ho' : heap s !! j = Some o). { destruct (inv_enrolled _ _ _ _ _ _ _ Hinv _ _ _ Hj) as (o1 & Ho1 & _). cbn in Ho. rewrite lookup_app_l in Ho by (by eapply lookup_lt_Some). done. }
        unfold definition_of. rewrite Hj, Ho'. unfold same_definition in Hsd. apply andb_true_iff in Hsd as [Hsd Hkd]. apply andb_true_iff in Hsd as [Hsr Hdd].
        apply bool_decide_eq_true in Hkd, Hsr, Hdd. split; [rewrite <- Hkd, <- Hsr, <- Hdd, Hd; done|].
        intros j' o' Hj' Ho'' Hfull. assert (j' = j) as -> by congruence. assert (o' = o) as -> by congruence. revert Er. unfold upd. rewrite Hfull.
        destruct (o_code o); [|done]. destruct (o_deps o); [|done]. done.
      + change (reg s2 (home me) (o_name me)) with (reg s (p, iod isl p) name) in Hj. unfold definition_of. rewrite Hj. by apply fit_iff.
    - intros (src & name & Hn & Hnm & Hg & Hdef). cbn zeta in *. unfold definition_of in Hdef. destruct (reg s (p, iod isl p) name) as [j|] eqn:Hj.
      + destruct (inv_enrolled _ _ _ _ _ _ _ Hinv _ _ _ Hj) as (o & Ho & _). rewrite Ho in Hdef. destruct Hdef as [Hd Hc]. injection Hd as Hd1 Hd2 Hd3.
        eexists. apply (redecorate normalise names_of name_of builtins strong default_island s k code isl strictly gs p name j o); try done; [by rewrite Hd3| |].
        * intros Hk l g -> Hin. destruct (Hg Hk) as [_ H]. by apply H.
        * intros Hf. destruct (Hc j o Hj Ho Hf) as [A B]. split; by apply not_eq_None_Some.
      + set (self := List.length (heap s)). set (g := option_map (fun l => sorted (map (guard_name s) l)) gs).
        rewrite (new_fn_eq normalise names_of name_of default_island s k code isl strictly gs p src name (match k with Aut => None | Pure => g end) Hn Hnm).
        2:{ destruct k; [by left|right]. split; [done|]. destruct gs as [l|]; [|done]. destruct (Hg eq_refl) as [Gi Gl].
            set (m3 := raw_fn Pure src name (iod isl p) strictly None p).
            erewrite (guards_run _ _ m3); [|apply lookup_snoc|change (home m3) with (p, iod isl p); cbn [known]; by apply not_eq_None_Some|].
            - do 2 f_equal. unfold g. cbn. do 2 f_equal. apply map_ext_in. intros x Hx. apply elem_of_list_In in Hx. specialize (Gl x Hx). destruct x as [f|x]; [|done].
              cbn in *. destruct Gl as (of & Hof & _). rewrite lookup_app_l by (by eapply lookup_lt_Some). done.
            - intros x Hx. specialize (Gl x Hx). destruct x as [f|x]; [|exact Gl]. cbn in *. destruct Gl as (of & Hof & Hs' & Hh). exists of.
              rewrite lookup_app_l by (by eapply lookup_lt_Some). done. }
        fold self. set (me := raw_fn k src name (iod isl p) strictly _ p).
        destruct (inv_alloc normalise names_of name_of builtins strong s me Hinv) as (Hix & _ & Hne & Hl). fold self in Hix, Hne, Hl. set (s1 := St (heap s ++ [me]) (known s)) in *.
        unfold bnd, discard. destruct (begin_registration self s1) as [s' r] eqn:E.
        pose proof (begin_run normalise names_of s1 self me s' r Hl Hne (enrolled_alive _ _ _ _ (inv_enrolled _ _ _ _ _ _ _ Hix)) E) as Hb.
        assert (Hj1 : reg s1 (home me) (o_name me) = None) by exact Hj. apply fit_iff in Hdef.
        destruct Hb as [j' o' Hj' Ho' _|j' o' Hj' Ho' Hx|kn e Hj' Hf _ _|kn Hj' _ _ _]; try congruence.
        * change (o_src me) with src in Hf. congruence.
        * by eexists.
  Qed.

  (** a call through an object that has been completed *)
  Lemma prepare_full s f me j o code env : heap s !! f = Some me -> o_full me = true -> reg s (home me) (o_name me) = Some j -> heap s !! j = Some o ->
    prepare f s = (s, Ok (code, env)) <-> o_code me = Some code /\ exists d js, o_deps o = Some d /\ 1 <= List.length d /\ (o_strict me = true -> List.length d = 1)
      /\ Forall2 (fun n i => reg s (home me) n = Some i) (sorted d) js /\ env = dict_update [(o_name me, f); ("self"%string, f)] (zip (sorted d) js).
  Proof.
    intros Hm Hf Hj Ho.
    assert (Ec : complete f s = (s, Ok tt)). { rewrite (complete_unfold normalise names_of builtins ord _ _ _ Hm). destruct (o_kind me); [|by rewrite Hf]. unfold complete_autonomous. by rewrite (bnd_get _ _ _ _ Hm), Hf. }
    unfold Registry.prepare. unfold bnd at 1. rewrite Ec. rewrite (bnd_get _ _ _ _ Hm). ms.
    destruct (dict_get (o_portal me, o_island me) (known s)) as [isl|] eqn:Ei; [|unfold reg, home in Hj; by rewrite Ei in Hj]. cbn [or_raise]. ms.
    assert (Hreg : forall n, reg s (home me) n = dict_get n isl) by (intros n; unfold reg, home; by rewrite Ei).
    unfold bnd at 1. rewrite (dependencies_run s f me j o Hm Hj Ho). destruct (o_deps o) as [d|] eqn:Ed; [|split; [done|]; by intros (_ & d & js & ? & _)].
    destruct ((1 <=? List.length d) && (negb (o_strict me) || (List.length d =? 1))) eqn:Eb.
    2:{ split; [done|]. intros (_ & d' & js & [= <-] & H1 & H2 & _). exfalso. apply Nat.leb_le in H1. rewrite H1 in Eb. destruct (o_strict me); [|done]. rewrite (H2 eq_refl) in Eb. done. }
    apply andb_true_iff in Eb as [Eb1 Eb2]. apply Nat.leb_le in Eb1. assert (Eb3 : o_strict me = true -> List.length d = 1) by (intros Hs; rewrite Hs in Eb2; by apply Nat.eqb_eq).
    match goal with |- bnd (mapm ?f0 _) _ _ = _ <-> _ => set (lk := f0) end.
    assert (Hmap : forall l, (exists js, mapm lk l s = (s, Ok js) /\ Forall2 (fun n j => reg s (home me) n = Some j) l js) \/ (exists e, mapm lk l s = (s, Err e)) /\ exists n, n ∈ l /\ reg s (home me) n = None).
    { induction l as [|n l IH]; cbn [mapm]; [left; exists []; split; [done|constructor]|].
      unfold lk at 1. unfold lk at 2. destruct (dict_get n isl) as [jn|] eqn:En; cbn [or_raise]; ms.
      - destruct IH as [(js & E & F)|[(e & E) (n' & Hn & Hr)]].
        + left. exists (jn :: js). split; [unfold bnd; by rewrite E|]. constructor; [by rewrite Hreg|done].
        + right. split; [exists e; unfold bnd; by rewrite E|]. exists n'. split; [by right|done].
      - right. split; [by eexists|]. exists n. split; [left|by rewrite Hreg]. }
    unfold bnd at 1. destruct (Hmap (sorted d)) as [(js & E & F)|[(e & E) (n' & Hn & Hr)]]; rewrite E.
    - destruct (o_code me) as [c|]; cbn [or_raise]; ms; [|split; [done|]; by intros [? _]]. split.
      + intros [= <- <-]. split; [done|]. exists d, js. done.
      + intros ([= <-] & d' & js' & [= <-] & _ & _ & F' & ->). assert (js' = js) as ->; [|done]. clear -F F'. revert js' F'. induction F as [|n i l js H _ IH]; intros js' F'; inversion F' as [|? ? ? ? H' F2]; subst; [done|].
        f_equal; [congruence|by apply IH].
    - split; [done|]. intros (_ & d' & js' & [= <-] & _ & _ & F' & _). exfalso. apply elem_of_list_lookup in Hn as (i & Hi). destruct (Forall2_lookup_l _ _ _ _ _ F' Hi) as (? & _ & ?). congruence.
  Qed.
  Lemma prepare_after s f s1 me1 : complete f s = (s1, Ok tt) -> heap s1 !! f = Some me1 -> o_full me1 = true -> prepare f s = prepare f s1.
  Proof.
    intros Ec Hm Hf.
    assert (Ec1 : complete f s1 = (s1, Ok tt)). { rewrite (complete_unfold normalise names_of builtins ord _ _ _ Hm). destruct (o_kind me1); [|by rewrite Hf]. unfold complete_autonomous. by rewrite (bnd_get _ _ _ _ Hm), Hf. }
    unfold Registry.prepare. unfold bnd at 1. rewrite Ec. symmetry. unfold bnd at 1. by rewrite Ec1.
  Qed.

  Lemma complete_missing s f : heap s !! f = None -> complete f s = (s, Err KeyError).
  Proof. intros H. unfold Registry.complete, bnd, get. by rewrite H. Qed.

  (** what the current blocks are *)
  Lemma current_unique s me es es' : current_blocks names_of s me es -> current_blocks names_of s me es' -> es = es'.
  Proof.
    intros (D & N1 & HD & F) (D' & N2 & HD' & F'). assert (D ≡ₚ D') as HP by (apply NoDup_Permutation; [done..|]; intros; by rewrite HD, HD').
    rewrite (sorted_ext (guards_of me ++ D) (guards_of me ++ D')) in F by (by rewrite HP). clear -F F'. revert es' F'.
    induction F as [|n e l es H _ IH]; intros es' F'; inversion F' as [|? e2 ? ? H' F2]; subst; [done|]. f_equal; [|by apply IH].
    destruct H as (? & ? & ? & ? & ->), H' as (? & ? & ? & ? & ->). congruence.
  Qed.
  Lemma size_one (D : gset string) n : n ∈ D -> size D = 1 <-> forall m, m ∈ D -> m = n.
  Proof.
    intros Hn. split.
    - intros Hs. apply size_1_elem_of in Hs as (x & Hx). intros m Hm. set_solver.
    - intros H. assert (D = {[n]}) as -> by (apply set_eq; set_solver). apply size_singleton.
  Qed.

  Lemma current_exists s me j o (D : gset string) : enrolled_ok s -> reg s (home me) (o_name me) = Some j -> heap s !! j = Some o ->
    (forall m, m ∈ D <-> rtc (refers names_of s (home me)) (o_name me) m) -> (forall g, g ∈ guards_of me -> reg s (home me) g <> None) ->
    exists es, Forall2 (block s (home me)) (sorted (guard_names me ++ sorted (elements D))) es.
  Proof.
    intros Hen Hj Ho HD Hg. assert (H : forall n, n ∈ sorted (guard_names me ++ sorted (elements D)) -> reg s (home me) n <> None).
    { intros n. rewrite elem_of_sorted, elem_of_app, elem_of_sorted, elem_of_elements, HD. intros [H|H]; [by apply Hg|].
      apply rtc_nsteps in H as ([|k] & H); [inversion H; subst; congruence|]. apply nsteps_inv_r in H as (y & _ & [_ Hr]). done. }
    clear HD Hg. generalize dependent (sorted (guard_names me ++ sorted (elements D))). intros l. induction l as [|n l IH]; intros H; [by exists []|].
    destruct IH as (es & F); [intros; apply H; by right|]. specialize (H n ltac:(left)). destruct (reg s (home me) n) as [i|] eqn:Ei; [|done].
    destruct (Hen _ _ _ Ei) as (oi & Hoi & _). eexists (_ :: es). constructor; [|done]. exists i, oi. done.
  Qed.
  Lemma current_of s me (D : gset string) es : (forall m, m ∈ D <-> rtc (refers names_of s (home me)) (o_name me) m) ->
    Forall2 (block s (home me)) (sorted (guard_names me ++ sorted (elements D))) es -> current_blocks names_of s me es.
  Proof.
    intros HD F. exists (sorted (elements D)). split; [rewrite sorted_perm; apply NoDup_elements|]. split; [intros n; by rewrite elem_of_sorted, elem_of_elements, HD|]. exact F.
  Qed.

  Notation ready := (ready names_of builtins).

  (** the first use of a pure function completes exactly if everything is there *)
  Lemma complete_pure_exact s f me j o : enrolled_ok s -> wf_known s -> unfinished s f me j o ->
    (exists s', complete f s = (s', Ok tt)) <-> ready s me /\ (forall g, g ∈ guards_of me -> reg s (home me) g <> None) /\ no_other_blocks names_of s me.
  Proof.
    intros Hen Hwf Hun. pose proof Hun as [Hm Ek Hf Hj Ho Hs Hg Hko Hfo]. split.
    - intros (s' & Hc). destruct (complete_first normalise names_of name_of builtins ord ord_perm function_name s f me j o s' Hen Hwf Hun Hc) as (a & D & es & Ha & Hreq & Hstr & HD & Hsz & Hbl & Haug & ->).
      split; [|split].
      + intros a' Ha'. assert (a' = a) as -> by congruence. split; [done|]. split; [done|]. intros Hq n Hn. apply HD in Hn. assert (o_name me ∈ D) as Hin by (apply HD; constructor).
        by apply (proj1 (size_one D (o_name me) Hin) (Hsz Hq)).
      + intros g Hgi. assert (Hin : g ∈ sorted (guard_names me ++ sorted (elements D))) by (rewrite elem_of_sorted, elem_of_app; by left).
        apply elem_of_list_lookup in Hin as (i & Hi). destruct (Forall2_lookup_l _ _ _ _ _ Hbl Hi) as (e & _ & (x & y & Hx & _)). congruence.
      + intros j' o' es' Hj' Ho' Hes. assert (j' = j) as -> by congruence. assert (o' = o) as -> by congruence. destruct Haug as [?|Haug]; [congruence|]. assert (es' = es) as -> by congruence. by eapply current_of.
    - intros (Hr & Hgr & Hno). destruct (aut_step normalise names_of name_of builtins ord ord_perm function_name s f me j o Hen Hwf Hun) as (a & Ha & HX).
      destruct (Hr a Ha) as (R1 & R2 & R3). cbn zeta in HX.
      assert (HD : exists D : gset string, forall m, m ∈ D <-> rtc (refers names_of s (home me)) (o_name me) m).
      { destruct HX as [(s1 & _ & Hne & [(m & Hin & Hno')|Hst])|(D & _ & _ & HD & _)]; [by apply R1 in Hin|by apply R2 in Hst|by exists D]. }
      destruct HD as (D & HD). destruct (current_exists s me j o D Hen Hj Ho HD Hgr) as (es & Hes).
      eexists. apply (complete_fwd normalise names_of name_of builtins ord ord_perm function_name s f me j o a D es); try done.
      + intros Hq. apply (size_one D (o_name me)); [apply HD; constructor|]. intros m Hmm. apply R3; [done|by apply HD].
      + destruct (o_aug o) as [es'|] eqn:Ea; [|by left]. right. f_equal. eapply current_unique; [by eapply Hno|by eapply current_of].
  Qed.

  Lemma get_state_exact s f me j o : enrolled_ok s -> wf_known s -> unfinished s f me j o ->
    (exists s' x, get_state f s = (s', Ok x)) <-> ready s me /\ (forall g, g ∈ guards_of me -> reg s (home me) g <> None) /\ no_other_blocks names_of s me.
  Proof.
    intros Hen Hwf Hun. rewrite <- (complete_pure_exact s f me j o Hen Hwf Hun). pose proof Hun as [Hm Ek Hf Hj Ho Hs Hg Hko Hfo]. split.
    - intros (s' & x & H). unfold Registry.get_state in H. rewrite (bnd_get _ _ _ _ Hm), Ek in H. apply bnd_ok in H as (s1 & [] & H & _). by exists s1.
    - intros (s' & Hc). destruct (complete_first normalise names_of name_of builtins ord ord_perm function_name s f me j o s' Hen Hwf Hun Hc) as (a & D & es & Ha & Hreq & Hstr & HD & Hsz & Hbl & Haug & ->).
      destruct (get_state_fwd normalise names_of name_of builtins ord ord_perm function_name s f me j o a D es Hen Hwf Hun Ha Hreq Hstr HD Hsz Hbl Haug) as (_ & E1 & E2).
      do 2 eexists. rewrite E1. exact E2.
  Qed.

  (** the deps of a completed registration are all registered *)
  Lemma all_registered s me j (D : gset string) : reg s (home me) (o_name me) = Some j -> (forall m, m ∈ D <-> rtc (refers names_of s (home me)) (o_name me) m) ->
    exists js, Forall2 (fun n i => reg s (home me) n = Some i) (sorted (sorted (elements D))) js.
  Proof.
    intros Hj HD. assert (H : forall n, n ∈ sorted (sorted (elements D)) -> reg s (home me) n <> None).
    { intros n. rewrite !elem_of_sorted, elem_of_elements, HD. intros H. apply rtc_nsteps in H as ([|k] & H); [inversion H; subst; congruence|]. apply nsteps_inv_r in H as (y & _ & [_ Hr]). done. }
    clear HD. generalize dependent (sorted (sorted (elements D))). intros l. induction l as [|n l IH]; intros H; [by exists []|].
    destruct IH as (js & F); [intros; apply H; by right|]. specialize (H n ltac:(left)). destruct (reg s (home me) n) as [i|] eqn:Ei; [|done]. exists (i :: js). by constructor.
  Qed.
  Lemma deps_nonempty (D : gset string) n : n ∈ D -> 1 <= List.length (sorted (elements D)).
  Proof.
    intros Hin. rewrite list_to_gset_len. destruct (decide (size D = 0)) as [Hz|]; [|lia]. apply size_empty_inv in Hz. exfalso. apply Hz in Hin. by apply not_elem_of_empty in Hin.
  Qed.

  Lemma call_pure_exact s f me j o : enrolled_ok s -> wf_known s -> unfinished s f me j o ->
    (exists s' r, prepare f s = (s', Ok r)) <-> ready s me /\ (forall g, g ∈ guards_of me -> reg s (home me) g <> None) /\ no_other_blocks names_of s me.
  Proof.
    intros Hen Hwf Hun. rewrite <- (complete_pure_exact s f me j o Hen Hwf Hun). pose proof Hun as [Hm Ek Hf Hj Ho Hs Hg Hko Hfo]. split.
    - intros (s' & x & H). unfold Registry.prepare in H. apply bnd_ok in H as (s1 & [] & H & _). by exists s1.
    - intros (s' & Hc). destruct (complete_first normalise names_of name_of builtins ord ord_perm function_name s f me j o s' Hen Hwf Hun Hc) as (a & D & es & Ha & Hreq & Hstr & HD & Hsz & Hbl & Haug & ->).
      set (b := bool_decide (required (o_name me) a = ∅)) in *. set (s1 := finished s f j me o D b es) in *.
      assert (Hlj : j < List.length (heap s)) by (by eapply lookup_lt_Some). assert (Hls : f < List.length (heap s)) by (by eapply lookup_lt_Some).
      set (me1 := whole es (after_aut D b me)).
      assert (Hm1 : heap s1 !! f = Some me1). { unfold s1, finished. cbn zeta. cbn [heap]. apply list_lookup_insert. by rewrite insert_length. }
      assert (Ho1 : exists o1, heap s1 !! j = Some o1 /\ o_deps o1 = Some (sorted (elements D))).
      { destruct (decide (f = j)) as [<-|Hne]; [exists me1; done|]. unfold s1, finished. cbn zeta. cbn [heap]. rewrite list_lookup_insert_ne by done. rewrite list_lookup_insert by done.
        rewrite decide_False by done. eexists. split; [done|]. done. }
      destruct Ho1 as (o1 & Ho1 & Hd1). rewrite (prepare_after s f s1 me1 Hc Hm1 eq_refl).
      destruct (all_registered s me j D Hj HD) as (js & F). exists s1, (o_src me, dict_update [(o_name me1, f); ("self"%string, f)] (zip (sorted (sorted (elements D))) js)).
      apply (prepare_full s1 f me1 j o1 (o_src me) _ Hm1 eq_refl); [exact Hj|done|]. split; [done|]. exists (sorted (elements D)), js. split; [done|].
      assert (Hin : o_name me ∈ D) by (apply HD; constructor). split; [by eapply deps_nonempty|]. split; [|split; [exact F|reflexivity]].
      cbn. intros Hb. apply bool_decide_eq_true in Hb. rewrite list_to_gset_len. by apply Hsz.
  Qed.

  Lemma call_aut_exact s f me j o : enrolled_ok s -> wf_known s -> heap s !! f = Some me -> o_kind me = Aut -> o_full me = false ->
    reg s (home me) (o_name me) = Some j -> heap s !! j = Some o -> o_src o = o_src me -> o_full o = false ->
    (exists s' r, prepare f s = (s', Ok r)) <-> ready s me.
  Proof.
    intros Hen Hwf Hm Ek Hf Hj Ho Hs Hfo. destruct (complete f s) as [s1 r1] eqn:Ec. pose proof Ec as Ec'.
    rewrite (complete_unfold normalise names_of builtins ord _ _ _ Hm), Ek in Ec'.
    assert (Hlj : j < List.length (heap s)) by (by eapply lookup_lt_Some). assert (Hls : f < List.length (heap s)) by (by eapply lookup_lt_Some).
    pose proof (complete_aut_run normalise names_of name_of builtins ord ord_perm function_name s f me s1 r1 Hen Hwf Hm Ec') as Hc. destruct Hc as [Hc|_ Hc|j1 o1 _ Hj1 Ho1 Hc|j1 o1 _ _ Hj1 Ho1 _ Hc|j1 o1 _ _ Hj1 Ho1 _ Hc|j1 o1 a1 b _ Hj1 Ho1 _ _ Ha1 Hq Hmiss Hb1 Hb2|j1 o1 a D _ Hj1 Ho1 _ _ Ha Hreq Hstr HD]; try congruence.
    - split; [intros (s' & r & H); unfold Registry.prepare, bnd at 1 in H; by rewrite Ec in H|]. intros Hr. exfalso. destruct (Hr a1 Ha1) as (R1 & R2 & _). destruct Hmiss as [(m & Hin & Hn)|Hst]; [by apply R1 in Hin|by apply R2 in Hst].
    - assert (j1 = j) as -> by congruence. assert (o1 = o) as -> by congruence. rewrite (bool_decide_eq_true_2 (o_kind me = Aut)) in Ec by done.
      set (b := bool_decide (required (o_name me) a = ∅)) in *. match type of Ec with _ = (?t, _) => set (s1 := t) in * end.
      set (me1 := set_full true (set_deps (Some (sorted (elements D))) (built (o_src me) b me))) in *.
      assert (Hm1 : heap s1 !! f = Some me1). { cbn [s1 heap]. apply list_lookup_insert. by rewrite insert_length. }
      assert (Hx1 : exists o1, heap s1 !! j = Some o1 /\ o_deps o1 = Some (sorted (elements D))).
      { destruct (decide (f = j)) as [<-|Hne]; [exists me1; done|]. cbn [s1 heap]. rewrite list_lookup_insert_ne by done. rewrite list_lookup_insert by done. eexists. split; [done|]. done. }
      destruct Hx1 as (o1' & Hx1 & Hd1). rewrite (prepare_after s f s1 me1 Ec Hm1 eq_refl).
      destruct (all_registered s me j D Hj HD) as (js & F). assert (Hin : o_name me ∈ D) by (apply HD; constructor).
      assert (Hp : forall c e, prepare f s1 = (s1, Ok (c, e)) <-> _) by (intros c e; apply (prepare_full s1 f me1 j o1' c e Hm1 eq_refl Hj Hx1)).
      split.
      + intros (s' & [c e] & H). assert (s' = s1) as ->.
        { revert H. unfold Registry.prepare, bnd at 1. assert (Ec1 : complete f s1 = (s1, Ok tt)). { rewrite (complete_unfold normalise names_of builtins ord _ _ _ Hm1). change (o_kind me1) with (o_kind me). rewrite Ek. unfold complete_autonomous. by rewrite (bnd_get _ _ _ _ Hm1). }
          rewrite Ec1. match goal with |- ?m s1 = _ -> _ => assert (Hrd : reader m) by rd end. apply Hrd. }
        apply Hp in H as (_ & d & js' & Hd & _ & Hst & _). assert (d = sorted (elements D)) as -> by congruence. rewrite list_to_gset_len in Hst.
        intros a' Ha'. assert (a' = a) as -> by congruence. split; [done|]. split; [done|]. intros Hq n Hn. apply HD in Hn.
        apply (proj1 (size_one D (o_name me) Hin)); [|done]. apply Hst. cbn. by apply bool_decide_eq_true_2.
      + intros Hr. destruct (Hr a Ha) as (R1 & R2 & R3). exists s1, (o_src me, dict_update [(o_name me1, f); ("self"%string, f)] (zip (sorted (sorted (elements D))) js)). apply Hp. split; [reflexivity|]. exists (sorted (elements D)), js. split; [done|]. split; [by eapply deps_nonempty|].
        split; [|split; [exact F|reflexivity]]. cbn. intros Hb. apply bool_decide_eq_true in Hb. rewrite list_to_gset_len. apply (size_one D (o_name me) Hin). intros m Hmm. apply R3; [done|by apply HD].
  Qed.

  (** once a call has gone ahead, it goes ahead for good *)
  Lemma prepare_stable s f s1 code env t : strong -> (forall n, name_of "" <> Ok n) -> inv s -> prepare f s = (s1, Ok (code, env)) -> inv t -> ev strong s1 t -> prepare f t = (t, Ok (code, env)).
  Proof.
    intros Hst Hne Hinv Hrun Hit [Hev Hreg]. assert (Hi1 : inv s1) by exact (proj1 (keeps_prepare normalise names_of name_of builtins strong ord ord_perm function_name Hne f s s1 _ Hinv Hrun)).
    pose proof Hrun as Hrun0. unfold Registry.prepare, bnd at 1 in Hrun0. destruct (complete f s) as [s2 [[]|e]] eqn:Ec; [|done].
    assert (Hs : s1 = s2). { revert Hrun0. match goal with |- ?m s2 = _ -> _ => assert (Hrd : reader m) by rd end. apply Hrd. } subst s2.
    destruct (heap s1 !! f) as [me|] eqn:Hm; [|unfold bnd, get in Hrun0; by rewrite Hm in Hrun0]. clear Hrun0.
    assert (Hf : o_full me = true).
    { destruct (heap s !! f) as [me0|] eqn:Hm0; [|by rewrite (complete_missing _ _ Hm0) in Ec].
      eapply (complete_full normalise names_of name_of builtins ord ord_perm function_name s f me0 s1 me); [by eapply inv_enrolled|by eapply inv_wf|done..]. }
    rewrite (prepare_after s f s1 me Ec Hm Hf) in Hrun.
    assert (Hj : exists j o, reg s1 (home me) (o_name me) = Some j /\ heap s1 !! j = Some o /\ o_full o = true).
    { assert (Hok : obj_ok strong s1 me) by (by eapply inv_obj). destruct Hok as (_ & _ & HP & HA). destruct (o_kind me) eqn:Ek.
      - destruct (HA Hst eq_refl) as [Hb|(j & o & Hj & Ho & _ & _ & Hff)]; [exfalso; by rewrite Hb in Hf|]. exists j, o. auto.
      - destruct (HP eq_refl) as (j & o & Hj & Ho & _ & _ & _ & Hff). exists j, o. destruct (Hff Hf). done. }
    destruct Hj as (j & o & Hj & Ho & Hfo). apply (prepare_full s1 f me j o code env Hm Hf Hj Ho) in Hrun as (Hc & d & js & Hd & Hl & Hs & F & ->).
    destruct (Hev f me Hm) as (me2 & Hm2 & _ & Hk2 & _). destruct (Hk2 Hf) as (_ & _ & _ & _ & _ & E2). rewrite (E2 Hst) in Hm2.
    destruct (Hev j o Ho) as (o2 & Ho2 & _ & Hk3 & _). destruct (Hk3 Hfo) as (_ & _ & _ & _ & _ & E3). rewrite (E3 Hst) in Ho2.
    apply (prepare_full t f me j o code _ Hm2 Hf (Hreg _ _ _ Hj) Ho2). split; [done|]. exists d, js. do 3 (split; [done|]). split; [|done]. eapply Forall2_impl; [exact F|]. intros n i. apply Hreg.
  Qed.
End Exact.
