(** Registration of functions: decorating again, the identity of pure functions, what a call sees. *)
From Coq Require Import String Sorted.
From stdpp Require Import gmap.
From Verif Require Import Lib.Py Lib.DictLemmas Model.PyAst Model.Normalizer Model.NamesAnalyzer Model.CallGraph Model.Registry.
From Verif.Spec Require Import RegistrySpec.
From Verif.Proofs Require Import RegistryP RegistryInvP RegistryOpsP RegistryCompleteP RegistryRunP RegistryUseP RegistryFrameP RegistryPureP RegistryRestoreP.
Local Open Scope nat_scope.

Lemma guards_run s self me l : heap s !! self = Some me -> is_Some (dict_get (home me) (known s)) ->
  (forall g, g ∈ l -> guard_fits s (home me) g) ->
  preprocess_guards self (Some l) s = (s, Ok (Some (sorted (map (guard_name s) l)))).
Proof.
  intros Hm [isl Hk] Hl. unfold preprocess_guards. rewrite (bnd_get _ _ _ _ Hm). ms. fold (home me). rewrite Hk. cbn [or_raise]. ms.
  match goal with |- bnd (mapm ?f0 _) _ _ = _ => set (f := f0) end.
  assert (E : forall l', (forall g, g ∈ l' -> guard_fits s (home me) g) -> mapm f l' s = (s, Ok (map (guard_name s) l'))).
  { induction l' as [|x l' IH]; intros H; cbn [map mapm]; [done|]. pose proof (H x ltac:(left)) as Hx. unfold f at 1. destruct x as [i|x]; cbn in Hx.
    - destruct Hx as (o & Ho & Hs & Hh). unfold home in Hh. injection Hh as Hp Hi. rewrite bnd_assoc. rewrite (bnd_get _ _ _ _ Ho). ms. rewrite Hs. ms.
      rewrite (bool_decide_eq_true_2 (o_island o = o_island me)) by done. ms. rewrite (bool_decide_eq_true_2 (o_portal o = o_portal me)) by done. ms.
      unfold bnd at 1. rewrite IH by (intros; apply H; by right). cbn. by rewrite Ho.
    - ms. assert (dict_mem x isl = true) as ->. { unfold reg in Hx. rewrite Hk in Hx. unfold dict_mem. by destruct (dict_get x isl). }
      ms. unfold bnd at 1. rewrite IH by (intros; apply H; by right). done. }
  unfold bnd. rewrite (E l Hl). done.
Qed.
Lemma bnd_ok {A B} (m : M A) (k : A -> M B) s s' b : bnd m k s = (s', Ok b) -> exists s1 a, m s = (s1, Ok a) /\ k a s1 = (s', Ok b).
Proof. unfold bnd. destruct (m s) as [s1 [a|e]]; [|done]. intros H. by exists s1, a. Qed.
Lemma tail_full self me s s' me' : tail self me s = (s', Ok tt) -> heap s' !! self = Some me' -> o_full me' = true.
Proof.
  unfold tail. intros H. do 8 (apply bnd_ok in H as (? & ? & _ & H)). apply bnd_ok in H as (u1 & [] & _ & H). apply bnd_ok in H as (u2 & [] & H1 & H2).
  unfold put in H1, H2. injection H1 as <-. injection H2 as <-. cbn [heap]. match goal with |- alter _ ?i _ !! _ = _ -> _ => destruct (decide (i = self)) as [->|Hne] end.
  - rewrite list_lookup_alter, list_lookup_alter. destruct (heap u1 !! self); [|done]. cbn. by intros [= <-].
  - rewrite list_lookup_alter_ne by done. rewrite list_lookup_alter. destruct (heap u1 !! self); [|done]. cbn. by intros [= <-].
Qed.
Lemma dict_update_zip (l : list string) (js : list nat) : forall (base : dict string nat) m j i, NoDup l -> l !! i = Some m -> js !! i = Some j ->
  dict_get m (dict_update base (zip l js)) = Some j.
Proof.
  revert js. induction l as [|n l IH]; intros [|j0 js] base m j i Hnd Hi Hj; try done. unfold dict_update. cbn. fold (dict_update (dict_set n j0 base) (zip l js)).
  apply NoDup_cons in Hnd as [Hn Hnd]. destruct i as [|i]; cbn in Hi, Hj; [|by eapply IH]. injection Hi as <-. injection Hj as <-.
  clear IH. assert (Hx : forall (b : dict string nat) js, n ∉ l -> dict_get n b = Some j0 -> dict_get n (dict_update b (zip l js)) = Some j0); [|apply Hx; [done|by rewrite dict_get_set, decide_True]].
  clear. induction l as [|n' l IH]; intros b js Hn Hb; [done|]. destruct js as [|j js]; [done|]. unfold dict_update. cbn. fold (dict_update (dict_set n' j b) (zip l js)).
  apply not_elem_of_cons in Hn as [Hne Hn]. apply IH; [done|]. by rewrite dict_get_set, decide_False.
Qed.

Lemma Forall2_impl_elem {A B} (P Q : A -> B -> Prop) l k : Forall2 P l k -> (forall x y, x ∈ l -> P x y -> Q x y) -> Forall2 Q l k.
Proof. induction 1 as [|x y l k Hp F IH]; intros H; constructor; [apply H; [left|done]|]. apply IH. intros x' y' Hx. apply H. by right. Qed.

Section Claims.
  Variable normalise : bool -> string -> res string.
  Variable names_of : string -> res ana.
  Variable name_of : string -> res string.
  Variable builtins : gset string.
  Variable strong : Prop.
  Variable ord : nat -> gset string -> list string.
  Variable default_island : nat -> string.
  Hypothesis ord_perm : forall t X, ord t X ≡ₚ elements X.
  Hypothesis function_name : forall src n a, normalise false src = Ok src -> name_of src = Ok n -> names_of src = Ok a -> a_function a = Some n.
  Hypothesis no_empty : forall n, name_of "" <> Ok n.
  Notation enrolled_ok := (enrolled_ok normalise names_of name_of).
  Notation invx := (invx normalise names_of name_of builtins strong).
  Notation inv := (invx None).
  Notation required := (required_names builtins).
  Notation begin_registration := (begin_registration normalise names_of).
  Notation complete := (complete normalise names_of builtins ord).
  Notation new_fn := (new_fn normalise names_of name_of default_island).
  Notation get_state := (get_state normalise names_of builtins ord).
  Notation prepare := (prepare normalise names_of builtins ord).
  Notation iod := (island_or_default default_island).

  (** decorating a source again with the decorator its function has now *)
  Lemma redecorate s k code isl strictly gs p name j o : inv s -> reg s (p, iod isl p) name = Some j -> heap s !! j = Some o ->
    normalise true code = Ok (o_src o) -> o_kind o = k -> decorator o = requested s k strictly (iod isl p) gs ->
    (k = Pure -> forall l g, gs = Some l -> g ∈ l -> guard_fits s (p, iod isl p) g) ->
    (o_full o = true -> is_Some (o_code o) /\ is_Some (o_deps o)) ->
    new_fn k code isl strictly gs p s = (St (heap s ++ [copied o]) (known s), Ok (List.length (heap s))).
  Proof.
    intros Hinv Hj Ho Hn Hk Hd Hg Hfull. set (self := List.length (heap s)).
    destruct (inv_enrolled _ _ _ _ _ _ _ Hinv _ _ _ Hj) as (o1 & Ho1 & Hho & Hno & Hnm & Hfit). rewrite Ho in Ho1. injection Ho1 as <-.
    assert (Hok : obj_ok strong s o) by (by eapply inv_obj). destruct Hok as ((Hcode & Hgs) & HA & _ & _).
    set (g := option_map (fun l => sorted (map (guard_name s) l)) gs).
    rewrite (new_fn_eq normalise names_of name_of default_island s k code isl strictly gs p (o_src o) name (match k with Aut => None | Pure => g end) Hn Hnm).
    2:{ destruct k; [by left|right]. split; [done|]. destruct gs as [l|]; [|done].
        set (m3 := raw_fn Pure (o_src o) name (iod isl p) strictly None p).
        erewrite (guards_run _ _ m3); [|apply lookup_snoc|unfold reg in Hj; change (home m3) with (p, iod isl p); cbn [known]; destruct (dict_get (p, iod isl p) (known s)); [by eexists|done]|].
        - do 2 f_equal. unfold g. cbn. do 2 f_equal. apply map_ext_in. intros x Hx. apply elem_of_list_In in Hx. specialize (Hg eq_refl l x eq_refl Hx). destruct x as [f|x]; [|done].
          cbn in *. destruct Hg as (of & Hof & _). rewrite lookup_app_l by (by eapply lookup_lt_Some). done.
        - intros x Hx. specialize (Hg eq_refl l x eq_refl Hx). destruct x as [f|x]; [|exact Hg]. cbn in *. destruct Hg as (of & Hof & Hs' & Hh). exists of.
          rewrite lookup_app_l by (by eapply lookup_lt_Some). done. }
    fold self. set (me := raw_fn k (o_src o) name (iod isl p) strictly _ p).
    destruct (inv_alloc normalise names_of name_of builtins strong s me Hinv) as (Hix & _ & Hne & Hl). fold self in Hix, Hne, Hl. set (s1 := St (heap s ++ [me]) (known s)) in *.
    assert (Hd' : decorator me = decorator o). { rewrite Hd. unfold decorator, requested, me. cbn. destruct k; done. }
    assert (Hsame : same_definition me o = true).
    { unfold same_definition. rewrite (bool_decide_eq_true_2 (o_src me = o_src o)), (bool_decide_eq_true_2 (decorator me = decorator o)), (bool_decide_eq_true_2 (o_kind me = o_kind o)) by done. done. }
    assert (Hlo : heap s1 !! j = Some o). { cbn. by rewrite lookup_app_l by (by eapply lookup_lt_Some). }
    assert (Hk' : o_kind me = k) by done.
    assert (Hupd : upd me o = (copied o, Ok tt)).
    { unfold home in Hho. injection Hho as Hp Hi. unfold upd, copied, finish. destruct (o_full o) eqn:Ef.
      - destruct (Hfull eq_refl) as [[c Hc] [d Hdd]]. rewrite Hc, Hdd. destruct o as [kd pp sr nm il stt ful cd dp gd ag]. cbn in *. subst.
        destruct k; cbn; [|done]. destruct (HA eq_refl) as [-> ->]. done.
      - destruct o as [kd pp sr nm il stt ful cd dp gd ag]. cbn in *. subst. destruct k; cbn; [|done]. destruct (HA eq_refl) as [-> ->]. done. }
    unfold bnd, discard. destruct (begin_registration self s1) as [s' r] eqn:E.
    pose proof (begin_run normalise names_of s1 self me s' r Hl Hne (enrolled_alive _ _ _ _ (inv_enrolled _ _ _ _ _ _ _ Hix)) E) as Hb.
    assert (Hf0 : set_full false me = me) by done.
    assert (Hj1 : reg s1 (home me) (o_name me) = Some j) by exact Hj.
    destruct Hb as [j' o' Hj' Ho' _|j' o' Hj' Ho' Hx|kn e Hj' _ _ _|kn Hj' _ _ _]; try congruence.
    - assert (j' = j) as -> by congruence. assert (o' = o) as -> by congruence. rewrite Hf0, Hupd. cbn. subst self; by rewrite insert_snoc.
  Qed.

  (** the new object and the registered one pickle to the same state *)
  Lemma copied_pickles s j o i : inv s -> reg s (home o) (o_name o) = Some j -> heap s !! j = Some o -> heap s !! i = Some (copied o) ->
    forall x, snd (get_state i s) = Ok x <-> snd (get_state j s) = Ok x.
  Proof.
    intros Hinv Hj Ho Hi x. assert (Hh : home (copied o) = home o /\ o_name (copied o) = o_name o /\ o_kind (copied o) = o_kind o /\ o_src (copied o) = o_src o /\ o_guards (copied o) = o_guards o /\ o_strict (copied o) = o_strict o /\ o_full (copied o) = o_full o /\ o_island (copied o) = o_island o).
    { unfold copied. destruct (o_full o) eqn:Ef; [done|]. by destruct o. }
    destruct Hh as (H1 & H2 & H3 & H4 & H5 & H6 & H7 & H8).
    destruct (o_kind o) eqn:Ek.
    { unfold Registry.get_state. rewrite (bnd_get _ _ _ _ Ho), (bnd_get _ _ _ _ Hi). rewrite H3, Ek, H2, H4, H6, H8. done. }
    pose proof (inv_enrolled _ _ _ _ _ _ _ Hinv) as Hen. pose proof (inv_wf _ _ _ _ _ _ _ Hinv) as Hwf.
    destruct (o_full o) eqn:Ef.
    { assert (copied o = o) as Hc by (unfold copied; by rewrite Ef). rewrite Hc in Hi. unfold Registry.get_state. rewrite (bnd_get _ _ _ _ Ho), (bnd_get _ _ _ _ Hi), Ek. 
      assert (Ci : complete i s = (s, Ok tt)) by (by rewrite (complete_unfold normalise names_of builtins ord _ _ _ Hi), Ek, Ef). assert (Cj : complete j s = (s, Ok tt)) by (by rewrite (complete_unfold normalise names_of builtins ord _ _ _ Ho), Ek, Ef).
      unfold bnd. rewrite Ci, Cj. unfold get. rewrite Hi, Ho. rewrite (augmented_run _ _ _ _ _ Hi Hj Ho), (augmented_run _ _ _ _ _ Ho Hj Ho). done. }
    assert (U1 : unfinished s i (copied o) j o). { split; try congruence. }
    assert (U2 : unfinished s j o j o) by (by split).
    assert (Hgn : guard_names (copied o) = guard_names o) by (unfold guard_names; by rewrite H5).
    split; intros Hx.
    - destruct (get_state i s) as [s' r] eqn:E. cbn in Hx. subst r.
      destruct (get_state_first normalise names_of name_of builtins ord ord_perm function_name s i (copied o) j o s' x Hen Hwf U1 E) as (a & D & es & Ha & Hreq & HD & Hsz & Hbl & -> & _ & Hst & Haug).
      rewrite H1, H2, H4, H6, ?Hgn in *.
      destruct (get_state_fwd normalise names_of name_of builtins ord ord_perm function_name s j o j o a D es Hen Hwf U2 Ha Hreq Hst HD Hsz Hbl Haug) as (_ & Eq & E2). cbn zeta in Eq, E2. rewrite Eq, E2. cbn. by rewrite H8, H5.
    - destruct (get_state j s) as [s' r] eqn:E. cbn in Hx. subst r.
      destruct (get_state_first normalise names_of name_of builtins ord ord_perm function_name s j o j o s' x Hen Hwf U2 E) as (a & D & es & Ha & Hreq & HD & Hsz & Hbl & -> & _ & Hst & Haug).
      destruct (get_state_fwd normalise names_of name_of builtins ord ord_perm function_name s i (copied o) j o a D es Hen Hwf U1) as (_ & Eq & E2); rewrite ?H1, ?H2, ?H4, ?H6, ?Hgn; try done.
      rewrite Eq, E2. cbn. rewrite H2, H4, H8, H5. done.
  Qed.

  (** the pickled state depends only on the code of the function, its guards and what it reaches *)
  Lemma same_code_same_state s f me j o t g me' j' o' s' x : enrolled_ok s -> wf_known s -> enrolled_ok t -> wf_known t ->
    unfinished s f me j o -> unfinished t g me' j' o' -> get_state f s = (s', Ok x) ->
    o_src me' = o_src me -> o_name me' = o_name me -> o_island me' = o_island me -> o_guards me' = o_guards me -> o_strict me' = false -> o_aug o' = None ->
    (forall n, rtc (refers names_of s (home me)) (o_name me) n \/ n ∈ guard_names me -> definition_of t (home me') n = definition_of s (home me) n) ->
    (forall n m, rtc (refers names_of s (home me)) (o_name me) n -> refers names_of t (home me') n m -> reg s (home me) m <> None) ->
    exists t', get_state g t = (t', Ok x).
  Proof.
    intros Hens Hwfs Hent Hwft Us Ut Hrun Hs Hn Hi Hg Hst Haug Hdef Hclosed.
    destruct (get_state_first normalise names_of name_of builtins ord ord_perm function_name s f me j o s' x Hens Hwfs Us Hrun) as (a & D & es & Ha & Hreq & HD & Hsz & Hbl & -> & _ & _ & _).
    assert (Hsrc : forall n, rtc (refers names_of s (home me)) (o_name me) n -> source_of t (home me') n = source_of s (home me) n) by (intros n Hr; unfold source_of; rewrite Hdef; auto).
    assert (Hregs : forall n, rtc (refers names_of s (home me)) (o_name me) n \/ n ∈ guard_names me -> reg s (home me) n <> None -> reg t (home me') n <> None).
    { intros n Hr Hrs Hrt. specialize (Hdef n Hr). unfold definition_of in Hdef. rewrite Hrt in Hdef. destruct (reg s (home me) n) as [i|] eqn:Ei; [|done].
      destruct (Hens _ _ _ Ei) as (oi & Hoi & _). by rewrite Hoi in Hdef. }
    assert (HD' : forall m, m ∈ D <-> rtc (refers names_of t (home me')) (o_name me') m).
    { intros m. rewrite HD, Hn. split; intros Hm.
      - apply rtc_nsteps in Hm as (k & Hm). revert m Hm. induction k as [|k IH]; intros m Hm; [inversion Hm; constructor|].
        apply nsteps_inv_r in Hm as (y & Hy & [(sy & Hsy & Hmy) Hmr]). eapply rtc_r; [by apply IH|].
        assert (Hry : rtc (refers names_of s (home me)) (o_name me) y) by (apply rtc_nsteps; by exists k).
        split; [exists sy; split; [by rewrite Hsrc|done]|]. apply Hregs; [|done]. left. eapply rtc_r; [exact Hry|]. split; [by exists sy|done].
      - apply rtc_nsteps in Hm as (k & Hm). revert m Hm. induction k as [|k IH]; intros m Hm; [inversion Hm; constructor|].
        apply nsteps_inv_r in Hm as (y & Hy & Hym). specialize (IH _ Hy). eapply rtc_r; [exact IH|]. split; [|by eapply Hclosed].
        destruct Hym as [(sy & Hsy & Hmy) _]. exists sy. split; [by rewrite <- Hsrc|done]. }
    assert (Hgn : guard_names me' = guard_names me) by (unfold guard_names; by rewrite Hg).
    destruct (get_state_fwd normalise names_of name_of builtins ord ord_perm function_name t g me' j' o' a D es Hent Hwft Ut) as (_ & Eq & E2); rewrite ?Hs, ?Hn, ?Hgn; try done.
    - intros m Hm. apply Hregs; [|by apply Hreq]. left. apply rtc_once. split; [|by apply Hreq]. destruct Us as [Hm1 _ _ Hj1 Ho1 Hs1 _ _ _]. exists (o_src me). split.
      + unfold source_of, definition_of. rewrite Hj1, Ho1. cbn. by rewrite Hs1.
      + exists a. split; [done|]. unfold required_names in Hm. rewrite !elem_of_difference, elem_of_union in Hm. tauto.
    - congruence.
    - intros m. rewrite <- Hn. apply HD'.
    - eapply Forall2_impl_elem; [exact Hbl|]. intros n e Hin (jn & on & Hjn & Hon & ->). rewrite elem_of_sorted, elem_of_app, elem_of_sorted, elem_of_elements, HD in Hin.
      specialize (Hdef n ltac:(tauto)). unfold definition_of in Hdef. rewrite Hjn, Hon in Hdef. destruct (reg t (home me') n) as [jt|] eqn:Ejt; [|done].
      destruct (heap t !! jt) as [ot|] eqn:Eot; [|done]. injection Hdef as _ Hd1 Hd2. exists jt, ot. rewrite Hd1, Hd2. done.
    - by left.
    - cbn zeta in Eq, E2. eexists. rewrite Eq, E2. by rewrite Hs, Hn, Hi, Hg.
  Qed.

  Lemma complete_full s self me s' me' : enrolled_ok s -> wf_known s -> heap s !! self = Some me -> complete self s = (s', Ok tt) -> heap s' !! self = Some me' -> o_full me' = true.
  Proof.
    intros Hen Hwf Hm Hrun Hm'. rewrite (complete_unfold normalise names_of builtins ord _ _ _ Hm) in Hrun. destruct (o_kind me) eqn:Ek.
    - pose proof (complete_aut_run normalise names_of name_of builtins ord ord_perm function_name s self me s' (Ok tt) Hen Hwf Hm Hrun) as Hc.
      assert (Hls : self < List.length (heap s)) by (by eapply lookup_lt_Some).
      inversion Hc as [Hf| | |j o Hf Hk Hj Ho Hs Hfo Hne| | |j o a D Hf Hj Ho Hs Hfo Ha Hreq Hstr HD]; subst; try congruence.
      + cbn in Hm'. rewrite list_lookup_insert in Hm' by done. injection Hm' as <-. match goal with H : (upd me o).2 = Ok tt |- _ => destruct (upd_ok me o H) as (_ & _ & Hx & _) end. by apply Hx.
      + cbn in Hm'. rewrite list_lookup_insert in Hm' by (by rewrite insert_length). injection Hm' as <-. cbn. by apply bool_decide_eq_true_2.
    - destruct (o_full me) eqn:Ef; [injection Hrun as <-; congruence|]. apply bnd_ok in Hrun as (s1 & [] & _ & Hrun). by eapply tail_full.
  Qed.
  (** what a call runs *)
  Lemma prepare_says s f s1 code env : strong -> inv s -> prepare f s = (s1, Ok (code, env)) ->
    exists me, heap s1 !! f = Some me /\ code = o_src me /\ source_of s1 (home me) (o_name me) = Some (o_src me)
      /\ forall a m, names_of (o_src me) = Ok a -> m ∈ required (o_name me) a -> exists j, reg s1 (home me) m = Some j /\ dict_get m env = Some j.
  Proof.
    intros Hst Hinv Hrun. assert (Hi1 : inv s1) by (by eapply (keeps_prepare normalise names_of name_of builtins strong ord ord_perm function_name no_empty)).
    unfold Registry.prepare, bnd at 1 in Hrun. destruct (complete f s) as [s2 [[]|e]] eqn:Ec; [|done].
    assert (Hs : s1 = s2). { revert Hrun. match goal with |- ?m s2 = _ -> _ => assert (Hrd : reader m) by rd end. apply Hrd. } subst s2.
    destruct (heap s1 !! f) as [me|] eqn:Hm; [|unfold bnd, get in Hrun; by rewrite Hm in Hrun]. exists me. split; [done|].
    rewrite (bnd_get _ _ _ _ Hm) in Hrun. revert Hrun. ms. destruct (dict_get (o_portal me, o_island me) (known s1)) as [isl|] eqn:Ei; cbn [or_raise]; ms; [|done].
    assert (Hreg : forall n, reg s1 (home me) n = dict_get n isl) by (intros n; unfold reg, home; by rewrite Ei).
    destruct (reg s1 (home me) (o_name me)) as [j|] eqn:Hj.
    2:{ unfold dependencies. intros Hx. exfalso. revert Hx. unfold bnd at 1. unfold bnd at 1. unfold get at 1. rewrite Hm. ms. rewrite Ei. cbn [or_raise]. ms. rewrite <- Hreg, Hj. done. }
    destruct (inv_enrolled _ _ _ _ _ _ _ Hi1 _ _ _ Hj) as (o & Ho & Hh & Hn & Hnm & _).
    unfold bnd at 1. rewrite (dependencies_run s1 f me j o Hm Hj Ho). destruct (o_deps o) as [d|] eqn:Ed; [|done]. destruct (_ && _); [|done].
    match goal with |- bnd (mapm ?f0 _) _ _ = _ -> _ => set (lk := f0) end.
    assert (Hmap : forall l js s', mapm lk l s1 = (s', Ok js) -> s' = s1 /\ Forall2 (fun n j => dict_get n isl = Some j) l js).
    { induction l as [|n l IH]; intros js s'; cbn [mapm]; [unfold ret; intros [= <- <-]; split; [done|constructor]|].
      unfold lk at 1. destruct (dict_get n isl) as [jn|] eqn:En; cbn [or_raise]; ms; [|done]. unfold bnd. destruct (mapm lk l s1) as [s2 [js'|]]; [|done].
      destruct (IH _ _ eq_refl) as [-> F]. unfold ret. intros [= <- <-]. split; [done|by constructor]. }
    unfold bnd at 1. destruct (mapm lk (sorted d) s1) as [s2 [js|]] eqn:Em; [|done]. destruct (Hmap _ _ _ Em) as [-> F].
    destruct (o_code me) as [c|] eqn:Eco; cbn [or_raise]; ms; [|done]. intros [= <- <-].
    assert (Hok : obj_ok strong s1 me) by (by eapply inv_obj). destruct Hok as ((Hcode & _) & _ & HP & HA). specialize (Hcode c Eco). split; [done|].
    assert (Hreal : o_src o = o_src me /\ (o_full me = true -> o_full o = true)).
    { destruct (o_kind me) eqn:Ek.
      - destruct (HA Hst eq_refl) as [Hb|(j' & o' & Hj' & Ho' & Hk' & Hs' & Hf')].
        + exfalso. rewrite Hb in Eco. done.
        + assert (o' = o) as -> by congruence. done.
      - destruct (HP eq_refl) as (j' & o' & Hj' & Ho' & Hs' & _ & _ & Hf'). assert (o' = o) as -> by congruence. split; [done|]. intros Hf. by apply Hf'. }
    destruct Hreal as [Hsrc Hfull].
    split; [unfold source_of, definition_of; rewrite Hj, Ho; cbn; by rewrite Hsrc|].
    intros a m Ha Hreq.
    assert (Hfm : o_full me = true). { destruct (heap s !! f) as [me0|] eqn:Hm0; [|unfold Registry.complete, bnd, get in Ec; by rewrite Hm0 in Ec]. eapply (complete_full s f me0 s1 me); [by eapply inv_enrolled|by eapply inv_wf|done..]. }
    destruct (inv_reg _ _ _ _ _ _ _ Hi1 _ _ _ _ Hj Ho (Hfull Hfm)) as (N & D & H1 & H2 & H3 & H4 & H5 & _).
    rewrite Hsrc in H5. destruct (H5 a Ha) as [H5' _]. rewrite <- Hn in H5', H4. 
    assert (HmD : m ∈ D).
    { apply H4. apply rtc_once. split; [|by apply H5']. exists (o_src me). split; [unfold source_of, definition_of; rewrite <- Hh, Hj, Ho; cbn; by rewrite Hsrc|]. exists a. split; [done|].
      unfold required_names in Hreq. rewrite !elem_of_difference, elem_of_union in Hreq. tauto. }
    assert (Hin : m ∈ sorted d). { rewrite Ed in H1. injection H1 as ->. by rewrite !elem_of_sorted, elem_of_elements. }
    assert (Hnd : NoDup (sorted d)). { rewrite Ed in H1. injection H1 as ->. rewrite !sorted_perm. apply NoDup_elements. }
    apply elem_of_list_lookup in Hin as (i & Hi). destruct (Forall2_lookup_l _ _ _ _ _ F Hi) as (jm & Hjm & Hjm'). exists jm. split; [by rewrite Hreg|].
    by eapply dict_update_zip.
  Qed.
End Claims.
