(** Registration of functions: every operation keeps the invariant and only fills in what was there. *)
From Coq Require Import String Sorted.
From stdpp Require Import gmap.
From Verif Require Import Lib.Py Lib.DictLemmas Model.PyAst Model.Normalizer Model.NamesAnalyzer Model.CallGraph Model.Registry.
From Verif.Spec Require Import RegistrySpec.
From Verif.Proofs Require Import RegistryP RegistryInvP.
Local Open Scope nat_scope.

Lemma upd_kind me o : o_kind (upd me o).1 = o_kind me /\ o_portal (upd me o).1 = o_portal me /\ o_src (upd me o).1 = o_src o /\ o_name (upd me o).1 = o_name o.
Proof.
  unfold upd, finish. destruct (o_full o).
  - destruct (o_code o); [|by destruct me]. destruct (o_deps o); [|by destruct me]. destruct me as [kd]. cbn. destruct kd; [done|]. destruct (o_kind o); done.
  - destruct me as [kd]. cbn. destruct kd; [done|]. destruct (o_kind o); done.
Qed.
Lemma upd_code me o : (forall c, o_code o = Some c -> c = o_src o) -> (forall c, o_code me = Some c -> c = o_src o) ->
  forall c, o_code (upd me o).1 = Some c -> c = o_src (upd me o).1.
Proof.
  intros Ho Hm c. rewrite (proj1 (proj2 (proj2 (upd_kind me o)))). unfold upd, finish. destruct (o_full o).
  - destruct (o_code o) as [co|]; [|destruct me; cbn in *; apply Hm]. specialize (Ho co eq_refl).
    destruct (o_deps o); [|destruct me; cbn in *; congruence]. destruct me as [kd]. cbn in *. destruct kd; [cbn; congruence|]. destruct (o_kind o); cbn; congruence.
  - destruct me as [kd]. cbn in *. destruct kd; [cbn; auto|]. destruct (o_kind o); cbn; auto.
Qed.
Lemma upd_aut me o : o_kind me = Aut -> o_guards (upd me o).1 = o_guards me /\ o_aug (upd me o).1 = o_aug me.
Proof.
  intros Hk. unfold upd, finish. destruct (o_full o).
  - destruct (o_code o); [|by destruct me]. destruct (o_deps o); [|by destruct me]. destruct me as [kd]. cbn in *. by rewrite Hk.
  - destruct me as [kd]. cbn in *. by rewrite Hk.
Qed.
Lemma upd_pure me o : o_kind me = Pure -> (upd me o).2 = Ok tt ->
  o_kind o = Pure /\ o_guards (upd me o).1 = o_guards o /\ o_aug (upd me o).1 = o_aug o /\ o_island (upd me o).1 = o_island o
  /\ o_strict (upd me o).1 = o_strict o /\ o_full (upd me o).1 = (if o_full o then true else o_full me).
Proof.
  intros Hk. unfold upd, finish. destruct (o_full o).
  - destruct (o_code o); [|done]. destruct (o_deps o); [|done]. destruct me as [kd]. cbn in *. rewrite Hk. by destruct (o_kind o).
  - destruct me as [kd]. cbn in *. rewrite Hk. by destruct (o_kind o).
Qed.
(** what a successful update does, all fields *)
Lemma upd_ok me o : (upd me o).2 = Ok tt -> o_island (upd me o).1 = o_island o /\ o_strict (upd me o).1 = o_strict o
  /\ (o_full o = true -> o_full (upd me o).1 = true /\ o_code (upd me o).1 = o_code o /\ o_deps (upd me o).1 = o_deps o)
  /\ (o_full o = false -> o_full (upd me o).1 = o_full me /\ o_code (upd me o).1 = o_code me /\ o_deps (upd me o).1 = o_deps me).
Proof.
  unfold upd, finish. destruct (o_full o).
  - destruct (o_code o); [|done]. destruct (o_deps o); [|done]. destruct me as [kd]. cbn in *. destruct kd; [done|]. by destruct (o_kind o).
  - destruct me as [kd]. cbn in *. destruct kd; [done|]. by destruct (o_kind o).
Qed.

Section Ops.
  Variable normalise : bool -> string -> res string.
  Variable names_of : string -> res ana.
  Variable name_of : string -> res string.
  Variable builtins : gset string.
  Variable ord : nat -> gset string -> list string.
  Variable strong : Prop.
  Variable default_island : nat -> string.
  Hypothesis ord_perm : forall t X, ord t X ≡ₚ elements X.
  Hypothesis function_name : forall src n a, normalise false src = Ok src -> name_of src = Ok n -> names_of src = Ok a -> a_function a = Some n.
  Notation enrolled_ok := (enrolled_ok normalise names_of name_of).
  Notation invx := (invx normalise names_of name_of builtins strong).
  Notation ev := (ev strong).
  Notation obj_ok := (obj_ok strong).
  Notation inv := (invx None).
  Notation begin_registration := (begin_registration normalise names_of).
  Notation complete := (complete normalise names_of builtins ord).

  (** everything but the object [self] is as it was, and nothing registered is lost *)
  Definition beside (self : nat) (s s' : st) : Prop :=
    (forall i, i <> self -> heap s' !! i = heap s !! i) /\ List.length (heap s') = List.length (heap s)
    /\ (forall k n j, reg s k n = Some j -> reg s' k n = Some j).
  Lemma beside_refl self s : beside self s s.
  Proof. done. Qed.
  Lemma beside_trans self s1 s2 s3 : beside self s1 s2 -> beside self s2 s3 -> beside self s1 s3.
  Proof. intros (A1 & A2 & A3) (B1 & B2 & B3). split; [|split; [lia|auto]]. intros i Hi. rewrite B1, A1 by done. done. Qed.
  Lemma beside_put self s o : beside self s (St (<[self := o]> (heap s)) (known s)).
  Proof. split; [|split; [by cbn; rewrite insert_length|done]]. intros i Hi. cbn. by rewrite list_lookup_insert_ne. Qed.
  Lemma ev_beside s0 self s s' : ev s0 s -> List.length (heap s0) <= self -> beside self s s' -> ev s0 s'.
  Proof.
    intros [E R] Hl (B1 & B2 & B3). split; [|auto]. intros i o Hi. rewrite B1; [by apply E|]. apply lookup_lt_Some in Hi. lia.
  Qed.

  Definition raw_ok (me : fnobj) : Prop :=
    o_full me = false /\ name_of (o_src me) = Ok (o_name me) /\ ((forall c, o_code me = Some c -> c = o_src me) /\ (forall g, o_guards me = Some g -> sorted g = g)) /\ (o_kind me = Aut -> o_guards me = None /\ o_aug me = None).

  Lemma begin_ok s self me s' r : invx (Some self) s -> heap s !! self = Some me -> ~ enrolled s self -> raw_ok me ->
    begin_registration self s = (s', r) ->
    beside self s s'
    /\ match r with
       | Err _ => invx (Some self) s' /\ ~ enrolled s' self /\ (forall k n, reg s' k n = reg s k n)
       | Ok _ => inv s' /\ exists me' j o, heap s' !! self = Some me' /\ o_kind me' = o_kind me /\ o_portal me' = o_portal me /\ o_src me' = o_src me
                   /\ o_name me' = o_name me /\ o_island me' = o_island me /\ o_guards me' = o_guards me
                   /\ reg s' (home me) (o_name me) = Some j /\ heap s' !! j = Some o /\ o_kind o = o_kind me /\ o_src o = o_src me /\ decorator o = decorator me'
                   /\ (forall k n, reg s' k n = if decide (k = home me /\ n = o_name me) then Some j else reg s k n)
                   /\ decorator o = decorator me /\ (reg s (home me) (o_name me) = None -> j = self /\ o = me' /\ me' = me)
                   /\ (forall j', reg s (home me) (o_name me) = Some j' -> j' = j /\ me' = (upd me o).1 /\ (upd me o).2 = Ok tt)
       end.
  Proof.
    intros Hinv Hm Hne (Hf & Hnm & [Hc Hgs] & Ha) Hrun.
    assert (Hlt : self < List.length (heap s)) by (by eapply lookup_lt_Some).
    pose proof (inv_enrolled _ _ _ _ _ _ _ Hinv) as Hen. pose proof (inv_wf _ _ _ _ _ _ _ Hinv) as Hwf.
    assert (Hsf : set_full false me = me) by (by apply set_full_false_id).
    apply (begin_run _ _ _ _ me) in Hrun; [|done|done|by eapply enrolled_alive].
    destruct Hrun as [j o Hj Ho Hsame|j o Hj Ho Hsame|kn e Hj Hfit Hrg Hwf'|kn Hj Hfit Hrg Hwf']; rewrite Hsf.
    - split; [apply beside_put|].
      pose proof Hsame as Hsame'. unfold same_definition in Hsame'. apply andb_true_iff in Hsame' as [Hs H3]. apply andb_true_iff in Hs as [H1 H2].
      apply bool_decide_eq_true in H1, H2, H3.
      destruct (Hen _ _ _ Hj) as (o1 & Ho1 & Hho & Hno & _). rewrite Ho in Ho1. injection Ho1 as <-.
      assert (Hnj : self <> j) by (intros ->; apply Hne; by eexists _, _).
      destruct (upd_kind me o) as (K1 & K2 & K3 & K4).
      destruct (inv_put _ _ _ _ _ (Some self) s self (upd me o).1 (known s) Hinv) as [P1 P2]; [by right|done|done|done|].
      destruct (upd me o).2 as [[]|e] eqn:Er.
      + assert (Hok : obj_ok s o) by (apply (inv_obj _ _ _ _ _ _ _ Hinv j); [congruence|done]).
        assert (HX : obj_ok s (upd me o).1).
        { destruct Hok as ([Oc Og] & Oa & Op & Ol). split; [split|split; [|split]].
          - apply upd_code; [done|]. intros c Hcc. rewrite <- H1. auto.
          - destruct (o_kind me) eqn:Ek; [destruct (upd_aut me o Ek) as [-> _]; auto|]. destruct (upd_pure me o Ek Er) as (_ & -> & _). done.
          - rewrite K1. intros Hk. destruct (upd_aut me o Hk) as [-> ->]. auto.
          - rewrite K1. intros Hk. destruct (upd_pure me o Hk Er) as (U1 & U2 & U3 & U4 & U5 & U6). exists j, o.
            assert (home (upd me o).1 = home o) as -> by (rewrite <- Hho; unfold home in *; injection Hho as ? ?; congruence).
            rewrite K4, <- Hno, <- Hho, U2, U3, K3. do 5 (split; [done|]). rewrite U6, Hf. by destruct (o_full o).
          - rewrite K1. intros _ Hk. right. exists j, o. assert (home (upd me o).1 = home o) as ->.
            { rewrite <- Hho. unfold home in *. injection Hho as ? ?. destruct (upd_ok me o Er) as (-> & _). congruence. }
            rewrite K4, <- Hno, <- Hho, K3. split; [done|]. split; [done|]. split; [congruence|]. split; [done|].
            destruct (upd_ok me o Er) as (_ & _ & Ut & Uf). destruct (o_full o); [done|]. destruct (Uf eq_refl) as (-> & _). congruence. }
        split; [by apply P2|]. exists (upd me o).1, j, o. cbn [heap]. rewrite list_lookup_insert by done. rewrite list_lookup_insert_ne by done.
        assert (Hisl : o_island (upd me o).1 = o_island o).
        { apply upd_ok, Er. }
        unfold home in Hho. injection Hho as Hh1 Hh2.
        assert (Hgd : o_guards (upd me o).1 = o_guards me).
        { destruct (o_kind me) eqn:Ek; [by apply upd_aut|]. destruct (upd_pure me o Ek Er) as (_ & -> & _). unfold decorator in H2. rewrite Ek, <- H3 in H2. congruence. }
        repeat (split; [done || congruence|]). split.
        { destruct (upd_ok me o Er) as (U1 & U2 & _). unfold decorator. rewrite K1, <- H3, U1, U2. destruct (o_kind me) eqn:Ek; [done|].
          destruct (upd_pure me o Ek Er) as (_ & -> & _). done. }
        split; [intros k n; destruct (decide _) as [[-> ->]|]; [|done]; exact Hj|]. split; [done|]. split; [congruence|]. intros j' Hj'. split; [congruence|done].
      + split; [done|]. split; [|done]. intros (k & n & Hk). apply Hne. by exists k, n.
    - split; [apply beside_put|]. split; [|split; [intros (k & n & Hk); apply Hne; by exists k, n|done]]. eapply (inv_put _ _ _ _ _ (Some self)); try done. by right.
    - split.
      { split; [|split; [by cbn; rewrite insert_length|]]. - intros i Hi. cbn. by rewrite list_lookup_insert_ne. - intros k n j Hk. rewrite <- Hrg in Hk. done. }
      split; [eapply (inv_put _ _ _ _ _ (Some self)); try done; [by right|by apply Hwf']|].
      split; [intros (k & n & Hk); apply Hne; exists k, n; rewrite <- Hrg; done|exact Hrg].
    - split.
      { split; [|split; [by cbn; rewrite insert_length|]]. - intros i Hi. cbn. by rewrite list_lookup_insert_ne.
        - intros k n j Hk. change (reg (St (heap s) kn) k n = Some j). rewrite Hrg, decide_False; [done|]. intros [-> ->]. congruence. }
      assert (Hid : <[self := me]> (heap s) = heap s) by (by apply list_insert_id). rewrite Hid. split.
      + eapply (inv_enrol _ _ _ _ _ s self me); try done. by apply Hwf'.
      + exists me, self, me. repeat (split; [done|]). split; [by rewrite Hrg, decide_True|]. do 4 (split; [done|]). split; [exact Hrg|]. split; [done|]. split; [done|]. congruence.
  Qed.

  (** computations that only read *)
  Definition reader {A} (m : M A) : Prop := forall s s' r, m s = (s', r) -> s' = s.
  Lemma reader_bnd {A B} (m : M A) (k : A -> M B) : reader m -> (forall a, reader (k a)) -> reader (bnd m k).
  Proof. intros Hm Hk s s' r. unfold bnd. destruct (m s) as [s1 [a|e]] eqn:E; apply Hm in E as ->; [apply Hk|by intros [= <- <-]]. Qed.
  Lemma reader_ret {A} (a : A) : reader (ret a). Proof. by intros s s' r [= <- <-]. Qed.
  Lemma reader_lift {A} (x : res A) : reader (lift x). Proof. by intros s s' r [= <- <-]. Qed.
  Lemma reader_raise {A} e : reader (raise e : M A). Proof. by intros s s' r [= <- <-]. Qed.
  Lemma reader_get i : reader (get i). Proof. by intros s s' r [= <- <-]. Qed.
  Lemma reader_island k : reader (island_of k). Proof. by intros s s' r [= <- <-]. Qed.
  Lemma reader_check c : reader (check c). Proof. apply reader_lift. Qed.
  Lemma reader_or {A} e (x : option A) : reader (or_raise e x). Proof. destruct x; [apply reader_ret|apply reader_raise]. Qed.
  Lemma reader_mapm {A B} (f : A -> M B) l : (forall a, reader (f a)) -> reader (mapm f l).
  Proof. intros H. induction l; cbn; [apply reader_ret|]. apply reader_bnd; [apply H|]. intros b. apply reader_bnd; [done|]. intros; apply reader_ret. Qed.
  Ltac rd := repeat first [apply reader_bnd; [|intros] | apply reader_ret | apply reader_lift | apply reader_raise | apply reader_get | apply reader_island | apply reader_check
    | apply reader_or | apply reader_mapm; intros | match goal with |- reader (match ?x with _ => _ end) => destruct x end | match goal with |- reader (if ?x then _ else _) => destruct x end].
  Lemma reader_guards self gs : reader (preprocess_guards self gs).
  Proof. unfold preprocess_guards. rd. Qed.
  Lemma guards_sorted self gs s s' g : preprocess_guards self gs s = (s', Ok (Some g)) -> sorted g = g.
  Proof.
    unfold preprocess_guards. destruct gs as [l|]; [|done]. unfold bnd. destruct (get self s) as [s1 [me|]]; [|done]. destruct (island_of _ s1) as [s2 [i|]]; [|done].
    destruct (or_raise KeyError i s2) as [s3 [isl|]]; [|done]. destruct (mapm _ l s3) as [s4 [ns|]]; [|done]. intros [= _ <-]. apply sorted_idemp.
  Qed.
  Lemma reader_dependencies self : reader (dependencies self).
  Proof. unfold dependencies. rd. Qed.
  Lemma reader_blocks isl fns : reader (augmented_blocks isl fns).
  Proof. unfold augmented_blocks. rd. Qed.
  Lemma reader_augmented self : reader (augmented_source self).
  Proof. unfold augmented_source. rd. Qed.

  (** an object under construction, not registered yet *)
  Definition pending (s1 : st) (self : nat) (s : st) : Prop := invx (Some self) s /\ ~ enrolled s self /\ beside self s1 s /\ (forall k n, reg s k n = reg s1 k n).
  Lemma inv_put1 s self o : invx (Some self) s -> ~ enrolled s self ->
    invx (Some self) (St (<[self := o]> (heap s)) (known s)) /\ (obj_ok s o -> inv (St (<[self := o]> (heap s)) (known s))).
  Proof.
    intros H1 H2. apply (inv_put _ _ _ _ _ (Some self) s self o (known s) H1); [by right|done| |done]. destruct s. apply H1.
  Qed.
  Lemma pending_put s1 self s o : pending s1 self s -> pending s1 self (St (<[self := o]> (heap s)) (known s)).
  Proof.
    intros (H1 & H2 & H3 & H4). split; [|split; [|split; [|exact H4]]].
    - by apply inv_put1.
    - intros (k & n & Hk). apply H2. by exists k, n.
    - eapply beside_trans; [done|apply beside_put].
  Qed.
  Lemma blank_ok s p : obj_ok s (blank Aut p).
  Proof. split; [done|]. split; [done|]. split; [done|]. by left. Qed.
  Lemma discard_ok {A} s1 self p (m : M A) s' r s2 r2 : m s1 = (s2, r2) -> discard self p m s1 = (s', r) ->
    match r2 with Err _ => pending s1 self s2 | Ok _ => inv s2 /\ beside self s1 s2 end ->
    inv s' /\ beside self s1 s' /\ r = r2 /\ (is_ok r = true -> s' = s2) /\ (is_ok r = false -> forall k n, reg s' k n = reg s1 k n).
  Proof.
    intros Em. unfold discard. rewrite Em. destruct r2 as [a|e]; intros [= <- <-].
    - intros [H1 H2]. done.
    - intros (H1 & H2 & H3 & H4). split; [|split; [|split; [done|split; [done|intros _; exact H4]]]].
      + apply inv_put1; [done..|apply blank_ok].
      + eapply beside_trans; [done|apply beside_put].
  Qed.
  Lemma pending_alloc s o : inv s -> let s1 := St (heap s ++ [o]) (known s) in pending s1 (List.length (heap s)) s1.
  Proof. intros H s1. destruct (inv_alloc _ _ _ _ _ s o H) as (H1 & H2 & H3 & H4). split; [done|]. split; [done|]. split; [apply beside_refl|done]. Qed.

  (** the tail of a constructor *)
  Lemma begin_pending s1 self s me s' r : pending s1 self s -> heap s !! self = Some me -> raw_ok me -> begin_registration self s = (s', r) ->
    match r with Err _ => pending s1 self s' | Ok _ => inv s' /\ beside self s1 s' end /\ (forall k n, k <> home me -> reg s' k n = reg s1 k n).
  Proof.
    intros (H1 & H2 & H3 & H4) Hm Hraw Hrun. destruct (begin_ok _ _ _ _ _ H1 Hm H2 Hraw Hrun) as [HB Hr]. split.
    2:{ intros k n Hk. destruct r as [[]|e]; [|destruct Hr as (_ & _ & Hr); by rewrite Hr, H4]. destruct Hr as (_ & me' & j & o & K).
        destruct K as (K1 & K2 & K3 & K4 & K5 & K6 & K7 & K8 & K9 & K10 & K11 & K12 & K13 & _). rewrite K13, decide_False by (intros [-> _]; done). apply H4. }
    destruct r as [[]|e]; [destruct Hr as [Hr _]; split; [done|by eapply beside_trans]|]. destruct Hr as (R1 & R2 & R3). split; [done|]. split; [done|]. split; [by eapply beside_trans|]. intros k n. by rewrite R3, H4.
  Qed.

  Notation new_fn := (new_fn normalise names_of name_of default_island).
  Notation wrap_fn := (wrap_fn normalise names_of default_island).

  (** the object a constructor builds before registering it *)
  Definition raw_fn (k : kind) (src name island : string) (strictly : bool) (g : option (list string)) (p : nat) : fnobj :=
    FnObj k p src name island (match k with Aut => strictly | Pure => false end) false None None (match k with Aut => None | Pure => g end) None.
  Lemma new_fn_run s k code isl strictly gs p s' r : inv s -> new_fn k code isl strictly gs p s = (s', r) ->
    let self := List.length (heap s) in let s1 := St (heap s ++ [blank k p]) (known s) in
    inv s' /\ ev s s' /\ beside self s1 s' /\
    match r with
    | Err _ => forall k n, reg s' k n = reg s k n
    | Ok i => i = self /\ exists src name g, normalise true code = Ok src /\ name_of src = Ok name /\ (gs = None -> g = None)
        /\ let me := raw_fn k src name (island_or_default default_island isl p) strictly g p in
           let s2 := St (heap s ++ [me]) (known s) in invx (Some self) s2 /\ ~ enrolled s2 self /\ raw_ok me /\ begin_registration self s2 = (s', Ok tt)
           /\ (k = Pure -> exists s3, preprocess_guards self gs s3 = (s3, Ok g) /\ known s3 = known s
                 /\ (forall i, i <> self -> heap s3 !! i = heap s2 !! i) /\ exists m3, heap s3 !! self = Some m3 /\ o_portal m3 = p /\ o_island m3 = island_or_default default_island isl p /\ o_strict m3 = false)
    end.
  Proof.
    intros Hinv Hrun self s1. unfold Registry.new_fn in Hrun. rewrite bnd_alloc in Hrun. fold self in Hrun. fold s1 in Hrun.
    pose proof (pending_alloc s (blank k p) Hinv) as Hpend. cbn zeta in Hpend. fold self s1 in Hpend. destruct (inv_alloc _ _ _ _ _ s (blank k p) Hinv) as (_ & Hev1 & _ & Hself). fold self s1 in Hself, Hev1.
    assert (Hlen : List.length (heap s1) = S self) by (cbn; rewrite app_length; cbn; unfold self; lia).
    match type of Hrun with bnd (discard self p ?m0) _ _ = _ => set (m := m0) in Hrun end.
    destruct (m s1) as [s2 r2] eqn:Em.
    assert (Hins : forall (x y : fnobj), <[self := x]> (heap s ++ [y]) = heap s ++ [x]).
    { intros x y. unfold self. rewrite insert_app_r_alt by lia. by rewrite Nat.sub_diag. }
    assert (Hm : match r2 with Err _ => pending s1 self s2 | Ok _ => inv s2 /\ beside self s1 s2 end
        /\ (r2 = Ok tt -> exists src name g, normalise true code = Ok src /\ name_of src = Ok name /\ (gs = None -> g = None)
        /\ let me := raw_fn k src name (island_or_default default_island isl p) strictly g p in
           let s2' := St (heap s ++ [me]) (known s) in invx (Some self) s2' /\ ~ enrolled s2' self /\ raw_ok me /\ begin_registration self s2' = (s2, Ok tt)
           /\ (k = Pure -> exists s3, preprocess_guards self gs s3 = (s3, Ok g) /\ known s3 = known s
                 /\ (forall i, i <> self -> heap s3 !! i = heap s2' !! i) /\ exists m3, heap s3 !! self = Some m3 /\ o_portal m3 = p /\ o_island m3 = island_or_default default_island isl p /\ o_strict m3 = false))).
    { subst m. cbn beta in Em. revert Em. ms. destruct (normalise true code) as [src|e]; [|by intros [= <- <-]]. ms.
      destruct (name_of src) as [name|e] eqn:Enm; [|by intros [= <- <-]]. ms.
      unfold s1 at 1. cbn [heap known]. rewrite (alter_eq_insert (heap s ++ [blank k p]) self (set_names src name) (blank k p) Hself). rewrite alter_insert'.
      rewrite (Hins _ (blank k p)).
      set (X := set_place _ _ _). change (known s1) with (known s). intros Em.
      assert (HX : X = raw_fn k src name (island_or_default default_island isl p) strictly None p) by (by destruct k).
      set (s3 := St (heap s ++ [X]) (known s)) in Em.
      assert (Hp3 : pending s1 self s3). { unfold s3. rewrite <- (Hins X (blank k p)). by apply (pending_put s1 self s1 X). }
      assert (Hg : exists g, (gs = None -> g = None) /\ (forall gl, g = Some gl -> sorted gl = gl) /\ let me := raw_fn k src name (island_or_default default_island isl p) strictly g p in
        ((match r2 with Err _ => s2 = s3 /\ k = Pure | Ok _ => False end) \/ (begin_registration self (St (heap s ++ [me]) (known s)) = (s2, r2)
            /\ (k = Pure -> preprocess_guards self gs s3 = (s3, Ok g))))).
      { destruct k.
        - exists None. split; [done|]. split; [done|]. right. rewrite bnd_ret in Em. split; [|done]. rewrite <- HX. exact Em.
        - destruct (preprocess_guards self gs s3) as [s4 rg] eqn:Eg. pose proof (reader_guards _ _ _ _ _ Eg) as ->.
          rewrite bnd_assoc in Em. unfold bnd at 1 in Em. rewrite Eg in Em.
          destruct rg as [g|e].
          + exists g. split. { intros ->. unfold preprocess_guards in Eg. by injection Eg as <-. } split; [intros gl ->; by eapply guards_sorted|]. right. split; [|done].
            revert Em. ms.
            assert (Hl : (heap s ++ [X]) !! self = Some X). { unfold self. rewrite lookup_app_r by lia. by rewrite Nat.sub_diag. }
            rewrite (alter_eq_insert _ _ _ X Hl). rewrite (Hins _ X). rewrite HX. done.
          + exists None. split; [done|]. split; [done|]. left. injection Em as <- <-. done. }
      destruct Hg as (g & Hg0 & Hgsort & Hg). cbn zeta in Hg. set (me := raw_fn _ _ _ _ _ _ _) in Hg.
      assert (Hraw : raw_ok me).
      { split; [done|]. split; [done|]. split; [split; [done|]|by destruct k]. destruct k; [done|]. cbn. by apply Hgsort. }
      assert (Hpm : pending s1 self (St (heap s ++ [me]) (known s))). { rewrite <- (Hins me (blank k p)). by apply (pending_put s1 self s1 me). }
      destruct Hg as [Hg|[Hb Hpg]].
      - destruct r2; [done|]. destruct Hg as [-> _]. done.
      - assert (Hlm : heap (St (heap s ++ [me]) (known s)) !! self = Some me). { cbn. unfold self. rewrite lookup_app_r by lia. by rewrite Nat.sub_diag. }
        split; [exact (proj1 (begin_pending _ _ _ _ _ _ Hpm Hlm Hraw Hb))|].
        intros ->. exists src, name, g. do 3 (split; [done|]). cbn zeta. fold me. destruct Hpm as (P1 & P2 & P3 & _). do 3 (split; [done|]). split; [done|].
        intros Hk. exists s3. split; [by apply Hpg|]. split; [done|]. split.
        + intros i Hi. cbn. destruct (decide (i < List.length (heap s))) as [Hlt|Hge]; [by rewrite !lookup_app_l|].
          rewrite !lookup_app_r by lia. destruct (i - List.length (heap s)) eqn:Ei; [unfold self in Hi; lia|done].
        + exists X. split; [cbn; unfold self; rewrite lookup_app_r by lia; by rewrite Nat.sub_diag|]. rewrite HX, Hk. done. }
    destruct Hm as [Hm1 Hm2]. unfold bnd in Hrun. destruct (discard self p m s1) as [s4 r4] eqn:Ed.
    destruct (discard_ok s1 self p m s4 r4 s2 r2 Em Ed Hm1) as (D1 & D2 & -> & D4 & D5).
    destruct r2 as [[]|e]; injection Hrun as <- <-; (split; [done|]; split; [eapply ev_beside; [done| |done]; unfold self; lia|]; split; [done|]).
    - rewrite (D4 eq_refl). split; [done|]. destruct (Hm2 eq_refl) as (src & name & g & H). exists src, name, g. done.
    - exact (D5 eq_refl).
  Qed.

  Lemma wrap_fn_ok s k f isl gs p s' r : inv s -> (strong -> regular_wrap s k f p) -> wrap_fn k f isl gs p s = (s', r) -> (inv s' /\ ev s s' /\ beside (List.length (heap s)) (St (heap s ++ [blank k p]) (known s)) s' \/ s' = s)
    /\ (forall k' n, k' <> (p, island_or_default default_island isl p) -> reg s' k' n = reg s k' n).
  Proof.
    intros Hinv Hregular Hrun. unfold Registry.wrap_fn in Hrun. destruct (heap s !! f) as [o|] eqn:Ho; [|unfold bnd, get in Hrun; rewrite Ho in Hrun; injection Hrun as <- _; split; [by right|done]].
    rewrite (bnd_get _ _ _ _ Ho) in Hrun. rewrite bnd_alloc in Hrun. set (self := List.length (heap s)) in *. set (s1 := St (heap s ++ [blank k p]) (known s)) in *.
    pose proof (pending_alloc s (blank k p) Hinv) as Hpend. cbn zeta in Hpend. fold self s1 in Hpend.
    destruct (inv_alloc _ _ _ _ _ s (blank k p) Hinv) as (_ & Hev1 & _ & Hself). fold self s1 in Hself, Hev1.
    assert (Hfl : f < self) by (by eapply lookup_lt_Some).
    assert (Hlen : self < List.length (heap s1)) by (cbn; rewrite app_length; cbn; unfold self; lia).
    assert (Ho1 : heap s1 !! f = Some o) by (cbn; by rewrite lookup_app_l).
    match type of Hrun with bnd (discard self p ?m0) _ _ = _ => set (m := m0) in Hrun end.
    destruct (m s1) as [s2 r2] eqn:Em.
    assert (Hok : obj_ok s o) by (by eapply inv_obj).
    assert (Hm : match r2 with Err _ => pending s1 self s2 | Ok _ => inv s2 /\ beside self s1 s2 end /\ forall k' n, k' <> (p, island_or_default default_island isl p) -> reg s2 k' n = reg s k' n).
    { subst m. cbn beta in Em. unfold bnd at 1 in Em. rewrite (update_run s1 self f (blank k p) o Hself Ho1) in Em by lia.
      set (X := (upd (blank k p) o).1) in Em. destruct (upd_kind (blank k p) o) as (K1 & K2 & K3 & K4). fold X in K1, K2, K3, K4.
      assert (HcX : forall c, o_code X = Some c -> c = o_src X) by (apply upd_code; [apply (proj1 Hok)|done]).
      set (s3 := St (<[self := X]> (heap s1)) (known s1)) in Em.
      assert (Hp3 : pending s1 self s3) by (by apply pending_put).
      assert (Hs3 : heap s3 !! self = Some X) by (by apply list_lookup_insert).
      assert (Ho3 : forall x s4, s4 = St (<[self := x]> (heap s3)) (known s3) -> heap s4 !! f = Some o).
      { intros x s4 ->. cbn. rewrite !list_lookup_insert_ne by lia. done. }
      destruct (upd (blank k p) o).2 as [[]|e] eqn:Er; [|injection Em as <- <-; split; [done|intros; apply Hp3]].
      destruct k.
      - revert Em. rewrite bnd_ret. rewrite (bnd_get f _ s3 o) by (cbn; rewrite list_lookup_insert_ne by lia; done). ms.
        destruct (bool_decide _); [|intros [= <- <-]; split; [done|intros; apply Hp3]]. intros [= <- <-]. split; [|intros; apply Hp3]. split; [|apply Hp3].
        destruct Hp3 as (P1 & P2 & P3 & _).
        assert (HXok : obj_ok s3 X).
        { split; [split; [done|]; destruct (upd_aut (blank Aut p) o eq_refl) as [E _]; fold X in E; rewrite E; done|]. split; [intros _; apply (upd_aut (blank Aut p) o); done|]. split; [rewrite K1; done|]. intros Hst _.
          destruct (Hregular Hst eq_refl o Ho) as [R1 R2]. destruct Hok as (_ & _ & _ & Ol). destruct (Ol Hst R1) as [Hb|(j & oj & Hj & Hoj & Hkk & Hss & Hff)].
          - left. rewrite K2. unfold X. rewrite Hb, R2. done.
          - right. exists j, oj. assert (home X = home o) as ->. { unfold home. rewrite K2. unfold X. destruct (upd_ok _ _ Er) as (-> & _). cbn. congruence. }
            rewrite K4. split; [exact Hj|]. split.
            2:{ split; [done|]. rewrite K3. split; [done|]. unfold X. destruct (upd_ok _ _ Er) as (_ & _ & Ut & Uf). destruct (o_full o); [auto|]. destruct (Uf eq_refl) as (-> & _). done. }
            cbn. rewrite list_lookup_insert_ne; [|apply lookup_lt_Some in Hoj; unfold self; lia].
            rewrite lookup_app_l; [done|by eapply lookup_lt_Some]. }
        destruct (inv_put1 s3 self X P1 P2) as [_ Hp]. specialize (Hp HXok). rewrite (list_insert_id (heap s3) self X Hs3) in Hp. exact Hp.
      - revert Em. ms. rewrite (alter_eq_insert _ _ _ X Hs3). set (Y := set_full false X). set (s4 := St (<[self := Y]> (heap s3)) (known s3)).
        assert (Hp4 : pending s1 self s4) by (by apply pending_put).
        rewrite (bnd_get f _ s4 o) by (by eapply Ho3). ms. destruct (bool_decide_reflect (island_or_default default_island isl p = o_island o)) as [Hiso|_]; [|intros [= <- <-]; split; [done|intros; apply Hp4]]. ms.
        destruct (preprocess_guards self gs s4) as [s5 rg] eqn:Eg. pose proof (reader_guards _ _ _ _ _ Eg) as ->.
        unfold bnd at 1. rewrite Eg. destruct rg as [g|e]; [|intros [= <- <-]; split; [done|intros; apply Hp4]]. ms.
        assert (Hs4 : heap s4 !! self = Some Y) by (apply list_lookup_insert; cbn; by rewrite insert_length).
        rewrite (alter_eq_insert _ _ _ Y Hs4). rewrite alter_insert'. set (Z := set_aug None (set_guards g Y)).
        assert (Hp5 : pending s1 self (St (<[self := Z]> (heap s4)) (known s4))) by (by apply pending_put).
        assert (Hhz : home Z = (p, island_or_default default_island isl p)). { rewrite Hiso. unfold home. change (o_portal Z) with (o_portal X). change (o_island Z) with (o_island X). rewrite K2. f_equal. apply (upd_ok _ _ Er). }
        intros Eb. rewrite <- Hhz. refine (begin_pending _ _ _ Z _ _ Hp5 _ _ Eb).
        + apply list_lookup_insert. cbn. by rewrite !insert_length.
        + destruct (upd_pure (blank Pure p) o eq_refl Er) as (U1 & _).
          split; [done|]. split.
          { destruct Hok as (_ & _ & HP & _). destruct (HP U1) as (j & oj & Hj & Hoj & Hs & _). pose proof (inv_enrolled _ _ _ _ _ _ _ Hinv _ _ _ Hj) as (oj' & Hoj' & _ & _ & Hnm & _).
            rewrite Hoj in Hoj'. injection Hoj' as <-. change (o_src Z) with (o_src X). change (o_name Z) with (o_name X). rewrite K3, K4, <- Hs. done. }
          split; [split; [exact HcX|]; intros gl Hgl; cbn in Hgl; subst g; by eapply guards_sorted|]. change (o_kind Z) with (o_kind X). rewrite K1. done. }
    unfold bnd in Hrun. destruct (discard self p m s1) as [s4 r4] eqn:Ed.
    destruct Hm as [Hm Hmr]. destruct (discard_ok s1 self p m s4 r4 s2 r2 Em Ed Hm) as (D1 & D2 & -> & D4 & D5).
    assert (s' = s4) as -> by (destruct r2; by injection Hrun as <- _). split; [left|intros k' n Hk'; destruct r2; [by rewrite (D4 eq_refl), Hmr|by rewrite (D5 eq_refl)]]. split; [done|]. split; [|done]. eapply ev_beside; [done| |done]. unfold self; lia.
  Qed.
End Ops.
