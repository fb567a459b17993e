(** Proofs for C129 and C130. *)
From Verif.Lib Require Import Py.
From Verif.Model Require Import Aliasing.
From Verif.Spec Require Import AliasingSpec.
From Coq Require Import Lia.
From stdpp Require Import list_numbers.
Local Open Scope nat_scope.

Section P.
  Context {A V : Type} `{EqDecision A}.
  Variable text_of : V -> A.
  Variable body : nat -> V -> V * option V.
  Variable nportals : nat.
  Notation state := (state (A := A) (V := V)).
  Notation op := (op (V := V)).
  Notation answer := (answer body).
  Notation get := (get nportals).
  Notation ready := (ready text_of nportals).
  Notation readdress := (readdress nportals).
  Notation pack := (pack text_of nportals).
  Notation execute := (execute text_of body nportals).
  Notation call := (call text_of body nportals).
  Notation run := (run text_of body nportals).
  Notation get_address := (get_address text_of nportals).
  Notation get_result := (get_result text_of nportals).
  Notation step := (step text_of body nportals).
  Notation steps := (steps text_of body nportals).
  Implicit Types (s : state) (h : list op).

  Record inv (s : state) : Prop := Inv {
    i_store : forall p t v, stores s p t = Some v -> text_of v = t;
    i_res : forall p f t rt, results s p (f, t) = Some rt ->
      exists v, text_of v = t /\ rt = text_of (answer f v) /\ exists w, stores s p rt = Some w;
    i_va : forall i a o, vaddrs s !! i = Some a -> va_value a = Some o -> o < length (heap s);
    i_ra : forall i a o, raddrs s !! i = Some a -> ra_result a = Some o -> o < length (heap s);
    i_vt : forall i a, vaddrs s !! i = Some a -> exists v, text_of v = va_text a;
    i_rt : forall i a, raddrs s !! i = Some a -> exists v, text_of v = ra_arg a
  }.
  Definition grows s s' : Prop :=
    (forall p t v, stores s p t = Some v -> stores s' p t = Some v) /\
    (forall p k t, results s p k = Some t -> results s' p k = Some t) /\ length (heap s) <= length (heap s').
  Lemma grows_refl s : grows s s. Proof. repeat split; auto. Qed.
  Lemma grows_trans s1 s2 s3 : grows s1 s2 -> grows s2 s3 -> grows s1 s3.
  Proof. intros (a & b & c) (a' & b' & c'). repeat split; auto. lia. Qed.
  Definition adds s s' : Prop := objects_unchanged s s'.
  Lemma adds_refl s : adds s s. Proof. exists []. by rewrite app_nil_r. Qed.
  Lemma adds_trans s1 s2 s3 : adds s1 s2 -> adds s2 s3 -> adds s1 s3.
  Proof. intros [l E] [l' E']. exists (l ++ l'). by rewrite E', E, app_assoc. Qed.
  Lemma adds_lookup s s' o v : adds s s' -> heap s !! o = Some v -> heap s' !! o = Some v.
  Proof. intros [l ->] H. by apply lookup_app_l_Some. Qed.

  (** *** writing to stores *)
  Lemma put_heap p t v s : heap (put p t v s) = heap s. Proof. unfold put. by destruct (stores s p t). Qed.
  Lemma put_res p t v s : results (put p t v s) = results s. Proof. unfold put. by destruct (stores s p t). Qed.
  Lemma put_va p t v s : vaddrs (put p t v s) = vaddrs s. Proof. unfold put. by destruct (stores s p t). Qed.
  Lemma put_ra p t v s : raddrs (put p t v s) = raddrs s. Proof. unfold put. by destruct (stores s p t). Qed.
  Lemma put_stores p t v s q u : stores (put p t v s) q u =
    if decide (q = p /\ u = t) then Some (match stores s p t with Some w => w | None => v end) else stores s q u.
  Proof.
    unfold put. destruct (stores s p t) as [w|] eqn:E; cbn [stores]; [|done]. case_decide as D; [|done]. by destruct D as [-> ->].
  Qed.
  Lemma put_grows p t v s : grows s (put p t v s).
  Proof.
    split; [|split].
    - intros q u w Hw. rewrite put_stores. case_decide as D; [|done]. destruct D as [-> ->]. by rewrite Hw.
    - intros. by rewrite put_res.
    - by rewrite put_heap.
  Qed.
  Lemma put_adds p t v s : adds s (put p t v s).
  Proof. exists []. by rewrite put_heap, app_nil_r. Qed.
  Lemma put_inv p t v s : inv s -> text_of v = t -> inv (put p t v s).
  Proof.
    intros [H1 H2 H3 H4 H5 H6] Ht. constructor.
    - intros q u w. rewrite put_stores. case_decide as D; [|by apply H1]. destruct D as [-> ->].
      destruct (stores s p t) as [x|] eqn:E; intros [= <-]; [by eapply H1|done].
    - intros q f u rt. rewrite put_res. intros R. destruct (H2 _ _ _ _ R) as (x & E1 & E2 & w & E3). exists x. split; [done|]. split; [done|].
      exists w. by apply (put_grows p t v s).
    - intros i a o. rewrite put_va, put_heap. apply H3.
    - intros i a o. rewrite put_ra, put_heap. apply H4.
    - intros i a. rewrite put_va. apply H5.
    - intros i a. rewrite put_ra. apply H6.
  Qed.
  Lemma put_present p t v s : exists w, stores (put p t v s) p t = Some w.
  Proof. rewrite put_stores, decide_True by done. eauto. Qed.

  Lemma pr_grows p k t s : grows s (put_result p k t s).
  Proof.
    unfold put_result. destruct (results s p k) as [x|] eqn:E; [apply grows_refl|]. split; [|split]; cbn; auto.
    intros q l w Hw. case_decide as D; [|done]. destruct D as [-> ->]. congruence.
  Qed.
  Lemma pr_heap p k t s : heap (put_result p k t s) = heap s. Proof. unfold put_result. by destruct (results s p k). Qed.
  Lemma pr_va p k t s : vaddrs (put_result p k t s) = vaddrs s. Proof. unfold put_result. by destruct (results s p k). Qed.
  Lemma pr_ra p k t s : raddrs (put_result p k t s) = raddrs s. Proof. unfold put_result. by destruct (results s p k). Qed.
  Lemma pr_stores p k t s : stores (put_result p k t s) = stores s. Proof. unfold put_result. by destruct (results s p k). Qed.
  Lemma pr_res p k t s : exists t', results (put_result p k t s) p k = Some t'.
  Proof. unfold put_result. destruct (results s p k) eqn:E; cbn; [eauto|]. rewrite decide_True by done. eauto. Qed.
  Lemma pr_adds p k t s : adds s (put_result p k t s). Proof. exists []. by rewrite pr_heap, app_nil_r. Qed.
  Lemma pr_inv p f t v w s : inv s -> text_of v = t -> stores s p (text_of (answer f v)) = Some w ->
    inv (put_result p (f, t) (text_of (answer f v)) s).
  Proof.
    intros [H1 H2 H3 H4 H5 H6] Hv Hw. unfold put_result. destruct (results s p (f, t)) eqn:E; [by constructor|]. constructor; cbn; auto.
    intros q g u rt. case_decide as D; [|by apply H2]. destruct D as [-> [= -> ->]]. intros [= <-]. eauto.
  Qed.

  (** *** objects and addresses *)
  Lemma load_inv v s : inv s -> inv (fst (load v s)).
  Proof.
    intros [H1 H2 H3 H4 H5 H6]. constructor; cbn; auto; intros i a o Ha Ho; rewrite app_length; cbn.
    - specialize (H3 i a o Ha Ho). lia.
    - specialize (H4 i a o Ha Ho). lia.
  Qed.
  Lemma load_adds v s : adds s (fst (load v s)). Proof. by exists [v]. Qed.
  Lemma load_grows v s : grows s (fst (load v s)).
  Proof. repeat split; auto. cbn. rewrite app_length. cbn. lia. Qed.
  Lemma set_obj_inv o v s : inv s -> inv (set_obj o v s).
  Proof. intros [H1 H2 H3 H4 H5 H6]. constructor; cbn; auto; intros; rewrite insert_length; eauto. Qed.
  Lemma set_obj_grows o v s : grows s (set_obj o v s).
  Proof. repeat split; auto. cbn. by rewrite insert_length. Qed.
  Lemma add_va_inv a s : inv s -> (exists v, text_of v = va_text a) -> (forall o, va_value a = Some o -> o < length (heap s)) -> inv (fst (add_vaddr a s)).
  Proof.
    intros [H1 H2 H3 H4 H5 H6] Ht Ha. constructor; cbn; auto.
    - intros i b o Hb Ho. apply lookup_app_Some in Hb as [Hb|[_ Hb]]; [by eapply H3|]. apply list_lookup_singleton_Some in Hb as [_ <-]. auto.
    - intros i b Hb. apply lookup_app_Some in Hb as [Hb|[_ Hb]]; [eauto|]. apply list_lookup_singleton_Some in Hb as [_ <-]. auto.
  Qed.
  Lemma set_va_inv i a s : inv s -> (exists v, text_of v = va_text a) -> (forall o, va_value a = Some o -> o < length (heap s)) -> inv (set_vaddr i a s).
  Proof.
    intros [H1 H2 H3 H4 H5 H6] Ht Ha. constructor; cbn; auto.
    - intros j b o Hb Ho. apply list_lookup_insert_Some in Hb as [(-> & <- & _)|[_ Hb]]; [auto|by eapply H3].
    - intros j b Hb. apply list_lookup_insert_Some in Hb as [(-> & <- & _)|[_ Hb]]; eauto.
  Qed.
  Lemma set_ra_inv i a s : inv s -> (exists v, text_of v = ra_arg a) -> (forall o, ra_result a = Some o -> o < length (heap s)) -> inv (set_raddr i a s).
  Proof.
    intros [H1 H2 H3 H4 H5 H6] Ht Ha. constructor; cbn; auto.
    - intros j b o Hb Ho. apply list_lookup_insert_Some in Hb as [(-> & <- & _)|[_ Hb]]; [auto|by eapply H4].
    - intros j b Hb. apply list_lookup_insert_Some in Hb as [(-> & <- & _)|[_ Hb]]; eauto.
  Qed.
  Lemma add_ra_inv a s : inv s -> (exists v, text_of v = ra_arg a) -> ra_result a = None ->
    inv (State (heap s) (stores s) (results s) (vaddrs s) (raddrs s ++ [a])).
  Proof.
    intros [H1 H2 H3 H4 H5 H6] Ht Ha. constructor; cbn; auto.
    - intros i b o Hb Ho. apply lookup_app_Some in Hb as [Hb|[_ Hb]]; [by eapply H4|]. apply list_lookup_singleton_Some in Hb as [_ <-]. congruence.
    - intros i b Hb. apply lookup_app_Some in Hb as [Hb|[_ Hb]]; [eauto|]. apply list_lookup_singleton_Some in Hb as [_ <-]. auto.
  Qed.

  (** *** get *)
  Lemma get_spec i cur s s' r : inv s -> get i cur s = (s', r) ->
    inv s' /\ grows s s' /\ adds s s' /\ raddrs s' = raddrs s /\
    (forall j, option_map va_text (vaddrs s' !! j) = option_map va_text (vaddrs s !! j)) /\
    (forall o, r = Ok o -> exists a v, vaddrs s !! i = Some a /\ heap s' !! o = Some v /\
       match va_value a with
       | Some o' => o = o' /\ s' = s
       | None => o = length (heap s) /\ heap s' = heap s ++ [v] /\ text_of v = va_text a
       end).
  Proof.
    intros Hi. unfold Aliasing.get. destruct (vaddrs s !! i) as [a|] eqn:Ea.
    2: { intros [= <- <-]. split; [done|]. split; [apply grows_refl|]. split; [apply adds_refl|]. done. }
    destruct (va_value a) as [o|] eqn:Ev.
    { intros [= <- <-]. split; [done|]. split; [apply grows_refl|]. split; [apply adds_refl|]. split; [done|]. split; [done|].
      intros ? [= <-]. pose proof (i_va s Hi i a o Ea Ev) as Ho. apply lookup_lt_is_Some in Ho as [v Hv]. exists a, v. rewrite Ev. done. }
    assert (forall v p, text_of v = va_text a ->
      let s1 := fst (load v s) in let s2 := match p with Some p' => put p' (va_text a) v s1 | None => s1 end in
      let s3 := set_vaddr i (VAddr (va_text a) (va_portal a) (Some (length (heap s)))) s2 in
      inv s3 /\ grows s s3 /\ adds s s3 /\ raddrs s3 = raddrs s /\
      (forall j, option_map va_text (vaddrs s3 !! j) = option_map va_text (vaddrs s !! j)) /\
      (forall o, @Ok nat (length (heap s)) = Ok o -> exists b w, Some a = Some b /\ heap s3 !! o = Some w /\
       match va_value b with
       | Some o' => o = o' /\ s3 = s
       | None => o = length (heap s) /\ heap s3 = heap s ++ [w] /\ text_of w = va_text b
       end)) as G.
    { intros v p Hv s1 s2 s3. assert (heap s2 = heap s ++ [v]) as Hh by (unfold s2; destruct p; [by rewrite put_heap|done]).
      assert (vaddrs s2 = vaddrs s) as Hva by (unfold s2; destruct p; [by rewrite put_va|done]).
      assert (raddrs s2 = raddrs s) as Hra by (unfold s2; destruct p; [by rewrite put_ra|done]).
      split; [|split; [|split; [|split; [|split]]]].
      - apply set_va_inv.
        + unfold s2. destruct p; [apply put_inv; [by apply load_inv|done]|by apply load_inv].
        + by exists v.
        + cbn. intros o [= <-]. rewrite Hh, app_length. cbn. lia.
      - assert (grows s s2) as Gr.
        { unfold s2. destruct p as [q|]; [eapply grows_trans; [apply load_grows|apply put_grows]|apply load_grows]. }
        destruct Gr as (? & ? & ?). repeat split; auto.
      - exists [v]. done.
      - done.
      - intros j. unfold s3. cbn. rewrite Hva. destruct (decide (j = i)) as [->|Hne].
        + rewrite list_lookup_insert by (by eapply lookup_lt_Some). by rewrite Ea.
        + by rewrite list_lookup_insert_ne by done.
      - intros o [= <-]. exists a, v. split; [done|]. rewrite Ev. unfold s3. cbn. rewrite Hh. split; [by apply list_lookup_middle|]. done. }
    destruct (stores s (va_portal a) (va_text a)) as [v|] eqn:Es.
    - cbn. intros [= <- <-]. apply (G v None). by eapply i_store.
    - destruct (list_find _ _) as [[? q]|].
      + destruct (stores s q (va_text a)) as [v|] eqn:Eq; cbn; intros [= <- <-].
        * apply (G v (Some (va_portal a))). by eapply i_store.
        * split; [done|]. split; [apply grows_refl|]. split; [apply adds_refl|]. done.
      + intros [= <- <-]. split; [done|]. split; [apply grows_refl|]. split; [apply adds_refl|]. done.
  Qed.

  (** *** packing an argument *)
  Notation pristine := (pristine text_of).
  Definition careful_arg s (x : arg) (p : nat) : Prop :=
    match x with Addr i => forall a, vaddrs s !! i = Some a -> va_portal a <> p -> pristine s i | Obj _ => True end.
  Notation stands_for := (stands_for text_of).
  Lemma add_va_spec a s : inv s -> (exists v, text_of v = va_text a) -> (forall o, va_value a = Some o -> o < length (heap s)) ->
    let s' := fst (add_vaddr a s) in inv s' /\ grows s s' /\ adds s s' /\ vaddrs s' !! length (vaddrs s) = Some a.
  Proof.
    intros Hi Ht Ha s'. split; [by apply add_va_inv|]. split; [by repeat split; auto|]. split; [exists []; cbn; by rewrite app_nil_r|].
    cbn. by apply list_lookup_middle.
  Qed.
  Lemma store_spec o p s s' r : inv s -> store text_of o p s = (s', r) ->
    inv s' /\ grows s s' /\ heap s' = heap s /\ raddrs s' = raddrs s /\
    (forall v, heap s !! o = Some v -> r = Ok (length (vaddrs s)) /\ vaddrs s' = vaddrs s ++ [VAddr (text_of v) p (Some o)] /\
       exists w, stores s' p (text_of v) = Some w) /\
    (heap s !! o = None -> s' = s /\ exists e, r = Err e).
  Proof.
    intros Hi. unfold store. destruct (heap s !! o) as [v|] eqn:E.
    - cbn. intros [= <- <-]. destruct (add_va_spec (VAddr (text_of v) p (Some o)) s Hi) as (I & G & Ad & L).
      { by exists v. }
      { cbn. intros ? [= <-]. by eapply lookup_lt_Some. }
      cbn [fst add_vaddr] in *. split; [by apply put_inv|]. split; [eapply grows_trans; [exact G|apply put_grows]|].
      split; [by rewrite put_heap|]. split; [by rewrite put_ra|]. split; [|done]. intros ? [= <-]. split; [done|]. split; [by rewrite put_va|apply put_present].
    - intros [= <- <-]. split; [done|]. split; [apply grows_refl|]. split; [done|]. split; [done|]. split; [done|eauto].
  Qed.
  Lemma texts_length (l l' : list (vaddr (A := A))) : (forall j, option_map va_text (l' !! j) = option_map va_text (l !! j)) -> length l' = length l.
  Proof.
    intros T. assert (forall k, k < length l' <-> k < length l) as X; [|].
    - intros k. rewrite <- !lookup_lt_is_Some. specialize (T k). destruct (l !! k), (l' !! k); cbn in T; try done; split; eauto; intros [? [=]].
    - destruct (lt_eq_lt_dec (length l) (length l')) as [[D|D]|D]; [|done|].
      + specialize (X (length l)). lia.
      + specialize (X (length l')). lia.
  Qed.
  Lemma readdress_spec i p s s' r : inv s -> careful_arg s (Addr i) p -> readdress i p s = (s', r) ->
    inv s' /\ grows s s' /\ adds s s' /\ raddrs s' = raddrs s /\
    (forall j, r = Ok j -> exists a, vaddrs s !! i = Some a /\ vaddrs s' !! j = Some (VAddr (va_text a) p None)) /\
    (forall a, vaddrs s !! i = Some a -> va_portal a = p -> r = Ok (length (vaddrs s)) /\ vaddrs s' = vaddrs s ++ [VAddr (va_text a) p None] /\
        stores s' = stores s /\ results s' = results s /\ heap s' = heap s).
  Proof.
    intros Hi Hc. unfold Aliasing.readdress. destruct (vaddrs s !! i) as [a|] eqn:Ea.
    2: { intros [= <- <-]. split; [done|]. split; [apply grows_refl|]. split; [apply adds_refl|]. done. }
    assert (forall s0, inv s0 -> let s1 := fst (add_vaddr (VAddr (va_text a) p None) s0) in inv s1 /\ grows s0 s1 /\ adds s0 s1 /\
       raddrs s1 = raddrs s0 /\ vaddrs s1 !! length (vaddrs s0) = Some (VAddr (va_text a) p None)) as B.
    { intros s0 H0. destruct (add_va_spec (VAddr (va_text a) p None) s0 H0) as (? & ? & ? & ?); [exact (i_vt s Hi i a Ea)|done|]. done. }
    case_decide as D.
    - destruct D as [D1 D2]. destruct (get i (Some p) s) as [s1 g] eqn:Eg. destruct (get_spec _ _ _ _ _ Hi Eg) as (I1 & G1 & A1 & R1 & T1 & O1).
      destruct g as [o|e].
      + destruct (O1 o eq_refl) as (b & v & Eb & Ho & Hm). assert (b = a) as -> by congruence. rewrite Ho. cbn. intros [= <- <-].
        destruct (B s1 I1) as (I2 & G2 & A2 & R2 & L2). cbn [fst add_vaddr] in *.
        assert (text_of v = va_text a) as Hv.
        { destruct (va_value a) as [o'|] eqn:Ev; [|tauto]. destruct Hm as [-> ->].
          specialize (Hc a Ea ltac:(done)). destruct (Hc a o' Ea Ev) as (w & Hw & Tw). congruence. }
        split; [by apply put_inv|]. split; [eapply grows_trans; [exact G1|eapply grows_trans; [exact G2|apply put_grows]]|].
        split; [eapply adds_trans; [exact A1|eapply adds_trans; [exact A2|apply put_adds]]|]. split; [by rewrite put_ra|].
        split; [|intros ? [= <-] ?; congruence]. intros j [= <-]. exists a. split; [done|]. by rewrite put_va.
      + intros [= <- <-]. split; [done|]. split; [done|]. split; [done|]. split; [done|]. split; [done|]. intros ? [= <-] ?; congruence.
    - cbn. intros [= <- <-]. destruct (B s Hi) as (I2 & G2 & A2 & R2 & L2). cbn [fst add_vaddr] in *.
      split; [done|]. split; [done|]. split; [done|]. split; [done|]. split; [|by intros ? [= <-] _].
      intros j [= <-]. exists a. done.
  Qed.
  Lemma pack_spec x p s s' r : inv s -> careful_arg s x p -> pack x p s = (s', r) ->
    inv s' /\ grows s s' /\ adds s s' /\ raddrs s' = raddrs s /\
    (forall i, r = Ok i -> exists a, vaddrs s' !! i = Some a /\ va_portal a = p /\ pristine s' i /\
       match x with
       | Obj o => va_value a = Some o /\ heap s' = heap s /\ exists v, heap s !! o = Some v /\ text_of v = va_text a
       | Addr j => va_value a = None /\ exists b, vaddrs s !! j = Some b /\ va_text a = va_text b
       end).
  Proof.
    intros Hi Hc. destruct x as [o|j]; cbn [Aliasing.pack].
    - intros E. destruct (store_spec _ _ _ _ _ Hi E) as (I & G & Hh & R & S1 & S2). split; [done|]. split; [done|].
      split; [exists []; by rewrite Hh, app_nil_r|]. split; [done|]. intros i ->. destruct (heap s !! o) as [v|] eqn:Eo.
      + destruct (S1 v eq_refl) as ([= ->] & Hva & _). eexists. rewrite Hva. split; [by apply list_lookup_middle|]. split; [done|]. split.
        * intros a o' Ha Ho'. rewrite Hva, list_lookup_middle in Ha by done. injection Ha as <-. injection Ho' as <-. exists v. by rewrite Hh.
        * split; [done|]. split; [done|]. by exists v.
      + destruct (S2 eq_refl) as [_ [? ?]]. done.
    - intros E. destruct (readdress_spec _ _ _ _ _ Hi Hc E) as (I & G & Ad & R & L & _). split; [done|]. split; [done|]. split; [done|]. split; [done|].
      intros i ->. destruct (L i eq_refl) as (a & Ha & Hl). eexists. split; [exact Hl|]. split; [done|]. split; [|split; [done|]; eauto].
      intros b o Hb Ho. rewrite Hl in Hb. injection Hb as <-. done.
  Qed.

  (** *** results *)
  Hypothesis cf : collision_free text_of.
  Lemma ready_spec p f t s s' r : inv s -> ready p (f, t) s = (s', r) ->
    inv s' /\ grows s s' /\ heap s' = heap s /\ raddrs s' = raddrs s /\ vaddrs s' = vaddrs s /\ (exists b, r = Ok b) /\
    (r = Ok true -> exists t', results s' p (f, t) = Some t') /\ (r = Ok false -> s' = s /\ results s p (f, t) = None).
  Proof.
    intros Hi. unfold Aliasing.ready. destruct (results s p (f, t)) as [rt|] eqn:E.
    { intros [= <- <-]. split; [done|]. split; [apply grows_refl|]. split; [done|]. split; [done|]. split; [done|]. split; [eauto|]. split; [eauto|done]. }
    destruct (list_find _ _) as [[? q]|] eqn:L.
    - apply list_find_Some in L as (_ & [rt Hr] & _). rewrite Hr. destruct (i_res s Hi _ _ _ _ Hr) as (v & Hv & -> & w & Hw). rewrite Hw.
      intros [= <- <-]. pose proof (i_store s Hi _ _ _ Hw) as Tw. assert (w = answer f v) as -> by by apply cf.
      split; [|split; [|split; [|split; [|split; [|split; [eauto|split; [|done]]]]]]].
      + destruct (put_present p (text_of (answer f v)) (answer f v) s) as [u Hu]. eapply pr_inv; [by apply put_inv|done|exact Hu].
      + eapply grows_trans; [apply put_grows|apply pr_grows].
      + by rewrite pr_heap, put_heap.
      + by rewrite pr_ra, put_ra.
      + by rewrite pr_va, put_va.
      + intros _. apply pr_res.
    - intros [= <- <-]. split; [done|]. split; [apply grows_refl|]. split; [done|]. split; [done|]. split; [done|]. split; [eauto|]. done.
  Qed.
  Lemma load_result_spec p f v s t' : inv s -> results s p (f, text_of v) = Some t' ->
    load_result p (f, text_of v) s = (fst (load (answer f v) s), Ok (length (heap s))).
  Proof.
    intros Hi Hr. unfold load_result. rewrite Hr. destruct (i_res s Hi _ _ _ _ Hr) as (x & Hx & -> & w & Hw). rewrite Hw.
    pose proof (i_store s Hi _ _ _ Hw) as Tw. assert (w = answer f v) as -> by (apply cf; apply cf in Hx as ->; done). done.
  Qed.
  (** the contents of argument object after a call that is really executed; of an object that did not exist before otherwise *)
  Lemma execute_spec f i p s s' r a v : inv s -> vaddrs s !! i = Some a -> pristine s i -> text_of v = va_text a ->
    execute f i p s = (s', r) ->
    inv s' /\ grows s s' /\ raddrs s' = raddrs s /\
    (forall o, r = Ok o -> heap s' !! o = Some (answer f v)) /\
    (va_value a = None -> adds s s') /\
    (forall o, va_value a = Some o -> (exists o', r = Ok o') /\
       (results s p (f, text_of v) = None -> (forall q, q < nportals -> results s q (f, text_of v) = None) -> exists l, heap s' = <[o := fst (body f v)]> (heap s) ++ l) /\
       ((exists q t', (q = p \/ q < nportals) /\ results s q (f, text_of v) = Some t') -> heap s' = heap s ++ [answer f v] /\ r = Ok (length (heap s)))).
  Proof.
    intros Hi Ha Hp Hv. unfold Aliasing.execute. rewrite Ha. rewrite <- Hv.
    destruct (ready p (f, text_of v) s) as [s1 b] eqn:Er. destruct (ready_spec _ _ _ _ _ _ Hi Er) as (I1 & G1 & H1 & R1 & V1 & (b' & ->) & Bt & Bf).
    destruct b'.
    - destruct (Bt eq_refl) as [t' Ht']. rewrite (load_result_spec _ _ _ _ _ I1 Ht'). intros [= <- <-].
      split; [exact (load_inv (answer f v) s1 I1)|]. split; [eapply grows_trans; [exact G1|exact (load_grows (answer f v) s1)]|]. split; [exact R1|].
      split; [intros o [= <-]; cbn; by apply list_lookup_middle|]. split; [intros _; exists [answer f v]; cbn; by rewrite H1|].
      intros o Ho. split; [eauto|]. split; [|cbn; by rewrite H1].
      intros N1 N2. exfalso. unfold Aliasing.ready in Er. rewrite N1 in Er. destruct (list_find _ _) as [[? q]|] eqn:L; [|by injection Er].
      apply list_find_Some in L as (L1 & [t'' L2] & _). rewrite N2 in L2; [done|].
      apply elem_of_list_lookup_2 in L1. unfold noncurrent in L1. apply elem_of_list_filter in L1 as [_ L1]. apply elem_of_seq in L1. lia.
    - destruct (Bf eq_refl) as [-> Hn]. clear I1 G1 H1 R1 V1 Bt Bf.
      destruct (get i (Some p) s) as [s2 g] eqn:Eg. destruct (get_spec _ _ _ _ _ Hi Eg) as (I2 & G2 & A2 & R2 & T2 & O2).
      assert (forall q t', (q = p \/ q < nportals) -> results s q (f, text_of v) = Some t' -> False) as NR.
      { intros q t' Hq Hr. destruct Hq as [->|Hq]; [congruence|]. unfold Aliasing.ready in Er. rewrite Hn in Er.
        destruct (list_find _ _) as [[? q']|] eqn:L.
        - apply list_find_Some in L as (_ & [t'' L2] & _). rewrite L2 in Er. destruct (stores s q' t''); by injection Er.
        - assert (q <> p) as Hqp by congruence. rewrite list_find_None, Forall_forall in L. apply (L q); [|eauto].
          unfold noncurrent. apply elem_of_list_filter. split; [congruence|]. apply elem_of_seq. lia. }
      destruct g as [o|e].
      2: { intros [= <- <-]. split; [done|]. split; [done|]. split; [done|]. split; [done|]. split; [done|].
           intros o Ho. exfalso. unfold Aliasing.get in Eg. rewrite Ha, Ho in Eg. done. }
      destruct (O2 o eq_refl) as (a' & w & Ea' & Ho & Hm). assert (a' = a) as -> by congruence.
      assert (w = v) as ->.
      { apply cf. destruct (va_value a) as [o'|] eqn:Ev; [|destruct Hm as (_ & _ & Hm); congruence].
        destruct Hm as [-> ->]. destruct (Hp a o' Ha Ev) as (u & Hu & Tu). congruence. }
      rewrite Ho. destruct (body f v) as [v' answ] eqn:Eb.
      set (s3 := set_obj o v' s2). assert (inv s3) as I3 by by apply set_obj_inv.
      assert (o < length (heap s2)) as Hlt by by eapply lookup_lt_Some.
      assert (exists s4 r0 l, (match answ with None => (s3, o) | Some x => load x s3 end) = (s4, r0) /\ inv s4 /\ grows s3 s4 /\ raddrs s4 = raddrs s3 /\
                heap s4 = heap s3 ++ l /\ heap s4 !! r0 = Some (answer f v)) as (s4 & r0 & l & E4 & I4 & G4 & R4 & H4 & L4).
      { unfold AliasingSpec.answer. rewrite Eb. cbn [fst snd]. destruct answ as [x|].
        - eexists _, _, [x]. split; [reflexivity|]. split; [by apply (load_inv x)|]. split; [apply (load_grows x)|]. split; [done|]. split; [done|].
          cbn. by apply list_lookup_middle.
        - exists s3, o, []. split; [done|]. split; [done|]. split; [apply grows_refl|]. split; [done|]. split; [by rewrite app_nil_r|].
          cbn. by rewrite list_lookup_insert. }
      rewrite E4, L4. intros [= <- <-].
      destruct (put_present p (text_of (answer f v)) (answer f v) s4) as [u Hu].
      split; [eapply pr_inv; [by apply put_inv|done|exact Hu]|].
      split; [eapply grows_trans; [exact G2|]; eapply grows_trans; [apply (set_obj_grows o v')|]; eapply grows_trans; [exact G4|];
              eapply grows_trans; [apply put_grows|apply pr_grows]|].
      split; [by rewrite pr_ra, put_ra, R4; cbn|].
      split; [intros ? [= <-]; by rewrite pr_heap, put_heap|]. rewrite pr_heap, put_heap, H4. cbn [heap set_obj s3].
      split.
      + intros Hnone. rewrite Hnone in Hm. destruct Hm as (-> & Hh & _). exists (v' :: l). rewrite pr_heap, put_heap, H4. cbn.
        rewrite Hh. rewrite insert_app_r_alt, Nat.sub_diag by lia. cbn. by rewrite <- app_assoc.
      + intros o' Ho'. rewrite Ho' in Hm. destruct Hm as [-> ->]. split; [eauto|]. split.
        * intros _ _. exists l. by rewrite ?pr_heap, ?put_heap, ?H4.
        * intros (q & t' & Hq & Hr). exfalso. eapply NR; eauto.
  Qed.

  Notation no_result := (no_result text_of nportals).
  Notation some_result := (some_result text_of nportals).
  (** A packed argument can be executed: its contents. *)
  Lemma packed_contents x p s s1 i : inv s -> careful_arg s x p -> pack x p s = (s1, Ok i) ->
    exists v a, stands_for s x v /\ vaddrs s1 !! i = Some a /\ text_of v = va_text a.
  Proof.
    intros Hi Hc E. destruct (pack_spec _ _ _ _ _ Hi Hc E) as (I1 & _ & _ & _ & P). destruct (P i eq_refl) as (a & Ha & _ & _ & Hx).
    destruct x as [o|j].
    - destruct Hx as (_ & _ & v & Hv & Tv). exists v, a. done.
    - destruct Hx as (_ & b & Hb & Tb). destruct (i_vt s Hi j b Hb) as [v Tv]. exists v, a. split; [exists b; done|]. split; [done|congruence].
  Qed.
  Lemma stands_unique s x v w : stands_for s x v -> stands_for s x w -> v = w.
  Proof.
    destruct x; cbn; [congruence|]. intros (a & Ha & Ta) (b & Hb & Tb). apply cf. congruence.
  Qed.
  Lemma pack_obj_results o p s s1 r : pack (Obj o) p s = (s1, r) -> results s1 = results s.
  Proof.
    cbn. unfold store. destruct (heap s !! o); cbn; intros [= <- <-]; [by rewrite put_res|done].
  Qed.
  Lemma call_spec f x p s s' r : inv s -> careful_arg s x p -> call f x p s = (s', r) ->
    inv s' /\ grows s s' /\ raddrs s' = raddrs s /\
    (forall o, r = Ok o -> exists v, stands_for s x v /\ heap s' !! o = Some (answer f v)) /\
    (match x with Addr _ => adds s s' | Obj _ => True end) /\
    (forall o v, x = Obj o -> heap s !! o = Some v -> (exists o', r = Ok o') /\
       (no_result s f v p -> exists l, heap s' = <[o := fst (body f v)]> (heap s) ++ l) /\
       (some_result s f v p -> heap s' = heap s ++ [answer f v] /\ r = Ok (length (heap s)))).
  Proof.
    intros Hi Hc. unfold Aliasing.call. destruct (pack x p s) as [s1 [i|e]] eqn:Ep; destruct (pack_spec _ _ _ _ _ Hi Hc Ep) as (I1 & G1 & A1 & R1 & P1).
    - intros Ee. destruct (packed_contents _ _ _ _ _ Hi Hc Ep) as (v & a & Sv & Ha & Tv).
      destruct (P1 i eq_refl) as (a' & Ha' & _ & Pr & Hx). assert (a' = a) as -> by congruence.
      destruct (execute_spec _ _ _ _ _ _ _ _ I1 Ha Pr Tv Ee) as (I2 & G2 & R2 & O2 & N2 & S2).
      split; [done|]. split; [by eapply grows_trans|]. split; [congruence|]. split; [intros o Ho; exists v; eauto|]. split.
      + destruct x as [o|j]; [done|]. destruct Hx as (Hn & _). eapply adds_trans; [exact A1|by apply N2].
      + intros o w -> Hw. cbn in Sv. assert (w = v) as -> by congruence. destruct Hx as (Hv & Hh & _).
        destruct (S2 o Hv) as (K1 & K2 & K3). rewrite (pack_obj_results _ _ _ _ _ Ep), Hh in K2. rewrite (pack_obj_results _ _ _ _ _ Ep), Hh in K3. split; [done|]. split.
        * intros N. apply K2; [apply N; by left|]. intros q Hq. apply N. by right.
        * intros (q & t & Hq & Hr). apply K3. eauto.
    - intros [= <- <-]. split; [done|]. split; [done|]. split; [done|]. split; [done|]. split; [by destruct x|].
      intros o v -> Hv. exfalso. cbn in Ep. unfold store in Ep. rewrite Hv in Ep. done.
  Qed.
  Lemma get_address_spec f x p s s' r : inv s -> careful_arg s x p -> get_address f x p s = (s', r) ->
    inv s' /\ grows s s' /\ adds s s' /\
    (forall j, r = Ok j -> exists v, stands_for s x v /\ raddrs s' = raddrs s ++ [RAddr f (text_of v) p None] /\ j = length (raddrs s)).
  Proof.
    intros Hi Hc. unfold Aliasing.get_address. destruct (pack x p s) as [s1 [i|e]] eqn:Ep; destruct (pack_spec _ _ _ _ _ Hi Hc Ep) as (I1 & G1 & A1 & R1 & P1).
    - destruct (packed_contents _ _ _ _ _ Hi Hc Ep) as (v & a & Sv & Ha & Tv). rewrite Ha. intros [= <- <-].
      split; [apply add_ra_inv; [done| |done]; exists v; done|]. split; [exact G1|]. split; [exact A1|]. intros j [= <-]. exists v. cbn. rewrite Tv, R1. done.
    - intros [= <- <-]. done.
  Qed.
  Lemma run_spec f x p s s' r : inv s -> careful_arg s x p -> run f x p s = (s', r) ->
    inv s' /\ grows s s' /\ adds s s' /\
    (forall j, r = Ok j -> exists v o, stands_for s x v /\ raddrs s' = raddrs s ++ [RAddr f (text_of v) p (Some o)] /\ j = length (raddrs s) /\
        heap s' !! o = Some (answer f v)).
  Proof.
    intros Hi Hc. unfold Aliasing.run. destruct (pack x p s) as [s1 [i|e]] eqn:Ep; destruct (pack_spec _ _ _ _ _ Hi Hc Ep) as (I1 & G1 & A1 & R1 & P1).
    - destruct (packed_contents _ _ _ _ _ Hi Hc Ep) as (v & a & Sv & Ha & Tv). rewrite Ha. set (s2 := State _ _ _ _ _).
      assert (inv s2) as I2 by (apply add_ra_inv; [done| |done]; exists v; done).
      destruct (P1 i eq_refl) as (a' & Ha' & Hp & Pr & _). assert (a' = a) as -> by congruence.
      assert (careful_arg s2 (Addr i) p) as C2 by (intros b Hb; cbn in Hb; congruence).
      destruct (call f (Addr i) p s2) as [s3 [o|e]] eqn:Ec; destruct (call_spec _ _ _ _ _ _ I2 C2 Ec) as (I3 & G3 & R3 & O3 & A3 & _).
      + destruct (O3 o eq_refl) as (w & (b & Hb & Tb) & Ho). cbn in Hb. assert (b = a) as -> by congruence.
        assert (w = v) as -> by (apply cf; congruence).
        intros [= <- <-]. split; [|split; [|split]].
        * apply set_ra_inv; [done|by exists v|]. cbn. intros ? [= <-]. by eapply lookup_lt_Some.
        * eapply grows_trans; [exact G1|]. destruct G3 as (? & ? & ?). repeat split; auto.
        * eapply adds_trans; [exact A1|exact A3].
        * intros j [= <-]. exists v, o. split; [done|]. split; [|split; [by rewrite R1|done]]. cbn. rewrite R3. cbn. rewrite R1, Tv.
          rewrite insert_app_r_alt, Nat.sub_diag by lia. done.
      + intros [= <- <-]. split; [done|]. split; [eapply grows_trans; [exact G1|exact G3]|]. split; [eapply adds_trans; [exact A1|exact A3]|]. done.
    - intros [= <- <-]. split; [done|]. split; [done|]. split; [done|]. done.
  Qed.
  Lemma get_result_spec j s s' r : inv s -> get_result j s = (s', r) ->
    inv s' /\ grows s s' /\ adds s s' /\
    (forall o, r = Ok o -> exists a v, raddrs s !! j = Some a /\ text_of v = ra_arg a /\
       match ra_result a with
       | Some o' => o = o' /\ s' = s
       | None => o = length (heap s) /\ heap s' = heap s ++ [answer (ra_fn a) v]
       end).
  Proof.
    intros Hi. unfold Aliasing.get_result. destruct (raddrs s !! j) as [a|] eqn:Ea.
    2: { intros [= <- <-]. split; [done|]. split; [apply grows_refl|]. split; [apply adds_refl|]. done. }
    destruct (i_rt s Hi j a Ea) as [v Tv]. destruct (ra_result a) as [o|] eqn:Eo.
    { intros [= <- <-]. split; [done|]. split; [apply grows_refl|]. split; [apply adds_refl|]. intros ? [= <-]. exists a, v. rewrite Eo. done. }
    rewrite <- Tv. destruct (ready (ra_portal a) (ra_fn a, text_of v) s) as [s1 b] eqn:Er.
    destruct (ready_spec _ _ _ _ _ _ Hi Er) as (I1 & G1 & H1 & R1 & V1 & (b' & ->) & Bt & Bf). destruct b'.
    - destruct (Bt eq_refl) as [t' Ht']. rewrite (load_result_spec _ _ _ _ _ I1 Ht'). cbn. intros [= <- <-].
      split; [|split; [|split]].
      + apply set_ra_inv; [exact (load_inv _ _ I1)|by exists v|]. cbn. intros ? [= <-]. rewrite app_length. cbn. lia.
      + eapply grows_trans; [exact G1|]. destruct (load_grows (answer (ra_fn a) v) s1) as (? & ? & ?). repeat split; auto.
      + exists [answer (ra_fn a) v]. cbn. by rewrite H1.
      + intros o [= <-]. exists a, v. rewrite Eo. cbn. rewrite H1. done.
    - intros [= <- <-]. split; [done|]. split; [done|]. split; [exists []; by rewrite H1, app_nil_r|]. done.
  Qed.

  (** *** whole programs *)
  Lemma step_careful s e : careful_step text_of s e -> match e with
    | Readdress i p => careful_arg s (Addr i) p | Call _ x p | GetAddress _ x p | Run _ x p => careful_arg s x p | _ => True end.
  Proof. destruct e; cbn; try done; destruct x; cbn; done. Qed.
  Lemma step_spec s e s' r : inv s -> careful_step text_of s e -> step s e = (s', r) -> inv s' /\ grows s s'.
  Proof.
    intros Hi Hc. apply step_careful in Hc. destruct e; cbn [Aliasing.step].
    - cbn. intros [= <- <-]. split; [exact (load_inv v s Hi)|exact (load_grows v s)].
    - intros [= <- <-]. split; [by apply set_obj_inv|apply set_obj_grows].
    - intros E. destruct (store_spec _ _ _ _ _ Hi E) as (? & ? & _). done.
    - intros E. destruct (readdress_spec _ _ _ _ _ Hi Hc E) as (? & ? & _). done.
    - unfold restore. destruct (vaddrs s !! i) as [a|] eqn:Ea; cbn; intros [= <- <-]; [|split; [done|apply grows_refl]].
      destruct (add_va_spec (VAddr (va_text a) p None) s Hi) as (? & ? & _); [exact (i_vt s Hi i a Ea)|done|]. done.
    - unfold forget. intros [= <- <-]. destruct (vaddrs s !! i) as [a|] eqn:Ea; [|split; [done|apply grows_refl]].
      split; [apply set_va_inv; [done|exact (i_vt s Hi i a Ea)|done]|by repeat split; auto].
    - intros E. destruct (get_spec _ _ _ _ _ Hi E) as (? & ? & _). done.
    - intros E. destruct (call_spec _ _ _ _ _ _ Hi Hc E) as (? & ? & _). done.
    - intros E. destruct (get_address_spec _ _ _ _ _ _ Hi Hc E) as (? & ? & _). done.
    - intros E. destruct (run_spec _ _ _ _ _ _ Hi Hc E) as (? & ? & _). done.
    - intros E. destruct (get_result_spec _ _ _ _ Hi E) as (? & ? & _). done.
  Qed.
  Lemma steps_spec s h : inv s -> careful text_of body nportals s h -> inv (steps s h) /\ grows s (steps s h).
  Proof.
    revert s. induction h as [|e h IH]; intros s Hi; [intros _; split; [done|apply grows_refl]|]. cbn [careful]. intros [Hc Hh].
    destruct (step s e) as [s1 r] eqn:E. destruct (step_spec _ _ _ _ Hi Hc E) as [I1 G1]. cbn [fst] in Hh.
    assert (steps s (e :: h) = steps s1 h) as -> by (unfold Aliasing.steps; cbn [fold_left]; by rewrite E).
    destruct (IH s1 I1 Hh) as [I2 G2]. split; [done|]. by eapply grows_trans.
  Qed.
  Lemma inv_start : inv start.
  Proof. constructor; cbn; try done. Qed.
  Lemma reachable_inv s : reachable text_of body nportals s -> inv s.
  Proof. intros (h & Hc & ->). apply steps_spec; [apply inv_start|done]. Qed.

  (** *** stores never change, whatever the program does *)
  Definition keeps s s' : Prop :=
    (forall p t v, stores s p t = Some v -> stores s' p t = Some v) /\ (forall p k t, results s p k = Some t -> results s' p k = Some t).
  Lemma keeps_refl s : keeps s s. Proof. by split. Qed.
  Lemma keeps_trans s1 s2 s3 : keeps s1 s2 -> keeps s2 s3 -> keeps s1 s3.
  Proof. intros [a b] [c d]. split; auto. Qed.
  Lemma put_keeps p t v s : keeps s (put p t v s).
  Proof. destruct (put_grows p t v s) as (? & ? & _). by split. Qed.
  Lemma pr_keeps p k t s : keeps s (put_result p k t s).
  Proof. destruct (pr_grows p k t s) as (? & ? & _). by split. Qed.
  Lemma load_keeps v s : keeps s (fst (load v s)). Proof. by split. Qed.
  Lemma keeps_of s1 s2 s3 : keeps s1 s2 -> stores s3 = stores s2 -> results s3 = results s2 -> keeps s1 s3.
  Proof. intros [a b] E1 E2. split; [intros ? ? ?; rewrite E1; auto|intros ? ? ?; rewrite E2; auto]. Qed.
  Lemma get_keeps i cur s s' r : get i cur s = (s', r) -> keeps s s'.
  Proof.
    unfold Aliasing.get. destruct (vaddrs s !! i) as [a|]; [|intros [= <- <-]; apply keeps_refl].
    destruct (va_value a); [intros [= <- <-]; apply keeps_refl|]. destruct (stores s (va_portal a) (va_text a)) as [v|].
    - cbn. intros [= <- <-]. by split.
    - destruct (list_find _ _) as [[? q]|]; [|intros [= <- <-]; apply keeps_refl]. destruct (stores s q (va_text a)) as [v|]; [|intros [= <- <-]; apply keeps_refl].
      cbn. intros [= <- <-]. eapply keeps_of; [exact (put_keeps (va_portal a) (va_text a) v (fst (load v s)))|done|done].
  Qed.
  Lemma store_keeps o p s s' r : store text_of o p s = (s', r) -> keeps s s'.
  Proof.
    unfold store. destruct (heap s !! o) as [v|]; cbn; intros [= <- <-]; [|apply keeps_refl].
    eapply keeps_trans; [|apply put_keeps]. by split.
  Qed.
  Lemma readdress_keeps i p s s' r : readdress i p s = (s', r) -> keeps s s'.
  Proof.
    unfold Aliasing.readdress. destruct (vaddrs s !! i) as [a|]; [|intros [= <- <-]; apply keeps_refl]. case_decide.
    - destruct (get i (Some p) s) as [s1 [o|e]] eqn:E; apply get_keeps in E; [|by intros [= <- <-]].
      destruct (heap s1 !! o) as [v|]; cbn; intros [= <- <-]; [|done]. eapply keeps_trans; [exact E|].
      eapply keeps_trans; [|apply put_keeps]. by split.
    - cbn. intros [= <- <-]. by split.
  Qed.
  Lemma pack_keeps x p s s' r : pack x p s = (s', r) -> keeps s s'.
  Proof. destruct x; cbn; [apply store_keeps|apply readdress_keeps]. Qed.
  Lemma ready_keeps p k s s' r : ready p k s = (s', r) -> keeps s s'.
  Proof.
    unfold Aliasing.ready. destruct (results s p k); [intros [= <- <-]; apply keeps_refl|].
    destruct (list_find _ _) as [[? q]|]; [|intros [= <- <-]; apply keeps_refl]. destruct (results s q k) as [t|]; [|intros [= <- <-]; apply keeps_refl].
    destruct (stores s q t) as [v|]; intros [= <- <-]; [|apply keeps_refl]. eapply keeps_trans; [apply put_keeps|apply pr_keeps].
  Qed.
  Lemma load_result_keeps p k s s' r : load_result p k s = (s', r) -> keeps s s'.
  Proof.
    unfold load_result. destruct (results s p k) as [t|]; [|intros [= <- <-]; apply keeps_refl].
    destruct (stores s p t) as [v|]; cbn; intros [= <- <-]; by split.
  Qed.
  Lemma execute_keeps f i p s s' r : execute f i p s = (s', r) -> keeps s s'.
  Proof.
    unfold Aliasing.execute. destruct (vaddrs s !! i) as [a|]; [|intros [= <- <-]; apply keeps_refl].
    destruct (ready p (f, va_text a) s) as [s1 [[]|e]] eqn:E1; apply ready_keeps in E1; [| |by intros [= <- <-]].
    - intros E. apply load_result_keeps in E. by eapply keeps_trans.
    - destruct (get i (Some p) s1) as [s2 [o|e]] eqn:E2; apply get_keeps in E2; [|intros [= <- <-]; by eapply keeps_trans].
      destruct (heap s2 !! o) as [v|]; [|intros [= <- <-]; by eapply keeps_trans]. destruct (body f v) as [v' answ].
      assert (forall x, keeps s (set_obj o x s2)) as K3 by (intros x; eapply keeps_of; [eapply keeps_trans; [exact E1|exact E2]|done|done]).
      destruct answ as [w|]; cbn [load].
      + match goal with |- context [State ?a ?b ?c ?d ?e] => set (s4 := State a b c d e) end. assert (keeps s s4) as K4 by by eapply keeps_of; [apply (K3 v')| |].
        destruct (heap s4 !! _) as [u|]; intros [= <- <-]; [|done]. eapply keeps_trans; [exact K4|]. eapply keeps_trans; [apply put_keeps|apply pr_keeps].
      + destruct (heap _ !! o) as [u|]; intros [= <- <-]; [|done]. eapply keeps_trans; [apply K3|]. eapply keeps_trans; [apply put_keeps|apply pr_keeps].
  Qed.
  Lemma call_keeps f x p s s' r : call f x p s = (s', r) -> keeps s s'.
  Proof.
    unfold Aliasing.call. destruct (pack x p s) as [s1 [i|e]] eqn:E; apply pack_keeps in E; [|by intros [= <- <-]].
    intros E2. apply execute_keeps in E2. by eapply keeps_trans.
  Qed.
  Lemma step_keeps s e s' r : step s e = (s', r) -> keeps s s'.
  Proof.
    destruct e; cbn [Aliasing.step].
    - cbn. intros [= <- <-]. by split.
    - intros [= <- <-]. by split.
    - apply store_keeps.
    - apply readdress_keeps.
    - unfold restore. destruct (vaddrs s !! i); cbn; intros [= <- <-]; by split.
    - unfold forget. destruct (vaddrs s !! i); cbn; intros [= <- <-]; by split.
    - apply get_keeps.
    - apply call_keeps.
    - unfold Aliasing.get_address. destruct (pack x p s) as [s1 [i|e]] eqn:E; apply pack_keeps in E; [|by intros [= <- <-]].
      destruct (vaddrs s1 !! i); intros [= <- <-]; [by eapply keeps_of|done].
    - unfold Aliasing.run. destruct (pack x p s) as [s1 [i|e]] eqn:E; apply pack_keeps in E; [|by intros [= <- <-]].
      destruct (vaddrs s1 !! i) as [a|]; [|by intros [= <- <-]]. destruct (call _ _ _ _) as [s3 [o|e]] eqn:E3; apply call_keeps in E3; intros [= <- <-].
      + eapply keeps_of; [eapply keeps_trans; [|exact E3]|done|done]. by eapply keeps_of.
      + eapply keeps_trans; [|exact E3]. by eapply keeps_of.
    - unfold Aliasing.get_result. destruct (raddrs s !! r0) as [a|]; [|intros [= <- <-]; apply keeps_refl].
      destruct (ra_result a); [intros [= <- <-]; apply keeps_refl|].
      destruct (ready _ _ s) as [s1 [[]|e]] eqn:E1; apply ready_keeps in E1; [| |]; try (by intros [= <- <-]).
      destruct (load_result _ _ s1) as [s2 [o|e]] eqn:E2; apply load_result_keeps in E2; intros [= <- <-]; [|by eapply keeps_trans].
      eapply keeps_of; [eapply keeps_trans; [exact E1|exact E2]|done|done].
  Qed.
  Lemma steps_keeps s h : keeps s (steps s h).
  Proof.
    revert s. induction h as [|e h IH]; intros s; [apply keeps_refl|]. destruct (step s e) as [s1 r] eqn:E.
    assert (steps s (e :: h) = steps s1 h) as -> by (unfold Aliasing.steps; cbn [fold_left]; by rewrite E).
    eapply keeps_trans; [by eapply step_keeps|apply IH].
  Qed.
End P.
