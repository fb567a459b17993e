(** More about value addresses: which flags and cached values can be relied on. *)
From Verif.Lib Require Import Py DictLemmas.
From Verif.Model Require Import ValueAddr.
From Verif.Spec Require Import ValueAddrSpec.
From Verif.Proofs Require Import ValueAddrP.
From stdpp Require Import sets.

Section P.
  Context {A V : Type} `{EqDecision A} (text_of : V -> A).
  Notation world := (world A V).
  Notation vaddr := (vaddr A V).
  Implicit Types (w : world) (o : vaddr) (d : dict A V) (P : nat -> Prop).
  (** a cached value, and, outside P, a flag, mean that the address's own portal holds the value *)
  Definition relied P i o : Prop := (exists v, va_value o = Some v) \/ va_ready o = true /\ ~ P i.
  Definition backed w o : Prop := exists p v, va_portal o = Some p /\ holds w p (va_text o) v.
  Definition kept P w : Prop := forall i o, objs w !! i = Some o -> relied P i o -> backed w o.

  Lemma backed_grows w w' o : grows w w' -> backed w o -> backed w' o.
  Proof. intros Hg (p & v & ? & ?). exists p, v. split; [done|]. by eapply holds_grows. Qed.
  Lemma kept_mono P w w' : kept P w -> grows w w' -> objs w' = objs w -> kept P w'.
  Proof. intros Hf Hg E i o Ho Hr. rewrite E in Ho. eapply backed_grows; [done|]. by eapply Hf. Qed.
  Lemma kept_set P w i o o' : kept P w -> objs w !! i = Some o -> (relied P i o' -> backed w o') -> kept P (set_obj i o' w).
  Proof.
    intros Hf Ho Hr j oj Hj Hrj. cbn in Hj. destruct (decide (j = i)) as [->|Hn].
    - rewrite list_lookup_insert in Hj by (by eapply lookup_lt_Some). injection Hj as <-. by apply Hr.
    - rewrite list_lookup_insert_ne in Hj by done. by apply (Hf j).
  Qed.
  Lemma kept_add P w o : kept P w -> (relied P (length (objs w)) o -> backed w o) -> kept P (fst (add_obj o w)).
  Proof.
    intros Hf Hr j oj Hj Hrj. cbn in Hj. apply lookup_app_Some in Hj as [Hj|[Hl Hj]]; [by apply (Hf j)|].
    apply list_lookup_singleton_Some in Hj as [Hl' <-]. apply Hr. by replace (length (objs w)) with j by lia.
  Qed.
  Lemma kept_get P w i : inv text_of w -> kept P w -> kept P (fst (get i w)).
  Proof.
    intros Hi Hf. destruct (objs w !! i) as [o|] eqn:Ho; [|unfold get; by rewrite Ho].
    destruct (get i w) as [w' r] eqn:E. cbn. apply (get_cases text_of _ _ _ _ _ Ho) in E. inversion E; subst; try done.
    - eapply kept_set; [done|done|]. intros _. exists p, v. split; [done|]. split; [by apply (inv_obj text_of w Hi i o Ho)|done].
    - eapply kept_set; [|by rewrite put_objs|].
      + eapply kept_mono; [done|apply put_grows|by rewrite put_objs].
      + intros _. destruct (put_holds text_of p (va_text o) v w) as [v' Hv]; [by apply (inv_obj text_of w Hi i o Ho)|]. by exists p, v'.
  Qed.
  Lemma kept_ready P w i : inv text_of w -> kept P w -> kept P (fst (ready i w)).
  Proof.
    intros Hi Hf. destruct (objs w !! i) as [o|] eqn:Ho; [|unfold ready; by rewrite Ho].
    destruct (ready i w) as [w' r] eqn:E. cbn. apply (ready_cases text_of _ _ _ _ _ Ho) in E. inversion E; subst; try done.
    - eapply kept_set; [done|done|]. intros _. exists p, v. split; [done|]. split; [by apply (inv_obj text_of w Hi i o Ho)|done].
    - eapply kept_set; [|by rewrite put_objs|].
      + eapply kept_mono; [done|apply put_grows|by rewrite put_objs].
      + intros _. destruct (put_holds text_of p (va_text o) v w) as [v' Hv]; [by apply (inv_obj text_of w Hi i o Ho)|]. by exists p, v'.
  Qed.
  Lemma kept_strings P a b sg w : inv text_of w -> opt_portal_exists w sg = true -> kept P w -> kept P (fst (from_strings a b sg w)).
  Proof.
    intros Hi He Hf. unfold from_strings. destruct (best sg w) as [w1 p] eqn:Eb.
    destruct (best_fine text_of _ _ _ _ Hi He Eb) as (Hfi & Hp & Hob & _).
    destruct (add_obj _ w1) as [w2 i] eqn:Ea.
    assert (kept P w2). { replace w2 with (fst (add_obj (VAddr a (Some p) false None) w1)) by (by rewrite Ea). apply kept_add; [eapply kept_mono; [done|apply Hfi|done]|]. intros [[? ?]|[? _]]; done. }
    assert (Hf2 : fine text_of w1 w2). { replace w2 with (fst (add_obj (VAddr a (Some p) false None) w1)) by (by rewrite Ea). apply add_fine; [by eapply fine_inv|done|]. cbn. by intros ? [= <-]. }
    destruct b; [|done]. pose proof (kept_ready P w2 i (fine_inv _ _ _ Hf2)) as Hr.
    destruct (ready i w2) as [w3 [[]|e]]; cbn in *; auto.
  Qed.
  Lemma get_objs_length w i : length (objs (fst (get i w))) = length (objs w).
  Proof.
    destruct (objs w !! i) as [o|] eqn:Ho; [|unfold get; by rewrite Ho].
    destruct (get i w) as [w' r] eqn:E. cbn. apply (get_cases text_of _ _ _ _ _ Ho) in E. inversion E; subst; cbn; rewrite ?insert_length, ?put_objs; done.
  Qed.
  Lemma kept_step P w (e : op A V) : inv text_of w -> kept P w -> (forall j s, e = OAddr j s -> P (length (objs w))) -> kept P (step text_of w e).
  Proof.
    intros Hi Hf Hg. pose proof (step_fine text_of w e Hi) as Hfi. destruct e as [l|p| |v s|j s|a b s|i|i|i|i|i|l v]; cbn [step] in *.
    - by eapply kept_mono; [done|apply Hfi|].
    - destruct (portal_exists w p); [|done]. by eapply kept_mono; [done|apply Hfi|].
    - by eapply kept_mono; [done|apply Hfi|].
    - destruct (opt_portal_exists w s) eqn:E; [|done]. unfold new_of_value. destruct (best s w) as [w1 p] eqn:Eb.
      destruct (best_fine text_of _ _ _ _ Hi E Eb) as (Hfi' & Hp & Hob & _).
      apply (kept_add P (put p (text_of v) v w1) (VAddr (text_of v) (Some p) true (Some v))).
      + eapply kept_mono; [|apply put_grows|by rewrite put_objs]. eapply kept_mono; [done|apply Hfi'|done].
      + intros _. destruct (put_holds text_of p (text_of v) v w1) as [v' Hv]; [done|]. by exists p, v'.
    - destruct (opt_portal_exists w s) eqn:E; [|done]. unfold new_of_addr. destruct (objs w !! j) as [o|] eqn:Ho; [|done].
      destruct (best s w) as [w1 p] eqn:Eb. destruct (best_fine text_of _ _ _ _ Hi E Eb) as (Hfi' & Hp & Hob & Hop & Hst).
      assert (Hf1 : kept P w1) by (eapply kept_mono; [done|apply Hfi'|done]). specialize (Hg _ _ eq_refl).
      destruct (bool_decide (Some p <> va_portal o) && negb (dict_mem (va_text o) (store_of w1 p))) eqn:Ec.
      + assert (Hi2 : inv text_of (with_open (p :: open w1) w1)). { eapply fine_inv, open_fine; [by eapply fine_inv|]. constructor; [done|]. eapply inv_open, fine_inv, Hfi'. }
        pose proof (kept_get P (with_open (p :: open w1) w1) j Hi2) as Hf2.
        assert (kept P (with_open (p :: open w1) w1)) as Hf0 by (by eapply kept_mono; [exact Hf1|split; [done|exists []; by rewrite app_nil_r]|]).
        pose proof (get_objs_length (with_open (p :: open w1) w1) j) as Hl.
        specialize (Hf2 Hf0). destruct (get j _) as [w2 r] eqn:Eg. cbn [fst] in Hf2, Hl.
        assert (Hf3 : kept P (with_open (open w1) w2)) by (by eapply kept_mono; [exact Hf2|split; [done|exists []; by rewrite app_nil_r]|]).
        destruct r as [v|e]; [|done].
        apply (kept_add P (put p (va_text o) v (with_open (open w1) w2)) (VAddr (va_text o) (Some p) true None)).
        * eapply kept_mono; [exact Hf3|apply put_grows|by rewrite put_objs].
        * intros [[? ?]|[_ Hn]]; [done|]. exfalso. apply Hn. rewrite put_objs. cbn [with_open objs]. rewrite Hl. cbn [with_open objs]. by rewrite Hob.
      + apply (kept_add P w1 (VAddr (va_text o) (Some p) true None)); [done|]. intros [[? ?]|[_ Hn]]; [done|]. exfalso. apply Hn. by rewrite Hob.
    - destruct (opt_portal_exists w s) eqn:E; [|done]. by apply kept_strings.
    - by apply kept_ready.
    - by apply kept_get.
    - unfold copy. destruct (objs w !! i) as [o|] eqn:Ho; [|done]. apply kept_strings; [done| |done].
      destruct (va_portal o) as [p|] eqn:Ep; [|done]. cbn. apply Nat.ltb_lt. by apply (inv_obj text_of w Hi i o Ho).
    - unfold unpickle. destruct (objs w !! i) as [o|] eqn:Ho; [|done].
      apply (kept_add P w (VAddr (va_text o) (current w) false None)); [done|]. by intros [[? ?]|[? _]].
    - unfold invalidate. destruct (objs w !! i) as [o|] eqn:Ho; [|done]. cbn [fst]. eapply kept_set; [done|done|]. by intros [[? ?]|[? _]].
    - destruct (dict_mem _ _) eqn:E; [done|]. by eapply kept_mono; [done|apply Hfi|].
  Qed.

  (** address object number i was made by ValueAddr(address) in history h *)
  Definition made_from_address st (h : list (op A V)) (i : nat) : Prop :=
    exists h1 j s h2, h = h1 ++ OAddr j s :: h2 /\ length (objs (run text_of (init_world st) h1)) = i.
  Lemma kept_run st h : (forall l, correct_store text_of (st l)) -> kept (made_from_address st h) (run text_of (init_world st) h).
  Proof.
    intros Hst. induction h as [|e h IH] using rev_ind; [done|]. unfold run. rewrite fold_left_app. cbn. fold (run text_of (init_world st) h).
    apply kept_step; [by eapply fine_inv, run_fine, init_inv| |].
    - intros i o Ho [Hv|[Hr Hn]]; apply (IH i o Ho); [by left|right]. split; [done|]. intros (h1 & j & s & h2 & -> & Hl). apply Hn. exists h1, j, s, (h2 ++ [e]). by rewrite <- app_assoc.
    - intros j s ->. exists h, j, s, []. done.
  Qed.
  Lemma value_kept w i o v : collision_free text_of -> reachable text_of w -> objs w !! i = Some o -> va_value o = Some v ->
    exists p, va_portal o = Some p /\ holds w p (va_text o) v.
  Proof.
    intros Hc (st & h & Hst & ->) Ho Hv. destruct (kept_run st h Hst i o Ho) as (p & v' & Hp & Hh); [left; eauto|].
    exists p. split; [done|]. assert (Hi : inv text_of (run text_of (init_world st) h)) by (by eapply fine_inv, run_fine, init_inv).
    eapply holds_value; [done|done| |done]. by apply (inv_obj text_of _ Hi i o Ho).
  Qed.

  Lemma get_iff w i o : collision_free text_of -> reachable text_of w -> objs w !! i = Some o -> forall v,
    snd (get i w) = Ok v <-> exists p q, va_portal o = Some p /\ (q = p \/ current w <> Some q) /\ holds w q (va_text o) v.
  Proof.
    intros Hc Hr Ho v. pose proof (reachable_inv text_of w Hr) as Hi. split.
    - destruct (get i w) as [w' r] eqn:E. cbn. intros ->. pose proof E as E'. apply (get_cases text_of _ _ _ _ _ Ho) in E'. inversion E' as [v0 Ev Ew Er|Ev Ep Ew Er|p v0 Ev Ep Hg Ew Er|p q v0 Ev Ep Hg Hq Hcq Hgq Ew Er|]; clear E'; subst v0.
      + destruct (value_kept w i o v Hc Hr Ho) as (p & Hp & Hh); [done|]. exists p, p. subst w'. auto.
      + exists p, p. split; [done|]. split; [by left|]. split; [by apply (inv_obj text_of w Hi i o Ho)|done].
      + exists p, q. split; [done|]. split; [by right|]. done.
    - intros (p & q & Hp & Hq & Hh). destruct o as [a po r c]. cbn in *. subst po. eapply get_anywhere; [done|done| |done|done]. by exists r, c.
  Qed.
  Lemma get_fails w i o : objs w !! i = Some o -> (forall v, snd (get i w) <> Ok v) -> get i w = (w, Err KeyError).
  Proof.
    intros Ho Hn. destruct (get i w) as [w' r] eqn:E. cbn in Hn. apply (get_cases text_of _ _ _ _ _ Ho) in E. inversion E; subst; try done; exfalso; by eapply Hn.
  Qed.
  Lemma get_for_ever w i w1 v : collision_free text_of -> reachable text_of w -> get i w = (w1, Ok v) ->
    forall h, snd (get i (run text_of w1 h)) = Ok v.
  Proof.
    intros Hc Hr E h. assert (Hr1 : reachable text_of w1).
    { replace w1 with (run text_of w [OGet i]); [by apply reachable_run|]. cbn. by rewrite E. }
    destruct (objs w !! i) as [o|] eqn:Ho; [|by unfold get in E; rewrite Ho in E].
    pose proof (reachable_inv text_of w Hr) as Hi.
    assert (exists p, bound_to w1 i (va_text o) p /\ holds w1 p (va_text o) v) as (p & Hb & Hh).
    { pose proof E as E'. pose proof (get_fine text_of w i Hi) as (Hg & Hx & _). rewrite E in Hg, Hx. cbn in Hg, Hx.
      pose proof (get_value_text text_of w i o w1 v Hi Ho E) as Ht.
      apply (get_cases text_of _ _ _ _ _ Ho) in E'. inversion E'; subst.
      - destruct (value_kept w1 i o v Hc Hr1 Ho) as (p & Hp & Hh); [done|]. exists p. split; [|done]. destruct o as [a po r c]; cbn in *; subst. by eexists _, _.
      - exists p. split; [eexists _, _; cbn; rewrite list_lookup_insert by (by eapply lookup_lt_Some); done|]. split; [by apply (inv_obj text_of w Hi i o Ho)|done].
      - exists p. split; [eexists _, _; cbn; rewrite put_objs, list_lookup_insert by (by eapply lookup_lt_Some); done|].
        destruct (put_holds text_of p (va_text o) v w) as [v' Hv]; [by apply (inv_obj text_of w Hi i o Ho)|].
        eapply holds_value; [done|by apply reachable_inv|done|exact Hv]. }
    destruct (run_fine text_of h w1 (reachable_inv text_of w1 Hr1)) as (Hg & Hx & Hi2).
    eapply get_own; [done|done|by eapply bound_ext|by eapply holds_grows].
  Qed.
  Lemma ready_iff st h i o : collision_free text_of -> (forall l, correct_store text_of (st l)) -> let w := run text_of (init_world st) h in
    objs w !! i = Some o -> ~ made_from_address st h i -> va_portal o <> None ->
    (snd (ready i w) = Ok true <-> exists v, snd (get i w) = Ok v) /\ (snd (ready i w) = Ok true \/ ready i w = (w, Ok false)).
  Proof.
    intros Hc Hst w Ho Hn Hp. assert (Hr : reachable text_of w) by (exists st, h; done). pose proof (reachable_inv text_of w Hr) as Hi.
    destruct (ready i w) as [w' r] eqn:E. cbn. apply (ready_cases text_of _ _ _ _ _ Ho) in E. inversion E; subst; try done.
    - split; [|by left]. split; [|done]. intros _. destruct (kept_run st h Hst i o Ho) as (p & v & Hpo & Hh); [by right|].
      exists v. apply (get_iff w i o Hc Hr Ho). exists p, p. auto.
    - split; [|by left]. split; [|done]. intros _. exists v. apply (get_iff w i o Hc Hr Ho). exists p, p. split; [done|]. split; [by left|]. split; [by apply (inv_obj text_of w Hi i o Ho)|done].
    - split; [|by left]. split; [|done]. intros _. exists v. apply (get_iff w i o Hc Hr Ho). exists p, q. split; [done|]. split; [by right|]. done.
    - split; [|by right]. split; [done|]. intros [v Hv]. exfalso. apply (get_iff w i o Hc Hr Ho) in Hv as (p' & q & Hp' & Hq & Hl & Hh).
      replace p' with p in * by congruence. destruct Hq as [->|Hq].
      + unfold store_of, place, default_location in *. congruence.
      + match goal with H : forall q, _ -> _ -> dict_get _ _ = None |- _ => specialize (H q Hl Hq) end. unfold store_of, place, default_location in *. congruence.
  Qed.

  (** flags stay until the cache is dropped *)
  Definition flagged w i : Prop := exists o, objs w !! i = Some o /\ va_ready o = true.
  Lemma flagged_set w i j o' : flagged w i -> (i = j -> va_ready o' = true) -> flagged (set_obj j o' w) i.
  Proof.
    intros (o & Ho & Hr) Hj. unfold flagged. cbn. destruct (decide (i = j)) as [<-|Hn].
    - exists o'. rewrite list_lookup_insert by (by eapply lookup_lt_Some). auto.
    - exists o. by rewrite list_lookup_insert_ne by done.
  Qed.
  Lemma flagged_objs w w' i : objs w' = objs w -> flagged w i -> flagged w' i.
  Proof. unfold flagged. by intros ->. Qed.
  Lemma flagged_add w i o : flagged w i -> flagged (fst (add_obj o w)) i.
  Proof. intros (o' & Ho & Hr). exists o'. split; [|done]. cbn. by apply lookup_app_l_Some. Qed.
  Lemma flagged_get w i j : flagged w i -> flagged (fst (get j w)) i.
  Proof.
    intros Hf. destruct (objs w !! j) as [o|] eqn:Ho; [|unfold get; by rewrite Ho].
    destruct (get j w) as [w' r] eqn:E. cbn. apply (get_cases text_of _ _ _ _ _ Ho) in E.
    assert (Hk : i = j -> va_ready o = true). { intros ->. destruct Hf as (o' & Ho' & Hr). congruence. }
    inversion E; subst; try done; apply flagged_set; try done. by eapply flagged_objs; [apply put_objs|].
  Qed.
  Lemma flagged_ready w i j : flagged w i -> flagged (fst (ready j w)) i.
  Proof.
    intros Hf. destruct (objs w !! j) as [o|] eqn:Ho; [|unfold ready; by rewrite Ho].
    destruct (ready j w) as [w' r] eqn:E. cbn. apply (ready_cases text_of _ _ _ _ _ Ho) in E.
    inversion E; subst; try done; apply flagged_set; try done. by eapply flagged_objs; [apply put_objs|].
  Qed.
  Lemma best_objs sg w w1 p : best sg w = (w1, p) -> objs w1 = objs w.
  Proof.
    unfold best. destruct sg; [by intros [= <- _]|]. destruct (current w); [by intros [= <- _]|]. destruct (length (places w)); by intros [= <- _].
  Qed.
  Lemma flagged_strings a b s w i : flagged w i -> flagged (fst (from_strings a b s w)) i.
  Proof.
    intros Hf. unfold from_strings. destruct (best s w) as [w1 p] eqn:Eb. apply best_objs in Eb. destruct (add_obj _ w1) as [w2 k] eqn:Ea.
    assert (flagged w2 i). { replace w2 with (fst (add_obj (VAddr a (Some p) false None) w1)) by (by rewrite Ea). apply flagged_add. by eapply flagged_objs. }
    destruct b; [|done]. pose proof (flagged_ready w2 i k). destruct (ready k w2) as [w3 [[]|e]]; cbn in *; auto.
  Qed.
  Lemma flagged_step w i (e : op A V) : e <> OInvalidate i -> flagged w i -> flagged (step text_of w e) i.
  Proof.
    intros He Hf. destruct e as [l|p| |v s|j s|a b s|j|j|j|j|j|l v]; cbn [step].
    - done.
    - by destruct (portal_exists w p).
    - done.
    - destruct (opt_portal_exists w s); [|done]. unfold new_of_value. destruct (best s w) as [w1 p] eqn:Eb. apply best_objs in Eb.
      apply (flagged_add (put p (text_of v) v w1)). eapply flagged_objs; [|exact Hf]. by rewrite put_objs.
    - destruct (opt_portal_exists w s); [|done]. unfold new_of_addr. destruct (objs w !! j) as [o|]; [|done]. destruct (best s w) as [w1 p] eqn:Eb. apply best_objs in Eb.
      destruct (bool_decide _ && _).
      + pose proof (flagged_get (with_open (p :: open w1) w1) i j) as Hg. destruct (get j _) as [w2 r]. cbn [fst] in Hg.
        assert (flagged w2 i) by (apply Hg; by eapply flagged_objs). destruct r as [v|e]; [|done].
        apply (flagged_add (put p (va_text o) v (with_open (open w1) w2))). eapply flagged_objs; [|done]. by rewrite put_objs.
      + apply (flagged_add w1). by eapply flagged_objs.
    - destruct (opt_portal_exists w s); [|done]. by apply flagged_strings.
    - by apply flagged_ready.
    - by apply flagged_get.
    - unfold copy. destruct (objs w !! j); [|done]. by apply flagged_strings.
    - unfold unpickle. destruct (objs w !! j) as [o|]; [|done]. by apply (flagged_add w).
    - unfold invalidate. destruct (objs w !! j) as [o|]; [|done]. cbn [fst]. apply flagged_set; [done|]. intros ->. done.
    - by destruct (dict_mem _ _).
  Qed.
  Lemma flagged_run h : forall w i, OInvalidate i ∉ h -> flagged w i -> flagged (run text_of w h) i.
  Proof.
    unfold run. induction h as [|e h IH]; intros w i Hn Hf; cbn; [done|]. apply not_elem_of_cons in Hn as [H1 H2]. apply IH; [done|]. by apply flagged_step.
  Qed.
  Lemma vouched w j s w1 i h : new_of_addr j s w = (w1, Ok i) -> OInvalidate i ∉ h -> snd (ready i (run text_of w1 h)) = Ok true.
  Proof.
    intros E Hn. assert (Hf : flagged w1 i).
    { unfold new_of_addr in E. destruct (objs w !! j) as [o|]; [|done]. destruct (best s w) as [w0 p]. destruct (bool_decide _ && _).
      - destruct (get j _) as [w2 [v|e]]; [|done]. injection E as <- <-. eexists. cbn. rewrite lookup_app_r by lia. rewrite Nat.sub_diag. done.
      - injection E as <- <-. eexists. cbn. rewrite lookup_app_r by lia. rewrite Nat.sub_diag. done. }
    apply (flagged_run h) in Hf as (o & Ho & Hr); [|done]. unfold ready. by rewrite Ho, Hr.
  Qed.
End P.
