(** C99: constructing a portal, exactly.  C100: resetting, exactly.  More on C70, C71. *)
From Verif.Lib Require Import Py DictLemmas.
From Verif.Model Require Import Portals Construct.
From Verif.Spec Require Import ConstructSpec.
From Verif.Proofs Require Import ConstructP.
From stdpp Require Import sets.
From Coq Require Import QArith.
Local Open Scope nat_scope.

Lemma records_elsewhere l i a : forall s loc, loc <> a_loc a -> dict_get loc (records (apply_stages l i a s)) = dict_get loc (records s).
Proof.
  induction l as [|st l IH]; intros s loc Hl; cbn; [done|]. fold (apply_stages l i a (apply_stage st i a s)). rewrite IH by done. rewrite apply_records.
  destruct (a_rid a); [done|]. destruct (decide (st = SRid)); [|done]. rewrite dict_get_set. by rewrite decide_False.
Qed.
Lemma records_given l i a : a_rid a <> None -> forall s, records (apply_stages l i a s) = records s.
Proof.
  intros Hg. induction l as [|st l IH]; intros s; cbn; [done|]. fold (apply_stages l i a (apply_stage st i a s)). rewrite IH, apply_records.
  by destruct (a_rid a).
Qed.
Lemma init_other l i a : forall s k, SLaunch ∉ l -> k = launched s -> launched (apply_stages l i a s) = k.
Proof. intros s k H ->. by apply apply_stages_launched. Qed.

(** What a constructor does, whatever its arguments and whichever storage access fails: it returns exactly for sensible
    arguments when no storage access of its class fails; the new portal becomes known, last, unless the root dictionary
    could not be made; it has everything its class promises exactly if the constructor returned; nothing else changes: the
    entered portals, the default portal, all other portals, the runtime records of other places, and, if it was given a
    runtime id, all records; and workers are started only by a constructor that returns. *)
Theorem C99_constructor_exactly : forall c a fault s s' r, construct c a fault s = (s', r) -> let i := length (heap s) in
  (r = Ok i <-> sensible c a /\ forall st, fault = Some st -> rank c < rank (stage_class st)) /\
  (r = Ok i \/ exists e, r = Err e) /\
  known s' = (if decide (fault = Some SRoot) then known s else known s ++ [i]) /\
  (exists o, heap s' !! i = Some o /\ o_class o = c /\ o_args o = a /\ (complete o <-> r = Ok i)) /\
  opened s' = opened s /\ dflt s' = dflt s /\ (forall j, j < i -> heap s' !! j = heap s !! j) /\ length (heap s') = S i /\
  (forall loc, loc <> a_loc a -> dict_get loc (records s') = dict_get loc (records s)) /\ (a_rid a <> None -> records s' = records s) /\
  (r <> Ok i -> launched s' = launched s).
Proof.
  intros c a f s s' r H i. subst i. pose proof (construct_ok_iff c a f s) as Hiff. rewrite H in Hiff. cbn [snd] in Hiff.
  pose proof (construct_inv _ _ _ _ _ _ H) as (d & rest & H1 & Es & H3 & H4).
  pose proof (construct_frame _ _ _ _ _ _ H) as (G1 & G2 & G3 & G4 & G5 & o & Ho & Hc & Ha & Hcl & Hk).
  assert (Hr : r = Ok (length (heap s)) \/ exists e, r = Err e). { destruct r as [j|e]; [left; destruct H4 as [-> _]; done|right; eauto]. }
  assert (Hri : r = Ok (length (heap s)) <-> is_ok r = true). { destruct Hr as [->|[e ->]]; done. }
  destruct (apply_stages_obj d (length (heap s)) a (with_heap (heap s ++ [new_obj c a]) s) (new_obj c a)) as (rr & Hrr & _); [cbn; apply lookup_new|].
  rewrite <- Es, Ho in Hrr. injection Hrr as Hoo. cbn in Hoo.
  split; [by rewrite Hri|]. split; [done|]. split.
  { destruct Hk as [(-> & _ & _ & ->)|(-> & _ & Hf)]; [by rewrite decide_True|by rewrite decide_False]. }
  split.
  { exists o. split; [done|]. split; [done|]. split; [done|]. split.
    - intros [_ Hall]. destruct r as [j|e]; [by destruct H4 as [-> _]|]. exfalso. destruct H4 as (st & rest' & -> & _).
      assert (Hin : st ∈ stages_of c) by (rewrite H1; apply elem_of_app; right; left).
      specialize (Hall st). rewrite Hc in Hall. pose proof (Hall (proj1 (stages_of_elem c st) Hin)) as Hst. rewrite Hoo in Hst. cbn in Hst.
      pose proof (stages_nodup c) as Hn. rewrite H1 in Hn. apply NoDup_app in Hn as (_ & Hn & _). apply (Hn st Hst). left.
    - intros ->. by destruct (construct_ok _ _ _ _ _ _ H) as (_ & _ & _ & _ & _ & _ & _ & o' & Ho' & _ & _ & Hcomp); rewrite Ho in Ho'; injection Ho' as <-. }
  split; [done|]. split; [done|]. split; [done|]. split; [done|]. split; [|split].
  - intros loc Hl. rewrite Es. by rewrite records_elsewhere.
  - intros Hg. rewrite Es. by rewrite records_given.
  - intros Hne. destruct r as [j|e]; [exfalso; apply Hne; by destruct H4 as [-> _]|]. rewrite Es. apply init_other; [|done].
    destruct H4 as (st & rest' & -> & _). intros Hin.
    destruct (decide (rank SwarmingPortal <= rank c)) as [Hsw|Hsw].
    + pose proof (stages_nodup c) as Hn. rewrite H1 in Hn. apply NoDup_app in Hn as (_ & Hn & _). apply (Hn SLaunch Hin). clear Hn.
      rewrite (swarming_stages c Hsw), !app_assoc in H1. remember (st :: rest') as l eqn:El. destruct l as [|y l _] using rev_ind; [done|].
      rewrite app_assoc in H1. apply app_inj_tail in H1 as [_ <-]. apply elem_of_app. right. left.
    + assert (Hin' : SLaunch ∈ stages_of c) by (rewrite H1; apply elem_of_app; by left). apply stages_of_elem in Hin'. cbn in Hin'. cbn in Hsw. lia.
Qed.
Print Assumptions C99_constructor_exactly.
Example C99_example :
  sensible SwarmingPortal (swarming_args 1 2) /\ ~ sensible SwarmingPortal (swarming_args 1 (-2)) /\
  snd (construct SwarmingPortal (swarming_args 1 2) (Some SEnv) new_process) = Err storage_error /\
  snd (construct DataPortal (Args 1 None "" None None) (Some SEnv) new_process) = Ok 0.
Proof.
  split; [split; [intros _ p [=]|split; [done|intros _; exists 2%Z; done]]|]. split; [|done].
  intros (_ & _ & H). destruct (H ltac:(cbn; lia)) as (n & [= <-] & Hn). lia.
Qed.

(** C71: after a reset through DefaultLocalPortal the next default portal is a new, complete one and the only one known. *)
Theorem C71_default_portal_after_its_reset : forall ops s es, crun new_process ops = (s, es) ->
  forall s', clear_all DefaultLocalPortal s = (s', Ok tt) ->
  exists s'', default_portal None s' = (s'', Ok (length (heap s'))) /\ known s'' = [length (heap s')] /\
    exists o, heap s'' !! length (heap s') = Some o /\ o_class o = DefaultLocalPortal /\ complete o.
Proof.
  intros ops s es Hrun s' Hc. apply crun_follow in Hrun as (_ & W & _); [|apply wf_fresh].
  pose proof (clear_all_inv _ _ _ _ Hc W) as (_ & W' & Hk & _ & _).
  assert (Hd : dflt_calls s' = 0).
  { unfold clear_all in Hc. destruct (clear_portals _ _) as [s1 [e|]] eqn:E; [done|]. apply clear_portals_inv in E as (_ & _ & _ & _ & E & _). injection Hc as <-. cbn. by rewrite E. }
  destruct (default_portal_cases None s' W') as [(_ & _ & E)|[(E1 & _)|(E1 & _)]]; [|lia|lia].
  destruct (construct DefaultLocalPortal default_args None (with_new_default s')) as [s2 r] eqn:Ec.
  pose proof (C99_constructor_exactly _ _ _ _ _ _ Ec) as (Hiff & _ & Hkn & (o & Ho & Hcl & _ & Hcomp) & _).
  assert (Hr : r = Ok (length (heap (with_new_default s')))).
  { apply Hiff. split; [|done]. split; [intros _ p [= <-]; split; done|]. split; [done|]. intros _. exists 3%Z. done. }
  exists s2. rewrite E, Hr. split; [done|]. cbn [with_new_default with_dflt heap known] in *. rewrite decide_False in Hkn by done. rewrite Hk in Hkn.
  split; [done|]. exists o. split; [done|]. split; [done|]. by apply Hcomp.
Qed.
Print Assumptions C71_default_portal_after_its_reset.

(** * C100 *)
(** What every call does to the entered portals: entering adds one, exiting removes the innermost, which must be the one
    exited; a reset that succeeds leaves none; initialize leaves the new portal only; no other call, and no call that fails,
    changes them (a failing initialize may have reset them). *)
Theorem C100_entered_portals_exactly : forall s o s' e, wf s -> cstep s o = (s', e) ->
  match o, e with
  | CEnter p, None => opened s' = p :: opened s
  | CExit p, None => opened s = p :: opened s'
  | CClearAll _, None => opened s' = [] /\ known s' = []
  | CInitialize _ _, None => exists i, opened s' = [i] /\ known s' = [i]
  | CInitialize _ _, Some _ => opened s' = opened s \/ opened s' = [] \/ exists i, opened s' = [i]
  | _, _ => opened s' = opened s
  end.
Proof.
  intros s o s' e W H.
  assert (Hx : forall {A} (r : cstate * res A) s' e, match r with (s', Ok _) => (s', None) | (s', Err e) => (s', Some e) end = (s', e) -> s' = fst r /\ (e = None <-> is_ok (snd r) = true)).
  { intros A [s0 [x|x]] s1 e1 [= <- <-]; done. }
  assert (Hdef : forall f s s' r, wf s -> default_portal f s = (s', r) -> opened s' = opened s).
  { clear. intros f s s' r W H. destruct (default_portal_cases f s W) as [(_ & _ & E)|[(_ & i & _ & E)|(_ & _ & s1 & E & E3)]]; rewrite E in H.
    - apply construct_frame in H as (-> & _). done.
    - by injection H as <- <-.
    - injection H as <- <-. by subst s1. }
  destruct o as [c a f|f|p|p|cls|l f|l n f|f]; cbn [cstep] in H.
  - assert (Hc : (s', e) = (s, Some TypeError) \/ exists r, construct c a f s = (s', r)).
    { destruct c; try (by left); right; apply Hx in H as [-> _]; destruct (construct _ _ _ _) as [s1 r1]; by exists r1. }
    destruct Hc as [[= -> ->]|(r & Hc)]; [done|]. by apply construct_frame in Hc as (-> & _).
  - apply Hx in H as [-> _]. destruct (default_portal f s) as [s1 r1] eqn:E. by apply Hdef in E.
  - case_decide; injection H as <- <-; done.
  - destruct (opened s) as [|q l] eqn:Eo; [injection H as <- <-; done|]. case_decide as Hq; injection H as <- <-; [by subst|done].
  - apply Hx in H as [-> He]. destruct (clear_all cls s) as [s1 [u|x]] eqn:E; cbn in *; apply clear_all_inv in E as (_ & _ & E1 & E2 & _); try done.
    + rewrite (proj2 He eq_refl). done.
    + destruct e as [x'|]; [done|]. by destruct He as [He _]; specialize (He eq_refl).
  - apply Hx in H as [-> He]. unfold initialize in *. destruct (clear_all BasicPortal s) as [s1 [u|x]] eqn:E; cbn in *.
    + apply clear_all_inv in E as (_ & _ & E1 & E2 & _); [|done]. destruct (construct _ _ _ s1) as [s2 [j|x]] eqn:Ec; cbn in *.
      * pose proof (construct_ok _ _ _ _ _ _ Ec) as (_ & K1 & K2 & _). rewrite E1 in K1. rewrite E2 in K2. destruct e; [right; right; exists j; by rewrite K2|]. exists j. by rewrite K2.
      * destruct e; [|by destruct He as [He _]; specialize (He eq_refl)]. right; left. apply construct_frame in Ec as (-> & _). done.
    + destruct e; [|by destruct He as [He _]; specialize (He eq_refl)]. left. by apply clear_all_inv in E as (_ & _ & _ & -> & _).
  - apply Hx in H as [-> _]. unfold connect_local. destruct (construct _ _ _ s) as [s1 [j|x]] eqn:E; cbn; by apply construct_frame in E as (-> & _).
  - apply Hx in H as [-> _]. unfold connect_default. destruct (default_portal f s) as [s1 [j|x]] eqn:E; cbn; by apply Hdef in E.
Qed.
Print Assumptions C100_entered_portals_exactly.
(** After any history, a reset through any class succeeds exactly if no known swarming portal is half-built or was cleared
    by a reset that failed; if it succeeds no portal is known or entered any more; if it fails the known and the entered
    portals are the same as before. *)
Theorem C100_reset_exactly : forall ops s es cls s' r, crun new_process ops = (s, es) -> clear_all cls s = (s', r) ->
  (r = Ok tt <-> ~ broken s) /\
  (r = Ok tt -> known s' = [] /\ opened s' = []) /\ (r <> Ok tt -> known s' = known s /\ opened s' = opened s).
Proof.
  intros ops s es cls s' r Hrun Hc. apply crun_follow in Hrun as (_ & W & _); [|apply wf_fresh]. pose proof (clear_all_fails_iff cls s W) as Hf.
  rewrite Hc in Hf. cbn in Hf. pose proof (clear_all_inv _ _ _ _ Hc W) as (_ & _ & Hr). destruct r as [[]|e]; cbn in *.
  - split; [|split; [tauto|done]]. split; [|done]. intros _ Hb. apply Hf in Hb. done.
  - split; [|split; [done|tauto]]. split; [done|]. intros Hb. exfalso. apply Hb. by apply Hf.
Qed.
Print Assumptions C100_reset_exactly.
Example C100_example : exists s es, crun new_process [CNew SwarmingPortal (swarming_args 1 2) None; CEnter 0; CNew SwarmingPortal (swarming_args 1 (-1)) None; CClearAll BasicPortal] = (s, es) /\
  es = [None; None; Some AssertionError; Some AttributeError] /\ opened s = [0] /\ known s = [0; 1].
Proof. eexists _, _. split; [vm_compute; reflexivity|]. done. Qed.
