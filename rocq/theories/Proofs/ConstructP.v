(** Lemmas about constructing and clearing portals. *)
From Verif.Lib Require Import Py.
From Verif.Model Require Import Portals Construct.
From Verif.Spec Require Import ConstructSpec.
From stdpp Require Import sets gmap.
From Coq Require Import QArith.
Local Open Scope nat_scope.

Lemma elem_of_filter_In {A} (f : A -> bool) l x : x ∈ List.filter f l <-> x ∈ l /\ f x = true.
Proof. rewrite !elem_of_list_In. apply filter_In. Qed.
Lemma instance_rank c d : instance_of c d = true <-> rank d <= rank c.
Proof. unfold instance_of. apply Nat.leb_le. Qed.
Lemma stage_in_all st : st ∈ all_stages.
Proof. destruct st; unfold all_stages; repeat (first [left | right]); fail || set_solver. Qed.
Lemma stages_of_elem c st : st ∈ stages_of c <-> rank (stage_class st) <= rank c.
Proof. unfold stages_of. rewrite elem_of_filter_In, instance_rank. split; [tauto|]. split; [apply stage_in_all|done]. Qed.
Lemma stages_nodup c : NoDup (stages_of c).
Proof. eapply bool_decide_eq_true_1. destruct c; vm_compute; reflexivity. Qed.
Lemma stages_head c : exists l, stages_of c = SRoot :: l /\ SRoot ∉ l.
Proof.
  pose proof (stages_nodup c) as H. destruct c; eexists; (split; [vm_compute; reflexivity|]);
  (eapply bool_decide_eq_true_1; vm_compute; reflexivity).
Qed.

(** ** One stage *)
Lemma apply_frame st i a s : let s' := apply_stage st i a s in
  opened s' = opened s /\ dflt s' = dflt s /\ dflt_calls s' = dflt_calls s /\ length (heap s') = length (heap s) /\
  (forall j, j <> i -> heap s' !! j = heap s !! j).
Proof.
  destruct st; cbn [apply_stage]; try (destruct (a_rid a)); try (destruct (heap s !! i), (a_workers a));
    cbn; repeat rewrite alter_length; (split_and!; try done); intros; repeat rewrite list_lookup_alter_ne by done; done.
Qed.
Lemma apply_known st i a s : known (apply_stage st i a s) = known s ++ (if decide (st = SRoot) then [i] else []).
Proof.
  destruct st; cbn [apply_stage]; try (destruct (a_rid a)); try (destruct (heap s !! i), (a_workers a)); cbn; rewrite ?app_nil_r; done.
Qed.
Definition chosen_rid (a : args) (s : cstate) : nat := match a_rid a with Some r => r | None => next_rid s end.
Lemma apply_obj st i a s o : heap s !! i = Some o ->
  heap (apply_stage st i a s) !! i =
    Some (CObj (o_class o) (o_args o) (o_has o ++ [st]) (o_cleared o) (if decide (st = SRid) then chosen_rid a s else o_rid o)).
Proof.
  intros H. unfold chosen_rid. destruct st; cbn [apply_stage]; rewrite ?H; destruct (a_rid a), (a_workers a);
    cbn; repeat rewrite list_lookup_alter; rewrite ?H; cbn; reflexivity.
Qed.
Lemma apply_records st i a s : records (apply_stage st i a s) =
  match a_rid a with
  | None => if decide (st = SRid) then dict_set (a_loc a) (next_rid s) (records s) else records s
  | Some _ => records s
  end.
Proof. destruct st; cbn [apply_stage]; destruct (a_rid a); try (destruct (heap s !! i), (a_workers a)); reflexivity. Qed.
Lemma apply_next_rid st i a s : next_rid (apply_stage st i a s) =
  match a_rid a with None => if decide (st = SRid) then S (next_rid s) else next_rid s | Some _ => next_rid s end.
Proof. destruct st; cbn [apply_stage]; destruct (a_rid a); try (destruct (heap s !! i), (a_workers a)); reflexivity. Qed.
Lemma apply_launched st i a s o n : heap s !! i = Some o -> a_workers a = Some n ->
  launched (apply_stage st i a s) =
  launched s ++ (if decide (st = SLaunch) then replicate (Z.to_nat n) (worker_args a (o_rid o)) else []).
Proof.
  intros H Hn. destruct st; cbn [apply_stage]; try (destruct (a_rid a)); rewrite ?H, ?Hn; cbn; rewrite ?app_nil_r; reflexivity.
Qed.
Lemma apply_launched_other st i a s : st <> SLaunch -> launched (apply_stage st i a s) = launched s.
Proof. intros H. destruct st; cbn [apply_stage]; try (destruct (a_rid a)); try done. Qed.

(** ** A prefix of the stages *)
Local Opaque stages_of.
Definition apply_stages (l : list stage) (i : nat) (a : args) (s : cstate) : cstate :=
  fold_left (fun s st => apply_stage st i a s) l s.
Lemma init_stages_prefix sts i a f s s' r : init_stages sts i a f s = (s', r) ->
  exists done rest, sts = done ++ rest /\ s' = apply_stages done i a s /\
    Forall (fun st => check st a = None /\ f <> Some st) done /\
    match r with
    | None => rest = []
    | Some e => exists st rest', rest = st :: rest' /\ (check st a = Some e \/ (check st a = None /\ f = Some st /\ e = storage_error))
    end.
Proof.
  revert s. induction sts as [|st sts IH]; intros s H; cbn in H.
  - injection H as <- <-. exists [], []. split_and!; [done|done|by constructor|done].
  - destruct (check st a) eqn:Ec.
    + injection H as <- <-. exists [], (st :: sts). split_and!; [done|done|by constructor|]. eauto 6.
    + case_bool_decide as Ef.
      * injection H as <- <-. exists [], (st :: sts). split_and!; [done|done|by constructor|]. eauto 7.
      * destruct (IH _ H) as (d & rest & -> & -> & Hd & Hr). exists (st :: d), rest. split_and!; try done. by constructor.
Qed.
Lemma apply_stages_frame l i a s : let s' := apply_stages l i a s in
  opened s' = opened s /\ dflt s' = dflt s /\ dflt_calls s' = dflt_calls s /\ length (heap s') = length (heap s) /\
  (forall j, j <> i -> heap s' !! j = heap s !! j).
Proof.
  revert s. induction l as [|st l IH]; intros s; cbn; [done|].
  destruct (IH (apply_stage st i a s)) as (H1 & H2 & H3 & H4 & H5). destruct (apply_frame st i a s) as (G1 & G2 & G3 & G4 & G5).
  unfold apply_stages in *. cbn in *. split_and!; [congruence..|]. intros j Hj. rewrite H5, G5 by done. done.
Qed.
Lemma apply_stages_known l i a s : SRoot ∉ l -> known (apply_stages l i a s) = known s.
Proof.
  revert s. induction l as [|st l IH]; intros s H; cbn; [done|]. apply not_elem_of_cons in H as [H1 H2].
  fold (apply_stages l i a (apply_stage st i a s)). rewrite IH, apply_known by done. rewrite decide_False by done. apply app_nil_r.
Qed.
Lemma apply_stages_obj l i a s o : heap s !! i = Some o -> exists r,
  heap (apply_stages l i a s) !! i = Some (CObj (o_class o) (o_args o) (o_has o ++ l) (o_cleared o) r) /\
  (SRid ∉ l -> r = o_rid o).
Proof.
  revert s o. induction l as [|st l IH]; intros s o H; cbn.
  - exists (o_rid o). rewrite app_nil_r. destruct o; done.
  - destruct (IH (apply_stage st i a s) _ (apply_obj st i a s o H)) as (r & Hr & Hn). exists r. cbn in *. split.
    + unfold apply_stages in Hr. rewrite Hr, <- app_assoc. done.
    + intros [H1 H2]%not_elem_of_cons. rewrite Hn by done. rewrite decide_False by done. done.
Qed.
Lemma apply_stages_records l i a s : SRid ∉ l -> records (apply_stages l i a s) = records s /\ next_rid (apply_stages l i a s) = next_rid s.
Proof.
  revert s. induction l as [|st l IH]; intros s H; cbn; [done|]. apply not_elem_of_cons in H as [H1 H2].
  fold (apply_stages l i a (apply_stage st i a s)). destruct (IH (apply_stage st i a s) H2) as [-> ->].
  rewrite apply_records, apply_next_rid. rewrite !decide_False by done. destruct (a_rid a); done.
Qed.
Lemma apply_stages_launched l i a s : SLaunch ∉ l -> launched (apply_stages l i a s) = launched s.
Proof.
  revert s. induction l as [|st l IH]; intros s H; cbn; [done|]. apply not_elem_of_cons in H as [H1 H2].
  fold (apply_stages l i a (apply_stage st i a s)). rewrite IH by done. apply apply_launched_other. done.
Qed.

(** ** construct *)
Lemma construct_inv c a f s s' r : construct c a f s = (s', r) ->
  exists done rest, stages_of c = done ++ rest /\
    s' = apply_stages done (length (heap s)) a (with_heap (heap s ++ [new_obj c a]) s) /\
    Forall (fun st => check st a = None /\ f <> Some st) done /\
    match r with
    | Ok i => i = length (heap s) /\ rest = []
    | Err e => exists st rest', rest = st :: rest' /\ (check st a = Some e \/ (check st a = None /\ f = Some st /\ e = storage_error))
    end.
Proof.
  unfold construct. intros H. destruct (init_stages _ _ _ _ _) as [s1 r1] eqn:E.
  apply init_stages_prefix in E as (d & rest & H1 & H2 & H3 & H4). destruct r1 as [e|]; injection H as <- <-;
    exists d, rest; split_and!; try done.
Qed.
Lemma lookup_new {A} (l : list A) x : (l ++ [x]) !! length l = Some x.
Proof. rewrite lookup_app_r by lia. rewrite Nat.sub_diag. done. Qed.

Lemma construct_frame c a f s s' r : construct c a f s = (s', r) ->
  opened s' = opened s /\ dflt s' = dflt s /\ dflt_calls s' = dflt_calls s /\ length (heap s') = S (length (heap s)) /\
  (forall j, j < length (heap s) -> heap s' !! j = heap s !! j) /\
  exists o, heap s' !! length (heap s) = Some o /\ o_class o = c /\ o_args o = a /\ o_cleared o = false /\
    ((known s' = known s /\ o_has o = [] /\ r = Err storage_error /\ f = Some SRoot) \/
     (known s' = known s ++ [length (heap s)] /\ SRoot ∈ o_has o /\ f <> Some SRoot)).
Proof.
  intros H. apply construct_inv in H as (d & rest & H1 & -> & H3 & H4).
  destruct (apply_stages_frame d (length (heap s)) a (with_heap (heap s ++ [new_obj c a]) s)) as (G1 & G2 & G3 & G4 & G5).
  destruct (apply_stages_obj d (length (heap s)) a (with_heap (heap s ++ [new_obj c a]) s) (new_obj c a)) as (rr & Hr & _).
  { cbn. apply lookup_new. }
  cbn in G1, G2, G3, G4, G5, Hr. rewrite app_length in G4. cbn in G4. split_and!; try done; [lia| |].
  { intros j Hj. rewrite G5 by lia. apply lookup_app_l. done. }
  eexists. split; [exact Hr|]. cbn. split_and!; try done.
  destruct (stages_head c) as (l & Hl & Hnl). rewrite Hl in H1. destruct d as [|st d].
  - left. cbn in H1. subst rest. destruct r as [i|e]; [destruct H4; done|].
    destruct H4 as (st & rest' & E & H4). injection E as <- <-. destruct H4 as [H4|(H4 & H5 & ->)]; done.
  - right. cbn in H1. injection H1 as <- ->. cbn [apply_stages fold_left].
    apply Forall_cons in H3 as [[_ Hf] H3].
    fold (apply_stages d (length (heap s)) a (apply_stage SRoot (length (heap s)) a (with_heap (heap s ++ [new_obj c a]) s))).
    rewrite apply_stages_known by (intros Hin; apply Hnl; apply elem_of_app; by left). rewrite apply_known. cbn. split; [done|].
    split; [left|done].
Qed.

Lemma construct_fails_no_trace c a f s s' e : construct c a f s = (s', Err e) -> no_trace s s' <-> f = Some SRoot.
Proof.
  intros H. pose proof (construct_frame _ _ _ _ _ _ H) as (G1 & G2 & G3 & G4 & G5 & o & Ho & Hc & Ha & Hcl & Hk). split.
  - intros (K & _). destruct Hk as [(_ & _ & _ & Hf)|(K' & _)]; [done|]. rewrite K in K'. apply (f_equal length) in K'.
    rewrite app_length in K'. cbn in K'. lia.
  - intros ->. destruct Hk as [(Hk & Hh & _ & _)|(_ & _ & Hf)]; [|done].
    apply construct_inv in H as (d & rest & H1 & -> & H3 & H4). destruct d as [|st d].
    + cbn. split_and!; try done. eauto.
    + destruct (stages_head c) as (l & Hl & _). rewrite Hl in H1. injection H1 as <- _. apply Forall_cons in H3 as [[_ Hf] _]. done.
Qed.

Lemma check_sensible c a : sensible c a <-> Forall (fun st => check st a = None) (stages_of c).
Proof.
  rewrite Forall_forall. split.
  - intros (H1 & H2 & H3) st Hst. apply stages_of_elem in Hst. destruct st; cbn in *; try done.
    + destruct (a_p a) as [p|]; [|done]. destruct (H1 Hst p eq_refl) as [L U].
      apply Qle_bool_iff in L, U. rewrite L, U. done.
    + rewrite bool_decide_eq_false_2; auto.
    + destruct (H3 Hst) as (n & -> & Hn). apply Z.leb_le in Hn. rewrite Hn. done.
  - intros H. split_and!.
    + intros Hr p Hp. specialize (H SData). rewrite stages_of_elem in H. cbn in H. specialize (H Hr). rewrite Hp in H.
      destruct (Qle_bool 0 p) eqn:E1, (Qle_bool p 1) eqn:E2; try done. split; apply Qle_bool_iff; done.
    + intros Hr He. specialize (H SIslands). rewrite stages_of_elem in H. cbn in H. specialize (H Hr).
      rewrite bool_decide_eq_true_2 in H by done. done.
    + intros Hr. specialize (H SNodes). rewrite stages_of_elem in H. cbn in H. specialize (H Hr).
      destruct (a_workers a) as [n|]; [|done]. exists n. split; [done|]. destruct (0 <=? n)%Z eqn:E; [|done]. apply Z.leb_le. done.
Qed.
Lemma construct_ok_iff c a f s : is_ok (snd (construct c a f s)) = true <->
  sensible c a /\ forall st, f = Some st -> rank c < rank (stage_class st).
Proof.
  rewrite check_sensible. destruct (construct c a f s) as [s' r] eqn:E. apply construct_inv in E as (d & rest & H1 & -> & H3 & H4). cbn.
  destruct r as [i|e]; cbn.
  - destruct H4 as [-> ->]. rewrite app_nil_r in H1. split; [|done]. intros _. rewrite H1. split.
    + eapply Forall_impl; [exact H3|]. cbn. tauto.
    + intros st ->. destruct (decide (rank (stage_class st) <= rank c)) as [L|L]; [|lia].
      apply stages_of_elem in L. rewrite H1 in L. rewrite Forall_forall in H3. destruct (H3 _ L). done.
  - split; [done|]. intros [Hs Hf]. destruct H4 as (st & rest' & -> & Hst).
    assert (Hin : st ∈ stages_of c) by (rewrite H1; set_solver).
    rewrite Forall_forall in Hs. destruct Hst as [Hst|(_ & -> & _)]; [rewrite (Hs _ Hin) in Hst; done|].
    specialize (Hf st eq_refl). apply stages_of_elem in Hin. lia.
Qed.
(** everything about a successful construction *)
Lemma construct_ok c a f s s' i : construct c a f s = (s', Ok i) ->
  i = length (heap s) /\ known s' = known s ++ [i] /\ opened s' = opened s /\ dflt s' = dflt s /\ dflt_calls s' = dflt_calls s /\
  length (heap s') = S (length (heap s)) /\ (forall j, j < length (heap s) -> heap s' !! j = heap s !! j) /\
  exists o, heap s' !! i = Some o /\ o_class o = c /\ o_args o = a /\ complete o.
Proof.
  intros H. pose proof (construct_inv _ _ _ _ _ _ H) as (d & rest & H1 & E & H3 & [Hi ->]).
  apply construct_frame in H as (G1 & G2 & G3 & G4 & G5 & o & Ho & Hc & Ha & Hcl & Hk).
  destruct Hk as [(_ & _ & Hr & _)|(Hk & _ & _)]; [done|]. subst i. split_and!; try done. exists o. split_and!; try done.
  split; [done|]. intros st Hst. rewrite Hc in Hst. apply stages_of_elem in Hst.
  destruct (apply_stages_obj d (length (heap s)) a (with_heap (heap s ++ [new_obj c a]) s) (new_obj c a)) as (rr & Hr & _).
  { cbn. apply lookup_new. }
  rewrite <- E in Hr. rewrite Ho in Hr. injection Hr as ->. cbn. rewrite app_nil_r in H1. rewrite <- H1. done.
Qed.

(** ** Clearing *)
Definition same_obj (o o' : cobj) : Prop :=
  o_class o' = o_class o /\ o_args o' = o_args o /\ o_has o' = o_has o /\ o_rid o' = o_rid o /\ (o_cleared o = true -> o_cleared o' = true).
Lemma same_obj_refl o : same_obj o o. Proof. done. Qed.
Lemma same_obj_trans o1 o2 o3 : same_obj o1 o2 -> same_obj o2 o3 -> same_obj o1 o3.
Proof. intros (A1 & A2 & A3 & A4 & A5) (B1 & B2 & B3 & B4 & B5). unfold same_obj. split_and!; try congruence. auto. Qed.
Definition keeps (s s' : cstate) : Prop :=
  length (heap s) <= length (heap s') /\
  forall j o, heap s !! j = Some o -> exists o', heap s' !! j = Some o' /\ same_obj o o'.
Lemma keeps_refl s : keeps s s. Proof. split; [done|]. intros j o H. exists o. split; [done|apply same_obj_refl]. Qed.
Lemma keeps_trans s1 s2 s3 : keeps s1 s2 -> keeps s2 s3 -> keeps s1 s3.
Proof.
  intros [L1 H1] [L2 H2]. split; [lia|]. intros j o H. destruct (H1 _ _ H) as (o' & H' & E). destruct (H2 _ _ H') as (o'' & H'' & E').
  exists o''. split; [done|]. eapply same_obj_trans; eauto.
Qed.
Lemma keeps_heap s s' : heap s' = heap s -> keeps s s'.
Proof. intros E. split; [rewrite E; done|]. intros j o H. exists o. rewrite E. split; [done|apply same_obj_refl]. Qed.

Definition clearable (o : cobj) : Prop :=
  rank SwarmingPortal <= rank (o_class o) -> SNodeId ∈ o_has o /\ o_cleared o = false.
Lemma clearable_dec o : {clearable o} + {~ clearable o}.
Proof.
  unfold clearable. destruct (decide (rank SwarmingPortal <= rank (o_class o))) as [L|L]; [|left; done].
  destruct (decide (SNodeId ∈ o_has o)) as [M|M]; [|right; intros H; destruct (H L); done].
  destruct (o_cleared o) eqn:E; [right; intros H; destruct (H L); done|left; done].
Qed.
Lemma clear_portal_inv i s s' r : clear_portal i s = (s', r) ->
  known s' = known s /\ opened s' = opened s /\ launched s' = launched s /\ dflt s' = dflt s /\ dflt_calls s' = dflt_calls s /\
  length (heap s') = length (heap s) /\ keeps s s' /\ (forall j, j <> i -> heap s' !! j = heap s !! j) /\
  (r = None <-> forall o, heap s !! i = Some o -> clearable o) /\
  (forall l, dict_get l (records s) = None -> dict_get l (records s') = None) .
Proof.
  unfold clear_portal. destruct (heap s !! i) as [o|] eqn:E.
  2:{ intros H. injection H as <- <-. split_and!; try done; apply keeps_refl. }
  assert (Hdel : forall (d : dict nat nat) l k, dict_get l d = None -> dict_get l (dict_del k d) = None).
  { clear. induction d as [|[k' v'] d IH]; intros l k H; cbn in *; [done|]. destruct (decide (l = k')); [done|].
    destruct (decide (k = k')); [done|]. cbn. rewrite decide_False by done. auto. }
  assert (Hk : forall s0, heap s0 = heap s -> keeps s (set_obj i (fun o => CObj (o_class o) (o_args o) (o_has o) true (o_rid o)) s0)).
  { intros s0 E0. split; [cbn; rewrite alter_length, E0; done|]. intros j o' Hj. destruct (decide (j = i)) as [->|Hne].
    - exists (CObj (o_class o') (o_args o') (o_has o') true (o_rid o')). cbn. rewrite list_lookup_alter, E0, Hj. done.
    - exists o'. cbn. rewrite list_lookup_alter_ne, E0 by done. split; [done|apply same_obj_refl]. }
  destruct (instance_of (o_class o) SwarmingPortal) eqn:Ei.
  - apply instance_rank in Ei. destruct (bool_decide (SNodeId ∈ o_has o) && negb (o_cleared o)) eqn:Eb; intros H; injection H as <- <-.
    + apply andb_prop in Eb as [E1 E2]. apply bool_decide_eq_true in E1. apply negb_true_iff in E2.
      split_and!; try done.
      * cbn. apply alter_length.
      * apply Hk. done.
      * intros j Hj. cbn. apply list_lookup_alter_ne. done.
      * split; [|done]. intros _ o' Ho'. injection Ho' as <-. done.
      * intros l Hl. cbn. apply Hdel. done.
    + split_and!; try done.
      * apply keeps_refl.
      * split; [done|]. intros H. destruct (H o eq_refl Ei) as [H1 H2]. rewrite bool_decide_eq_true_2, H2 in Eb by done. done.
  - intros H. injection H as <- <-. split_and!; try done.
    + cbn. apply alter_length.
    + apply Hk. done.
    + intros j Hj. cbn. apply list_lookup_alter_ne. done.
    + split; [|done]. intros _ o' Ho'. injection Ho' as <-. intros L. apply instance_rank in L. congruence.
Qed.
Lemma dict_get_del_same {V} (d : dict nat V) k : NoDup (dict_keys d) -> dict_get k (dict_del k d) = None.
Proof.
  induction d as [|[k' v'] d IH]; intros H; cbn in *; [done|]. apply NoDup_cons in H as [H1 H2].
  destruct (decide (k = k')) as [->|Hne].
  - clear IH H2. induction d as [|[k v] d IH]; cbn in *; [done|]. apply not_elem_of_cons in H1 as [H1 H2].
    rewrite decide_False by done. auto.
  - cbn. rewrite decide_False by done. auto.
Qed.
Lemma clear_portals_inv l s s' r : clear_portals l s = (s', r) ->
  known s' = known s /\ opened s' = opened s /\ launched s' = launched s /\ dflt s' = dflt s /\ dflt_calls s' = dflt_calls s /\
  length (heap s') = length (heap s) /\ keeps s s' /\ (forall j, j ∉ l -> heap s' !! j = heap s !! j) /\
  (NoDup l -> r = None <-> forall i o, i ∈ l -> heap s !! i = Some o -> clearable o).
Proof.
  revert s. induction l as [|i l IH]; intros s H; cbn in H.
  - injection H as <- <-. split_and!; try done; [apply keeps_refl|]. intros _. split; [|done]. intros _ i o Hi. inversion Hi.
  - destruct (clear_portal i s) as [s1 r1] eqn:E. apply clear_portal_inv in E as (A1 & A2 & A3 & A4 & A5 & A6 & A7 & A8 & A9 & _).
    destruct r1 as [e|].
    + injection H as <- <-. split_and!; try done.
      * intros j Hj. apply not_elem_of_cons in Hj as [Hj _]. auto.
      * intros _. split; [done|]. intros H. destruct A9 as [_ A9]. discriminate A9. intros o Ho. eapply H; [left|done].
    + destruct (IH _ H) as (B1 & B2 & B3 & B4 & B5 & B6 & B7 & B8 & B9). split_and!; try congruence.
      * eapply keeps_trans; eauto.
      * intros j Hj. apply not_elem_of_cons in Hj as [Hj1 Hj2]. rewrite B8, A8 by done. done.
      * intros [N1 N2]%NoDup_cons. rewrite (B9 N2). split.
        -- intros G j o [->|Hj]%elem_of_cons Ho; [apply A9; done|]. eapply G; [exact Hj|]. rewrite A8; [done|]. intros ->. done.
        -- intros G j o Hj Ho. eapply G; [right; exact Hj|]. rewrite <- A8; [done|]. intros ->. done.
Qed.

(** ** Histories *)
Definition wf (s : cstate) : Prop :=
  NoDup (known s) /\ (forall i, i ∈ known s -> i < length (heap s)) /\ (dflt_calls s = 0 -> dflt s = None).
Lemma wf_fresh recs n : wf (fresh_process recs n).
Proof. split_and!; cbn; [constructor|intros i Hi; inversion Hi|done]. Qed.

Lemma construct_keeps c a f s s' r : construct c a f s = (s', r) -> keeps s s' /\ known s ⊆ known s'.
Proof.
  intros H. apply construct_frame in H as (G1 & G2 & G3 & G4 & G5 & o & Ho & Hc & Ha & Hcl & Hk). split.
  - split; [lia|]. intros j o' Hj. exists o'. split; [|apply same_obj_refl]. rewrite G5; [done|]. apply lookup_lt_is_Some. eauto.
  - destruct Hk as [(-> & _)|(-> & _)]; set_solver.
Qed.
Lemma construct_wf c a f s s' r : construct c a f s = (s', r) -> wf s -> wf s'.
Proof.
  intros H (W1 & W2 & W3). apply construct_frame in H as (G1 & G2 & G3 & G4 & G5 & o & Ho & Hc & Ha & Hcl & Hk).
  unfold wf. rewrite G2, G3, G4. destruct Hk as [(-> & _)|(-> & _)]; split_and!; try done.
  - intros i Hi. specialize (W2 _ Hi). lia.
  - apply NoDup_app. split_and!; [done| |apply NoDup_singleton]. intros x Hx Hx'. apply elem_of_list_singleton in Hx' as ->.
    specialize (W2 _ Hx). lia.
  - intros i [Hi|Hi]%elem_of_app; [specialize (W2 _ Hi); lia|]. apply elem_of_list_singleton in Hi as ->. lia.
Qed.
Definition with_new_default (s : cstate) : cstate := with_dflt (Some (length (heap s))) 1 s.
Lemma default_portal_cases f s : wf s ->
  (dflt_calls s = 0 /\ dflt s = None /\ default_portal f s = construct DefaultLocalPortal default_args f (with_new_default s)) \/
  (0 < dflt_calls s /\ exists i, dflt s = Some i /\ default_portal f s = (s, Ok i)) \/
  (0 < dflt_calls s /\ dflt s = None /\ exists s', default_portal f s = (s', Ok (length (heap s))) /\
     s' = with_dflt (Some (length (heap s))) (dflt_calls s) (with_heap (heap s ++ [new_obj DefaultLocalPortal default_args]) s)).
Proof.
  intros (_ & _ & W3). unfold default_portal. destruct (decide (dflt_calls s = 0)) as [E|E].
  - left. rewrite (W3 E). split_and!; try done. cbn. rewrite E. cbn. reflexivity.
  - right. destruct (dflt s) as [i|] eqn:Ed.
    + left. split; [lia|]. exists i. split; [done|]. rewrite decide_True by lia. done.
    + right. split; [lia|]. split; [done|]. eexists. split; [|reflexivity]. cbn. rewrite decide_True by lia. done.
Qed.
Lemma default_portal_keeps f s s' r : default_portal f s = (s', r) -> wf s -> keeps s s' /\ known s ⊆ known s' /\ wf s'.
Proof.
  intros H W. destruct (default_portal_cases f s W) as [(E1 & E2 & E)|[(E1 & i & E2 & E)|(E1 & E2 & s1 & E & E3)]]; rewrite E in H.
  - assert (W' : wf (with_new_default s)) by (destruct W as (W1 & W2 & W3); split_and!; done).
    destruct (construct_keeps _ _ _ _ _ _ H) as [K1 K2]. pose proof (construct_wf _ _ _ _ _ _ H W').
    split_and!; try done. 
  - injection H as <- <-. split_and!; try done. apply keeps_refl.
  - injection H as <- <-. subst s1. destruct W as (W1 & W2 & W3). split; [|split; [done|]].
    + split; [cbn; rewrite app_length; cbn; lia|]. intros j o Hj. exists o. split; [|apply same_obj_refl]. cbn. apply lookup_app_l_Some. done.
    + split; [done|]. split; [|cbn; lia]. cbn. intros i Hi. rewrite app_length. cbn. specialize (W2 _ Hi). lia.
Qed.

Lemma clear_all_inv cls s s' r : clear_all cls s = (s', r) -> wf s ->
  keeps s s' /\ wf s' /\
  match r with
  | Ok _ => known s' = [] /\ opened s' = [] /\ (forall i o, i ∈ known s -> heap s !! i = Some o -> clearable o)
  | Err e => known s' = known s /\ opened s' = opened s /\ ~ (forall i o, i ∈ known s -> heap s !! i = Some o -> clearable o)
  end.
Proof.
  unfold clear_all. intros H (W1 & W2 & W3). set (s0 := match cls with DefaultLocalPortal => _ | _ => _ end) in H.
  assert (E0 : heap s0 = heap s /\ known s0 = known s /\ opened s0 = opened s /\ (dflt_calls s0 = 0 -> dflt s0 = None)).
  { unfold s0. destruct cls; split_and!; done. }
  clearbody s0. destruct E0 as (E1 & E2 & E3 & E4).
  destruct (clear_portals (known s0) s0) as [s1 r1] eqn:E. apply clear_portals_inv in E as (A1 & A2 & A3 & A4 & A5 & A6 & A7 & A8 & A9).
  rewrite E2 in A9. specialize (A9 W1). rewrite E1 in A9.
  assert (K : keeps s s1) by (eapply keeps_trans; [apply keeps_heap; exact E1|exact A7]).
  destruct r1 as [e|]; injection H as <- <-.
  - split; [done|]. split; [|split; [congruence|split; [congruence|]]].
    + split_and!; [rewrite A1, E2; done| |rewrite A4, A5; done]. intros i Hi. rewrite A6, E1. apply W2. rewrite <- E2, <- A1. done.
    + intros H. apply A9 in H. done.
  - split; [done|]. split; [|split; [done|split; [done|apply A9; done]]].
    split; [cbn; constructor|]. split; [cbn; intros i Hi; inversion Hi|]. cbn. rewrite A4, A5. done.
Qed.
Lemma not_all_clearable s : wf s -> ~ (forall i o, i ∈ known s -> heap s !! i = Some o -> clearable o) -> broken s.
Proof.
  intros (_ & W2 & _) H.
  assert (D : Exists (fun i => forall o, heap s !! i = Some o -> ~ clearable o) (known s) \/ (forall i o, i ∈ known s -> heap s !! i = Some o -> clearable o)).
  { clear H. induction (known s) as [|i l IH]; [right; intros i o Hi; inversion Hi|].
    destruct (IH ltac:(intros j Hj; apply W2; right; done)) as [IH'|IH']; [left; by right|].
    destruct (heap s !! i) as [o|] eqn:E.
    - destruct (clearable_dec o) as [C|C].
      + right. intros j o' [->|Hj]%elem_of_cons Ho; [|by eapply IH']. rewrite E in Ho. injection Ho as <-. done.
      + left. left. intros o' Ho. rewrite E in Ho. injection Ho as <-. done.
    - exfalso. apply lookup_ge_None in E. specialize (W2 i ltac:(left)). lia. }
  destruct D as [D|D]; [|done]. apply Exists_exists in D as (i & Hi & D).
  destruct (lookup_lt_is_Some_2 _ _ (W2 _ Hi)) as [o Ho]. exists i, o. split; [done|]. split; [done|]. specialize (D o Ho).
  unfold clearable in D. destruct (decide (rank SwarmingPortal <= rank (o_class o))) as [L|L]; [|exfalso; apply D; intros; done].
  split; [done|]. destruct (decide (SNodeId ∈ o_has o)) as [M|M]; [|left; done]. right. destruct (o_cleared o); [done|]. exfalso. apply D. done.
Qed.
Lemma broken_not_clearable s : broken s -> ~ (forall i o, i ∈ known s -> heap s !! i = Some o -> clearable o).
Proof. intros (i & o & Hi & Ho & L & B) H. destruct (H i o Hi Ho L) as [H1 H2]. destruct B as [B|B]; [done|]. congruence. Qed.
Lemma clear_all_fails_iff cls s : wf s -> is_ok (snd (clear_all cls s)) = false <-> broken s.
Proof.
  intros W. destruct (clear_all cls s) as [s' r] eqn:E. apply clear_all_inv in E as (_ & _ & H); [|done]. cbn. destruct r as [u|e]; cbn.
  - split; [done|]. intros B. apply broken_not_clearable in B. destruct H as (_ & _ & H). done.
  - split; [|done]. intros _. destruct H as (_ & _ & H). apply not_all_clearable; done.
Qed.
Lemma broken_keeps s s' : keeps s s' -> known s ⊆ known s' -> broken s -> broken s'.
Proof.
  intros [_ K] Hk (i & o & Hi & Ho & L & B). destruct (K _ _ Ho) as (o' & Ho' & S1 & S2 & S3 & S4 & S5).
  exists i, o'. split; [auto|]. split; [done|]. rewrite S1, S3. split; [done|]. destruct B; [left; done|right; auto].
Qed.

Lemma ex_fst {A} (r : cstate * res A) : fst (match r with (s', Ok _) => (s', None) | (s', Err e) => (s', Some e) end) = fst r.
Proof. destruct r as [s' [a|e]]; done. Qed.

(** [follow s s']: the objects of [s] are kept, and what was known stays known unless a reset succeeded, which needs
    everything known to be clearable. *)
Definition follow (s s' : cstate) : Prop := keeps s s' /\ wf s' /\ (broken s -> broken s').
Lemma follow_same s s' : heap s' = heap s -> known s' = known s -> dflt s' = dflt s -> dflt_calls s' = dflt_calls s -> wf s -> follow s s'.
Proof.
  intros E1 E2 E3 E4 (W1 & W2 & W3). split; [apply keeps_heap; done|]. split.
  - unfold wf. rewrite E1, E2, E3, E4. done.
  - apply broken_keeps; [apply keeps_heap; done|rewrite E2; done].
Qed.
Lemma follow_refl s : wf s -> follow s s. Proof. apply follow_same; done. Qed.
Lemma follow_trans s1 s2 s3 : follow s1 s2 -> follow s2 s3 -> follow s1 s3.
Proof. intros (A1 & A2 & A3) (B1 & B2 & B3). split; [eapply keeps_trans; eauto|]. split; auto. Qed.
Lemma construct_follow c a f s s' r : construct c a f s = (s', r) -> wf s -> follow s s'.
Proof.
  intros H W. destruct (construct_keeps _ _ _ _ _ _ H). split; [done|]. split; [eapply construct_wf; eauto|]. by apply broken_keeps.
Qed.
Lemma default_follow f s s' r : default_portal f s = (s', r) -> wf s -> follow s s'.
Proof.
  intros H W. destruct (default_portal_keeps _ _ _ _ H W) as (K1 & K2 & K3). split; [done|]. split; [done|]. by apply broken_keeps.
Qed.
Lemma clear_all_follow cls s s' r : clear_all cls s = (s', r) -> wf s -> follow s s'.
Proof.
  intros H W. pose proof (clear_all_fails_iff cls s W) as F. rewrite H in F. cbn in F.
  apply clear_all_inv in H as (K & W' & H); [|done]. split; [done|]. split; [done|]. intros B.
  destruct r as [u|e]; [apply F in B; done|]. destruct H as (H & _ & _). apply (broken_keeps s); [done|rewrite H; done|done].
Qed.
Lemma initialize_follow l f s s' r : initialize l f s = (s', r) -> wf s -> follow s s'.
Proof.
  unfold initialize. intros H W. destruct (clear_all BasicPortal s) as [s1 r1] eqn:E1.
  pose proof (clear_all_follow _ _ _ _ E1 W) as F1. destruct r1 as [u|e]; [|injection H as <- <-; done].
  destruct (construct _ _ _ _) as [s2 r2] eqn:E2. pose proof (construct_follow _ _ _ _ _ _ E2 (proj1 (proj2 F1))) as F2.
  pose proof (follow_trans _ _ _ F1 F2) as F.
  destruct r2 as [i|e]; injection H as <- <-; [|done]. eapply follow_trans; [exact F|]. apply follow_same; try done. apply F2.
Qed.
Lemma cstep_follow s o s' e : cstep s o = (s', e) -> wf s -> follow s s'.
Proof.
  intros H W. destruct o as [c a f|f|p|p|cls|l f|l n f|f]; cbn [cstep] in H.
  - assert (H' : (s' = s) \/ exists r, construct c a f s = (s', r)).
    { destruct c; try (right; destruct (construct _ a f s) as [s1 [i|e1]] eqn:E; injection H as <- <-; eauto; fail). left. congruence. }
    destruct H' as [->|[r H']]; [apply follow_refl; done|]. eapply construct_follow; eauto.
  - destruct (default_portal f s) as [s1 [i|e1]] eqn:E; injection H as <- <-; eapply default_follow; eauto.
  - destruct (decide _); injection H as <- <-; [apply follow_same|apply follow_refl]; done.
  - destruct (opened s) as [|q l]; [injection H as <- <-; apply follow_refl; done|].
    destruct (decide _); injection H as <- <-; [apply follow_same|apply follow_refl]; done.
  - destruct (clear_all cls s) as [s1 [i|e1]] eqn:E; injection H as <- <-; eapply clear_all_follow; eauto.
  - destruct (initialize l f s) as [s1 [i|e1]] eqn:E; injection H as <- <-; eapply initialize_follow; eauto.
  - destruct (connect_local l n f s) as [s1 r1] eqn:E. assert (s1 = s') as -> by (destruct r1; congruence). clear H.
    unfold connect_local in E. destruct (construct _ _ _ _) as [s2 r2] eqn:E2.
    assert (s2 = s') as -> by (destruct r2; congruence). eapply construct_follow; eauto.
  - destruct (connect_default f s) as [s1 r1] eqn:E. assert (s1 = s') as -> by (destruct r1; congruence). clear H.
    unfold connect_default in E. destruct (default_portal f s) as [s2 r2] eqn:E2.
    assert (s2 = s') as -> by (destruct r2; congruence). eapply default_follow; eauto.
Qed.
Lemma crun_follow ops s s' es : crun s ops = (s', es) -> wf s -> follow s s'.
Proof.
  revert s s' es. induction ops as [|o ops IH]; intros s s' es H W; cbn in H.
  - injection H as <- <-. apply follow_refl. done.
  - destruct (cstep s o) as [s1 e] eqn:E1, (crun s1 ops) as [s2 es2] eqn:E2. injection H as <- <-.
    pose proof (cstep_follow _ _ _ _ E1 W) as F1. eapply follow_trans; [exact F1|]. eapply IH; eauto. apply F1.
Qed.

(** Once something known cannot be cleared, resets and initialize fail for ever. *)
Lemma stuck_for_ever ops s s' es cls loc f : wf s -> broken s -> crun s ops = (s', es) ->
  is_ok (snd (clear_all cls s')) = false /\ is_ok (snd (initialize loc f s')) = false.
Proof.
  intros W B H. apply crun_follow in H as (_ & W' & HB); [|done]. specialize (HB B). split; [apply clear_all_fails_iff; done|].
  unfold initialize. pose proof (proj2 (clear_all_fails_iff BasicPortal s' W') HB) as E. destruct (clear_all BasicPortal s') as [s1 [u|e]]; [done|done].
Qed.

(** ** Histories in which no construction failed *)
Definition all_complete (s : cstate) : Prop := forall i, i ∈ known s -> exists o, heap s !! i = Some o /\ complete o.
Lemma complete_clearable o : complete o -> clearable o.
Proof. intros [H1 H2] L. split; [|done]. apply H2. exact L. Qed.
Lemma all_complete_not_broken s : all_complete s -> ~ broken s.
Proof.
  intros A B. apply broken_not_clearable in B. apply B. intros i o Hi Ho. destruct (A _ Hi) as (o' & Ho' & C).
  rewrite Ho in Ho'. injection Ho' as <-. by apply complete_clearable.
Qed.
Lemma construct_complete c a f s s' i : construct c a f s = (s', Ok i) -> wf s -> all_complete s -> all_complete s'.
Proof.
  intros H (_ & W2 & _) A. apply construct_ok in H as (Hi & Hk & _ & _ & _ & _ & Hh & o & Ho & _ & _ & Hc).
  intros j Hj. rewrite Hk in Hj. apply elem_of_app in Hj as [Hj|Hj].
  - rewrite Hh by (by apply W2). apply A. done.
  - apply elem_of_list_singleton in Hj as ->. eauto.
Qed.
Lemma default_complete f s s' i : default_portal f s = (s', Ok i) -> wf s -> all_complete s -> all_complete s'.
Proof.
  intros H W A. destruct (default_portal_cases f s W) as [(E1 & E2 & E)|[(E1 & j & E2 & E)|(E1 & E2 & s1 & E & E3)]]; rewrite E in H.
  - eapply construct_complete; [exact H| |exact A]. destruct W as (W1 & W2 & W3); split_and!; done.
  - injection H as <- <-. done.
  - injection H as <- <-. subst s1. intros j Hj. cbn in *. destruct (A j Hj) as (o & Ho & C). exists o. split; [|done]. by apply lookup_app_l_Some.
Qed.
Lemma cstep_complete s o s' e : cstep s o = (s', e) -> wf s -> all_complete s -> (constructs o = true -> e = None) -> all_complete s'.
Proof.
  intros H W A Hc. destruct o as [c a f|f|p|p|cls|l f|l n f|f]; cbn [cstep constructs] in *.
  - specialize (Hc eq_refl) as ->.
    assert (H' : exists i, construct c a f s = (s', Ok i)).
    { destruct c; try (destruct (construct _ a f s) as [s1 [i|e1]] eqn:E; [injection H as <-; eauto; fail|congruence]). congruence. }
    destruct H' as [i H']. eapply construct_complete; eauto.
  - specialize (Hc eq_refl) as ->. destruct (default_portal f s) as [s1 [i|e1]] eqn:E; [|congruence]. injection H as <-. eapply default_complete; eauto.
  - destruct (decide _); injection H as <- <-; done.
  - destruct (opened s) as [|q l]; [injection H as <- <-; done|]. destruct (decide _); injection H as <- <-; done.
  - destruct (clear_all cls s) as [s1 r1] eqn:E. assert (s1 = s') as -> by (destruct r1; congruence). clear H Hc.
    pose proof (clear_all_fails_iff cls s W) as F. rewrite E in F. cbn in F. apply clear_all_inv in E as (_ & _ & R); [|done].
    destruct r1 as [u|e1].
    + destruct R as (R & _ & _). intros i Hi. rewrite R in Hi. inversion Hi.
    + exfalso. eapply all_complete_not_broken; [exact A|]. apply F. done.
  - specialize (Hc eq_refl) as ->. destruct (initialize l f s) as [s1 [i|e1]] eqn:E; [|congruence]. injection H as <-.
    unfold initialize in E. destruct (clear_all BasicPortal s) as [s2 [u|e2]] eqn:E1; [|congruence].
    destruct (construct _ _ _ _) as [s3 [i3|e3]] eqn:E3; [|congruence]. apply clear_all_inv in E1 as (_ & W1 & R & _ & _); [|done].
    injection E as <- _. assert (A3 : all_complete s3).
    { eapply construct_complete; [exact E3|exact W1|]. intros j Hj. rewrite R in Hj. inversion Hj. }
    exact A3.
  - specialize (Hc eq_refl) as ->. destruct (connect_local l n f s) as [s1 r1] eqn:E. assert (s1 = s') as -> by (destruct r1; congruence).
    unfold connect_local in E. destruct (construct _ _ _ _) as [s2 [i2|e2]] eqn:E2.
    + injection E as <- _. eapply construct_complete; eauto.
    + injection E as <- <-. congruence.
  - specialize (Hc eq_refl) as ->. destruct (connect_default f s) as [s1 r1] eqn:E. assert (s1 = s') as -> by (destruct r1; congruence).
    unfold connect_default in E. destruct (default_portal f s) as [s2 [i2|e2]] eqn:E2.
    + injection E as <- _. eapply default_complete; eauto.
    + injection E as <- <-. congruence.
Qed.
Lemma crun_complete ops s s' es : crun s ops = (s', es) -> wf s -> all_complete s -> constructions_succeed ops es -> wf s' /\ all_complete s'.
Proof.
  revert s s' es. induction ops as [|o ops IH]; intros s s' es H W A C; cbn in H.
  - injection H as <- <-. done.
  - destruct (cstep s o) as [s1 e] eqn:E1, (crun s1 ops) as [s2 es2] eqn:E2. injection H as <- <-. inversion C as [|? ? ? ? C1 C2]; subst.
    eapply IH; [exact E2| | |exact C2]; [eapply cstep_follow; eauto|eapply cstep_complete; eauto].
Qed.

(** ** Records of runtime ids, started workers *)
Lemma nodup_dict_set {V} k (v : V) (d : dict nat V) : NoDup (dict_keys d) -> NoDup (dict_keys (dict_set k v d)).
Proof.
  assert (Hk : forall d : dict nat V, forall x, x ∈ dict_keys (dict_set k v d) -> x = k \/ x ∈ dict_keys d).
  { clear. induction d as [|[k' v'] d IH]; intros x H; cbn in *.
    { apply elem_of_list_singleton in H. by left. }
    destruct (decide (k = k')) as [->|Hne]; cbn in *; apply elem_of_cons in H as [->|H];
      [by left|right; by right|right; left|]. destruct (IH _ H) as [->|H']; [by left|right; by right]. }
  induction d as [|[k' v'] d IH]; intros H; cbn in *; [apply NoDup_singleton|]. apply NoDup_cons in H as [H1 H2].
  destruct (decide (k = k')) as [->|Hne]; cbn; apply NoDup_cons; [done|]. split; [|auto]. intros Hx. apply Hk in Hx as [->|Hx]; done.
Qed.
Lemma nodup_dict_del {V} k (d : dict nat V) : NoDup (dict_keys d) -> NoDup (dict_keys (dict_del k d)).
Proof.
  assert (Hk : forall d : dict nat V, forall x, x ∈ dict_keys (dict_del k d) -> x ∈ dict_keys d).
  { clear. induction d as [|[k' v'] d IH]; intros x H; cbn in *; [done|].
    destruct (decide (k = k')) as [->|Hne]; cbn in *; [by right|]. apply elem_of_cons in H as [->|H]; [left|right; auto]. }
  induction d as [|[k' v'] d IH]; intros H; cbn in *; [done|]. apply NoDup_cons in H as [H1 H2].
  destruct (decide (k = k')) as [->|Hne]; cbn; [done|]. apply NoDup_cons. split; [|auto]. intros Hx. apply Hk in Hx. done.
Qed.
Definition worker_params (wa : args) : Prop := a_workers wa = Some 0%Z /\ exists r, a_rid wa = Some r.
(** what every step keeps: records have unique keys, and workers are only started with worker parameters *)
Definition tidy (s : cstate) : Prop := NoDup (dict_keys (records s)) /\ Forall worker_params (launched s).
Lemma apply_stage_tidy st i a s : tidy s -> tidy (apply_stage st i a s).
Proof.
  intros [T1 T2]. split.
  - rewrite apply_records. destruct (a_rid a); [done|]. destruct (decide _); [|done]. by apply nodup_dict_set.
  - destruct (decide (st = SLaunch)) as [->|Hne]; [|rewrite apply_launched_other; done]. cbn [apply_stage].
    destruct (heap s !! i) as [o|], (a_workers a) as [n|]; cbn; try done. apply Forall_app. split; [done|].
    apply Forall_replicate. split; [done|]. cbn. eauto.
Qed.
Lemma apply_stages_tidy l i a s : tidy s -> tidy (apply_stages l i a s).
Proof. revert s. induction l as [|st l IH]; intros s T; cbn; [done|]. apply IH. by apply apply_stage_tidy. Qed.
Lemma construct_tidy c a f s s' r : construct c a f s = (s', r) -> tidy s -> tidy s'.
Proof. intros H T. apply construct_inv in H as (d & rest & _ & -> & _). apply apply_stages_tidy. done. Qed.
Lemma default_tidy f s s' r : default_portal f s = (s', r) -> wf s -> tidy s -> tidy s'.
Proof.
  intros H W T. destruct (default_portal_cases f s W) as [(E1 & E2 & E)|[(E1 & i & E2 & E)|(E1 & E2 & s1 & E & E3)]]; rewrite E in H.
  - eapply construct_tidy; eauto.
  - injection H as <- <-. done.
  - injection H as <- <-. subst s1. done.
Qed.
Lemma clear_portal_tidy i s : tidy s -> tidy (fst (clear_portal i s)).
Proof.
  intros [T1 T2]. unfold clear_portal. destruct (heap s !! i) as [o|]; [|done]. destruct (instance_of _ _); [|done].
  destruct (_ && _); [|done]. cbn. split; cbn; [by apply nodup_dict_del|done].
Qed.
Lemma clear_portals_tidy l s s' r : clear_portals l s = (s', r) -> tidy s -> tidy s'.
Proof.
  revert s. induction l as [|i l IH]; intros s H T; cbn in H; [injection H as <- <-; done|].
  pose proof (clear_portal_tidy i s T) as T1. destruct (clear_portal i s) as [s1 [e|]] eqn:E; [injection H as <- <-; done|]. eapply IH; eauto.
Qed.
Lemma clear_all_tidy cls s s' r : clear_all cls s = (s', r) -> tidy s -> tidy s'.
Proof.
  unfold clear_all. intros H T. set (s0 := match cls with DefaultLocalPortal => _ | _ => _ end) in H.
  assert (T0 : tidy s0) by (unfold s0; destruct cls; done). clearbody s0.
  destruct (clear_portals (known s0) s0) as [s1 [e|]] eqn:E; pose proof (clear_portals_tidy _ _ _ _ E T0) as [T1 T2]; injection H as <- <-; done.
Qed.
Lemma cstep_tidy s o s' e : cstep s o = (s', e) -> wf s -> tidy s -> tidy s'.
Proof.
  intros H W T. destruct o as [c a f|f|p|p|cls|l f|l n f|f]; cbn [cstep] in H.
  - assert (H' : (s' = s) \/ exists r, construct c a f s = (s', r)).
    { destruct c; try (right; destruct (construct _ a f s) as [s1 [i|e1]] eqn:E; injection H as <- <-; eauto; fail). left. congruence. }
    destruct H' as [->|[r H']]; [done|]. eapply construct_tidy; eauto.
  - destruct (default_portal f s) as [s1 [i|e1]] eqn:E; injection H as <- <-; eapply default_tidy; eauto.
  - destruct (decide _); injection H as <- <-; done.
  - destruct (opened s) as [|q l]; [injection H as <- <-; done|]. destruct (decide _); injection H as <- <-; done.
  - destruct (clear_all cls s) as [s1 [i|e1]] eqn:E; injection H as <- <-; eapply clear_all_tidy; eauto.
  - destruct (initialize l f s) as [s1 r1] eqn:E. assert (s1 = s') as -> by (destruct r1; congruence). clear H.
    unfold initialize in E. destruct (clear_all BasicPortal s) as [s2 [u|e2]] eqn:E1; pose proof (clear_all_tidy _ _ _ _ E1 T) as T2;
      [|injection E as <- <-; done].
    destruct (construct _ _ _ _) as [s3 [i3|e3]] eqn:E3; pose proof (construct_tidy _ _ _ _ _ _ E3 T2) as T3; injection E as <- <-; done.
  - destruct (connect_local l n f s) as [s1 r1] eqn:E. assert (s1 = s') as -> by (destruct r1; congruence). clear H.
    unfold connect_local in E. destruct (construct _ _ _ _) as [s2 r2] eqn:E2.
    assert (s2 = s') as -> by (destruct r2; congruence). eapply construct_tidy; eauto.
  - destruct (connect_default f s) as [s1 r1] eqn:E. assert (s1 = s') as -> by (destruct r1; congruence). clear H.
    unfold connect_default in E. destruct (default_portal f s) as [s2 r2] eqn:E2.
    assert (s2 = s') as -> by (destruct r2; congruence). eapply default_tidy; eauto.
Qed.
Lemma crun_tidy ops s s' es : crun s ops = (s', es) -> wf s -> tidy s -> tidy s'.
Proof.
  revert s s' es. induction ops as [|o ops IH]; intros s s' es H W T; cbn in H; [injection H as <- <-; done|].
  destruct (cstep s o) as [s1 e] eqn:E1, (crun s1 ops) as [s2 es2] eqn:E2. injection H as <- <-.
  eapply IH; [exact E2|eapply cstep_follow; eauto|eapply cstep_tidy; eauto].
Qed.
Lemma tidy_fresh : tidy new_process. Proof. split; cbn; constructor. Qed.

(** A successful reset clears what was known and deletes its records. *)
Lemma clear_portal_ok i s s' o : clear_portal i s = (s', None) -> heap s !! i = Some o -> NoDup (dict_keys (records s)) ->
  (exists o', heap s' !! i = Some o' /\ o_cleared o' = true) /\
  (rank SwarmingPortal <= rank (o_class o) -> dict_get (a_loc (o_args o)) (records s') = None).
Proof.
  unfold clear_portal. intros H Ho N. rewrite Ho in H. destruct (instance_of _ _) eqn:Ei.
  - destruct (_ && _); [|done]. injection H as <-. cbn. split.
    + rewrite list_lookup_alter, Ho. cbn. eauto.
    + intros _. by apply dict_get_del_same.
  - injection H as <-. split; [cbn; rewrite list_lookup_alter, Ho; cbn; eauto|]. intros L. apply instance_rank in L. congruence.
Qed.
Lemma clear_portals_none_stays l s s' r k : clear_portals l s = (s', r) -> dict_get k (records s) = None -> dict_get k (records s') = None.
Proof.
  revert s. induction l as [|i l IH]; intros s H Hk; cbn in H; [injection H as <- <-; done|].
  destruct (clear_portal i s) as [s1 r1] eqn:E. apply clear_portal_inv in E as (_ & _ & _ & _ & _ & _ & _ & _ & _ & A).
  destruct r1; [injection H as <- <-; auto|]. eapply IH; eauto.
Qed.
Lemma clear_portals_ok l s s' : clear_portals l s = (s', None) -> NoDup l -> NoDup (dict_keys (records s)) ->
  forall i o, i ∈ l -> heap s !! i = Some o ->
  (exists o', heap s' !! i = Some o' /\ o_cleared o' = true) /\
  (rank SwarmingPortal <= rank (o_class o) -> dict_get (a_loc (o_args o)) (records s') = None).
Proof.
  revert s. induction l as [|j l IH]; intros s H Nl N i o Hi Ho; cbn in H; [inversion Hi|].
  destruct (clear_portal j s) as [s1 [e|]] eqn:E; [done|]. apply NoDup_cons in Nl as [N1 N2].
  pose proof (clear_portal_inv _ _ _ _ E) as (_ & _ & _ & _ & _ & _ & _ & A8 & _ & _).
  apply elem_of_cons in Hi as [->|Hi].
  - destruct (clear_portal_ok _ _ _ _ E Ho N) as [(o' & Ho' & C) R]. split.
    + apply clear_portals_inv in H as (_ & _ & _ & _ & _ & _ & _ & B8 & _). exists o'. rewrite B8 by done. done.
    + intros L. eapply clear_portals_none_stays; [exact H|]. auto.
  - eapply IH; [exact H|done| |done|].
    + assert (T : tidy (with_launched [] s)) by (split; [done|constructor]).
      pose proof (clear_portal_tidy j s) as X. rewrite E in X. cbn in X.
      clear -E N. unfold clear_portal in E. destruct (heap s !! j) as [o|]; [|injection E as <-; done]. destruct (instance_of _ _).
      * destruct (_ && _); [|done]. injection E as <-. cbn. by apply nodup_dict_del.
      * injection E as <-. done.
    + rewrite A8; [done|]. intros ->. done.
Qed.
Lemma clear_all_ok cls s s' u : clear_all cls s = (s', Ok u) -> wf s -> NoDup (dict_keys (records s)) ->
  forall i o, i ∈ known s -> heap s !! i = Some o ->
  (exists o', heap s' !! i = Some o' /\ o_cleared o' = true) /\
  (rank SwarmingPortal <= rank (o_class o) -> dict_get (a_loc (o_args o)) (records s') = None).
Proof.
  unfold clear_all. intros H (W1 & W2 & W3) N i o Hi Ho. set (s0 := match cls with DefaultLocalPortal => _ | _ => _ end) in H.
  assert (E0 : heap s0 = heap s /\ known s0 = known s /\ records s0 = records s) by (unfold s0; destruct cls; done).
  clearbody s0. destruct E0 as (E1 & E2 & E3).
  destruct (clear_portals (known s0) s0) as [s1 [e|]] eqn:E; [done|]. injection H as <- _.
  assert (R : (exists o', heap s1 !! i = Some o' /\ o_cleared o' = true) /\
     (rank SwarmingPortal <= rank (o_class o) -> dict_get (a_loc (o_args o)) (records s1) = None)); [|exact R].
  rewrite E2 in E. eapply clear_portals_ok; [exact E|done|rewrite E3; done|done|rewrite E1; done].
Qed.

(** a successful swarming construction *)
Lemma swarming_stages c : rank SwarmingPortal <= rank c -> stages_of c = [SRoot; SLogs; SData; SIslands; SPure; SNodes; SNodeId] ++ [SRid] ++ [SEnv] ++ [SLaunch].
Proof. intros H. destruct c; cbn in H; try lia; vm_compute; reflexivity. Qed.
Lemma construct_swarming c a f s s' i n : construct c a f s = (s', Ok i) -> rank SwarmingPortal <= rank c -> a_workers a = Some n ->
  exists o, heap s' !! i = Some o /\ o_rid o = chosen_rid a s /\
    records s' = match a_rid a with None => dict_set (a_loc a) (next_rid s) (records s) | Some _ => records s end /\
    launched s' = launched s ++ replicate (Z.to_nat n) (worker_args a (o_rid o)).
Proof.
  intros H L Hn. apply construct_inv in H as (d & rest & H1 & -> & _ & -> & ->). rewrite app_nil_r in H1. subst d. rewrite (swarming_stages c L).
  unfold apply_stages. rewrite !fold_left_app.
  set (s0 := with_heap (heap s ++ [new_obj c a]) s).
  fold (apply_stages [SRoot; SLogs; SData; SIslands; SPure; SNodes; SNodeId] (length (heap s)) a s0).
  set (l := [SRoot; SLogs; SData; SIslands; SPure; SNodes; SNodeId]).
  destruct (apply_stages_obj l (length (heap s)) a s0 (new_obj c a)) as (r & Hr & _); [apply lookup_new|].
  destruct (apply_stages_records l (length (heap s)) a s0) as [R1 R2]; [unfold l; set_solver|].
  pose proof (apply_stages_launched l (length (heap s)) a s0 ltac:(unfold l; set_solver)) as R3.
  set (s1 := apply_stages l (length (heap s)) a s0) in *. clearbody s1. cbn [fold_left].
  pose proof (apply_obj SRid _ a _ _ Hr) as H2. rewrite decide_True in H2 by done.
  pose proof (apply_obj SEnv _ a _ _ H2) as H3. rewrite decide_False in H3 by done.
  pose proof (apply_obj SLaunch _ a _ _ H3) as H4. rewrite decide_False in H4 by done.
  cbn [o_class o_args o_has o_cleared o_rid new_obj] in H2, H3, H4. eexists. split; [exact H4|]. cbn [o_rid]. split_and!.
  - unfold chosen_rid. rewrite R2. done.
  - rewrite !apply_records. destruct (a_rid a); [done|]. rewrite decide_False, decide_False, decide_True by done. rewrite R1, R2. done.
  - rewrite (apply_launched SLaunch _ a _ _ n H3 Hn). rewrite decide_True by done. f_equal.
    rewrite (apply_launched SEnv _ a _ _ n H2 Hn), (apply_launched SRid _ a _ _ n Hr Hn). rewrite !decide_False by done.
    rewrite !app_nil_r. done.
Qed.

Lemma describe_complete i s o : heap s !! i = Some o -> complete o -> describe_portal i s = Ok i.
Proof.
  intros Ho [C1 C2]. unfold describe_portal. rewrite Ho, C1.
  rewrite (proj2 (forallb_forall _ _)); [done|]. intros st Hst. apply filter_In in Hst as [Hst _]. apply elem_of_list_In in Hst.
  apply bool_decide_eq_true. apply C2. apply stages_of_elem. done.
Qed.
Lemma describe_all s : all_complete s -> describe s = match known s with [] => Err ValueError | _ => Ok (known s) end.
Proof.
  unfold all_complete, describe. intros A. assert (H : describe_each (known s) s = Ok (known s)).
  { revert A. induction (known s) as [|i l IH]; intros A; [done|]. cbn. destruct (A i ltac:(left)) as (o & Ho & C).
    rewrite (describe_complete i s o Ho C). cbn. rewrite IH; [done|]. intros j Hj. apply A. by right. }
  destruct (known s); done.
Qed.
