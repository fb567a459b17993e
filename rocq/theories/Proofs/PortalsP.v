From Verif.Lib Require Import Py.
From Verif.Model Require Import Portals.
From Verif.Spec Require Import PortalSpec.
From Verif.Lib Require Import DictLemmas.
From stdpp Require Import sets.

(** ** the run-length encoded stack *)
Fixpoint flat (st cs : list nat) : list nat :=
  match st, cs with
  | p :: st', c :: cs' => repeat p c ++ flat st' cs'
  | _, _ => []
  end.

Definition wf_stack (s : pstate) : Prop :=
  length (counters s) = length (stack s) /\ Forall (fun c => 1 <= c) (counters s).

Lemma enter_flat p s : wf_stack s -> flat (stack (enter p s)) (counters (enter p s)) = p :: flat (stack s) (counters s).
Proof.
  intros [Hl _]. unfold enter. destruct (stack s) as [|q st], (counters s) as [|c cs]; try done.
  destruct (decide (q = p)) as [->|]; reflexivity.
Qed.

Lemma enter_wf p s : wf_stack s -> wf_stack (enter p s).
Proof.
  intros [Hl Hf]. unfold enter, wf_stack in *. destruct (stack s) as [|q st], (counters s) as [|c cs]; try done.
  - cbn. split; [done|]. by repeat constructor.
  - destruct (decide (q = p)); cbn in *; split; try lia.
    + inversion Hf; subst. constructor; [lia|done].
    + constructor; [lia|done].
Qed.

Definition same_rest (s s' : pstate) : Prop :=
  objects s' = objects s /\ next_id s' = next_id s /\ all_portals s' = all_portals s
  /\ default_instance s' = default_instance s /\ calls_counter s' = calls_counter s.

Lemma enter_rest p s : same_rest s (enter p s).
Proof. unfold enter. destruct (stack s), (counters s); try (by repeat split). case_decide; by repeat split. Qed.

Lemma exit_spec p s : wf_stack s ->
  match flat (stack s) (counters s) with
  | q :: l => if decide (q = p)
              then exists s', exit_portal p s = (s', Ok tt) /\ wf_stack s' /\ same_rest s s' /\
                   flat (stack s') (counters s') = l
              else exit_portal p s = (s, Err AssertionError)
  | [] => exit_portal p s = (s, Err IndexError)
  end.
Proof.
  intros [Hl Hf]. unfold exit_portal.
  destruct (stack s) as [|q st] eqn:Hs, (counters s) as [|c cs] eqn:Hc; try done.
  inversion Hf as [|? ? Hc1 Hf']; subst. destruct c as [|c]; [lia|]. cbn [flat repeat app].
  destruct (decide (q = p)) as [->|Hne]; [|done].
  destruct (decide (S c = 1)) as [H1|H1].
  - eexists; split; [reflexivity|]. assert (c = 0) as -> by lia. cbn in *.
    repeat split; cbn; auto; lia.
  - eexists; split; [reflexivity|]. unfold wf_stack, same_rest. cbn [stack counters flat].
    replace (S c - 1) with c by lia. repeat split; cbn in *; auto. constructor; [lia|done].
Qed.

(** enter followed by exit restores the two lists exactly *)
Lemma enter_exit_exact p s s1 : wf_stack s ->
  stack s1 = stack (enter p s) -> counters s1 = counters (enter p s) ->
  exists s2, exit_portal p s1 = (s2, Ok tt) /\ stack s2 = stack s /\ counters s2 = counters s /\ same_rest s1 s2.
Proof.
  intros [Hl Hf] H1 H2. unfold exit_portal. rewrite H1. unfold enter in *.
  destruct (stack s) as [|q st] eqn:Hs, (counters s) as [|c cs] eqn:Hc; try done; cbn in *.
  - rewrite H2. cbn. rewrite !decide_True by done. eexists; split; [done|]. by repeat split.
  - destruct (decide (q = p)) as [->|Hne]; cbn in *; rewrite H2, decide_True by done.
    + inversion Hf; subst. destruct (decide (S c = 1)); [lia|].
      eexists; split; [done|]. cbn. rewrite Nat.sub_0_r. by repeat split.
    + rewrite decide_True by done. eexists; split; [done|]. by repeat split.
Qed.

Lemma exit_all_spec fuel s : wf_stack s -> list_sum (counters s) <= fuel ->
  exists s', exit_all_loop fuel s = (s', Ok tt) /\ stack s' = [] /\ counters s' = [] /\ same_rest s s'.
Proof.
  revert s; induction fuel as [|fuel IH]; intros s Hwf Hsum; cbn.
  - destruct Hwf as [Hl Hf]. destruct (stack s) as [|q st] eqn:Hs, (counters s) as [|c cs] eqn:Hc; try done.
    + eexists; split; [done|]. by repeat split.
    + inversion Hf; subst. cbn in *. lia.
  - destruct (stack s) as [|q st] eqn:Hs.
    + eexists; split; [done|]. destruct Hwf as [Hl _]. rewrite Hs in Hl. destruct (counters s); by repeat split.
    + pose proof (exit_spec q s Hwf) as He. pose proof Hwf as [Hl Hf]. rewrite Hs in He, Hl.
      destruct (counters s) as [|c cs] eqn:Hc; [done|]. inversion Hf as [|? ? Hc1 Hf']; subst.
      destruct c as [|c]; [lia|]. cbn [flat repeat app] in He. rewrite decide_True in He by done.
      destruct He as (s1 & He & Hwf1 & Hr1 & _).
      assert (Hsum1 : list_sum (counters s1) <= fuel).
      { revert He. unfold exit_portal. rewrite Hs, decide_True, Hc by done. cbn in Hsum.
        case_decide; intros [= <-]; cbn; lia. }
      rewrite He. destruct (IH s1 Hwf1 Hsum1) as (s2 & E2 & S2 & C2 & R2).
      exists s2. split; [done|]. split; [done|]. split; [done|].
      unfold same_rest in *. intuition congruence.
Qed.

(** ** registry invariant *)
Definition wf_reg (s : pstate) : Prop :=
  Forall (fun kv => kv.1 = kv.2) (all_portals s) /\ NoDup (dict_keys (all_portals s))
  /\ Forall (fun k => k < next_id s) (dict_keys (all_portals s))
  /\ (forall i, default_instance s = Some i -> i < next_id s /\ 0 < calls_counter s)
  /\ (default_instance s = None -> calls_counter s = 0).

Lemma keys_values (d : dict nat nat) : Forall (fun kv => kv.1 = kv.2) d -> dict_values d = dict_keys d.
Proof. unfold dict_values, dict_keys. induction 1 as [|[k v] d H Hd IH]; [done|]. cbn in *. by rewrite IH, H. Qed.

Definition Rel (s : pstate) (v : view) : Prop :=
  wf_stack s /\ wf_reg s /\ flat (stack s) (counters s) = open v /\ dict_values (all_portals s) = known v.

Lemma fresh_not_key s : Forall (fun k => k < next_id s) (dict_keys (all_portals s)) -> next_id s ∉ dict_keys (all_portals s).
Proof. rewrite Forall_forall. intros H Hin. specialize (H _ Hin). lia. Qed.

Lemma register_fresh d i : Forall (fun kv => kv.1 = kv.2) d -> NoDup (dict_keys d) ->
  Forall (fun k => k < i) (dict_keys d) ->
  Forall (fun kv => kv.1 = kv.2) (dict_set i i d) /\ NoDup (dict_keys (dict_set i i d))
  /\ Forall (fun k => k < S i) (dict_keys (dict_set i i d)) /\ dict_values (dict_set i i d) = dict_values d ++ [i].
Proof.
  intros H1 H2 H3. assert (Hn : i ∉ dict_keys d).
  { intros Hin. rewrite Forall_forall in H3. specialize (H3 _ Hin). lia. }
  rewrite dict_set_fresh by done. unfold dict_keys, dict_values in *. rewrite !map_app. cbn.
  repeat split.
  - apply Forall_app; split; [done|]. by repeat constructor.
  - apply NoDup_app. repeat split; auto; [set_solver|]. apply NoDup_singleton.
  - apply Forall_app; split; [|by repeat constructor]. eapply Forall_impl; [exact H3|]. cbn. lia.
Qed.

Lemma step_Rel s v o s' x : Rel s v -> step s o = (s', x) -> Rel s' (view_step v o x).
Proof.
  intros (Hw & Hr & Ho & Hk). destruct o as [c|p|p| |sg| |cls]; cbn [step].
  - unfold new_portal. intros [= <- <-]. destruct Hr as (R1 & R2 & R3 & R4 & R5).
    destruct (register_fresh _ _ R1 R2 R3) as (Q1 & Q2 & Q3 & Q4).
    cbn. split; [exact Hw|]. split; [|split; [done|exact (eq_trans Q4 (f_equal (fun l => l ++ [_]) Hk))]].
    split; [done|]. split; [done|]. split; [done|]. cbn. split; [|done].
    intros i Hi. destruct (R4 i Hi). lia.
  - intros [= <- <-]. cbn. pose proof (enter_rest p s) as (E1 & E2 & E3 & E4 & E5).
    split; [by apply enter_wf|]. unfold wf_reg. rewrite E2, E3, E4, E5. split; [exact Hr|].
    cbn. rewrite enter_flat by done. by rewrite Ho, Hk.
  - pose proof (exit_spec p s Hw) as He. rewrite Ho in He.
    destruct (open v) as [|q l] eqn:Hop.
    + rewrite He. intros [= <- <-]. cbn. rewrite Hop. cbn. rewrite decide_False by done. split; [done|].
      split; [done|]. by rewrite Ho, Hop.
    + destruct (decide (q = p)) as [->|Hne].
      * destruct He as (s1 & He & Hw1 & (E1 & E2 & E3 & E4 & E5) & Hf). rewrite He. intros [= <- <-]. cbn.
        rewrite Hop. cbn. rewrite decide_True by done. split; [done|]. unfold wf_reg. rewrite E2, E3, E4, E5.
        split; [exact Hr|]. done.
      * rewrite He. intros [= <- <-]. cbn. rewrite Hop. cbn. rewrite decide_False by congruence.
        split; [done|]. split; [done|]. by rewrite Ho, Hop.
  - destruct (exit_all_spec (list_sum (counters s)) s Hw (le_n _)) as (s1 & He & S1 & C1 & (E1 & E2 & E3 & E4 & E5)).
    unfold exit_all. rewrite He. intros [= <- <-]. cbn. unfold Rel, wf_stack, wf_reg. rewrite S1, C1, E2, E3, E4, E5.
    cbn. split; [done|]. split; [exact Hr|]. done.
  - destruct (best_portal sg s) as [[s1 p] b] eqn:Hb. intros [= <- <-].
    assert (Hsame : s1 = s /\ b = false \/ default_local_portal s = (s1, p, b)).
    { revert Hb. unfold best_portal. destruct sg; [by intros [= <- <- <-]; left|].
      destruct (most_recently_entered (Some BasicPortal) s) as [[q|]|]; [by intros [= <- <- <-]; left|..];
        (destruct (most_recently_added s); [by intros [= <- <- <-]; left|by right]). }
    destruct Hsame as [[-> ->]|Hd].
    + cbn. by destruct v.
    + destruct Hr as (R1 & R2 & R3 & R4 & R5). revert Hd. unfold default_local_portal.
      destruct (default_instance s) as [i|] eqn:Hdi.
      * destruct (R4 i eq_refl) as [Hi Hcc]. rewrite decide_True by done. intros [= <- <- <-]. cbn.
        destruct v. split; [done|]. split; [|done]. unfold wf_reg. rewrite Hdi. by repeat split; auto; try apply R4.
      * rewrite decide_False by (rewrite R5 by done; lia). intros [= <- <- <-].
        destruct (register_fresh _ _ R1 R2 R3) as (Q1 & Q2 & Q3 & Q4). cbn.
        split; [exact Hw|]. split; [|split; [done|exact (eq_trans Q4 (f_equal (fun l => l ++ [_]) Hk))]].
        split; [done|]. split; [done|]. split; [done|]. cbn. split; [|done].
        intros i [= <-]. split; lia.
  - destruct (default_local_portal s) as [[s1 p] b] eqn:Hd. intros [= <- <-].
    destruct Hr as (R1 & R2 & R3 & R4 & R5). revert Hd. unfold default_local_portal.
      destruct (default_instance s) as [i|] eqn:Hdi.
      * destruct (R4 i eq_refl) as [Hi Hcc]. rewrite decide_True by done. intros [= <- <- <-]. cbn.
        destruct v. split; [done|]. split; [|done]. unfold wf_reg. rewrite Hdi. by repeat split; auto; try apply R4.
      * rewrite decide_False by (rewrite R5 by done; lia). intros [= <- <- <-].
        destruct (register_fresh _ _ R1 R2 R3) as (Q1 & Q2 & Q3 & Q4). cbn.
        split; [exact Hw|]. split; [|split; [done|exact (eq_trans Q4 (f_equal (fun l => l ++ [_]) Hk))]].
        split; [done|]. split; [done|]. split; [done|]. cbn. split; [|done].
        intros i [= <-]. split; lia.
  - intros [= <- <-]. destruct Hr as (R1 & R2 & R3 & R4 & R5).
    unfold clear_all. destruct cls; cbn; (split; [split; [done|constructor]|]); (split; [|done]);
    (split; [constructor|]); (split; [constructor|]); (split; [constructor|]); cbn; split; auto; done.
Qed.

Lemma run_Rel ops : forall s v s' xs, Rel s v -> run s ops = (s', xs) -> Rel s' (view_from v ops xs).
Proof.
  induction ops as [|o ops IH]; intros s v s' xs HR; cbn [run].
  - intros [= <- <-]. done.
  - destruct (step s o) as [s1 x] eqn:Hst. destruct (run s1 ops) as [s2 xs'] eqn:Hrun.
    intros [= <- <-]. cbn. eapply IH; [|exact Hrun]. by eapply step_Rel.
Qed.

Lemma Rel_init : Rel init_state (View [] []).
Proof. repeat split; cbn; auto; try constructor; done. Qed.

Lemma history_Rel ops s v : history ops s v -> Rel s v.
Proof. intros (xs & Hrun & ->). by eapply run_Rel; [apply Rel_init|]. Qed.

(** ** C06 *)
Lemma current_ok ops s v : history ops s v -> most_recently_entered None s = Ok (current v).
Proof.
  intros HR%history_Rel. destruct HR as ([Hl Hf] & _ & Ho & _). unfold most_recently_entered, current. rewrite <- Ho.
  destruct (stack s) as [|p st] eqn:Hs, (counters s) as [|c cs] eqn:Hc; try done.
  inversion Hf; subst. by destruct c; [lia|].
Qed.

Lemma exit_outcome ops s v p : history ops s v ->
  snd (exit_portal p s) = Ok tt <-> current v = Some p.
Proof.
  intros HR%history_Rel. destruct HR as (Hw & _ & Ho & _). pose proof (exit_spec p s Hw) as He.
  unfold current. rewrite Ho in He. destruct (open v) as [|q l]; cbn.
  - rewrite He. cbn. split; done.
  - destruct (decide (q = p)) as [->|Hne].
    + destruct He as (s1 & -> & _). done.
    + rewrite He. cbn. split; [done|]. congruence.
Qed.

Lemma bad_exit ops s v p : history ops s v -> current v <> Some p ->
  exists e, exit_portal p s = (s, Err e).
Proof.
  intros HR%history_Rel Hc. destruct HR as (Hw & _ & Ho & _). pose proof (exit_spec p s Hw) as He.
  unfold current in Hc. rewrite Ho in He. destruct (open v) as [|q l]; [eauto|].
  rewrite decide_False in He; [eauto|]. cbn in Hc. congruence.
Qed.

Lemma exit_all_ok ops s v : history ops s v -> exists s', exit_all s = (s', Ok tt)
  /\ most_recently_entered None s' = Ok None /\ entered_portals None s' = Ok []
  /\ all_portals s' = all_portals s /\ objects s' = objects s.
Proof.
  intros HR%history_Rel. destruct HR as (Hw & _ & _ & _).
  destruct (exit_all_spec (list_sum (counters s)) s Hw (le_n _)) as (s1 & He & S1 & C1 & (E1 & E2 & E3 & E4 & E5)).
  exists s1. split; [done|]. unfold most_recently_entered, entered_portals. rewrite S1. done.
Qed.

Lemma run_app ops1 ops2 s s1 xs1 : run s ops1 = (s1, xs1) ->
  run s (ops1 ++ ops2) = (let '(s2, xs2) := run s1 ops2 in (s2, xs1 ++ xs2)).
Proof.
  revert s s1 xs1. induction ops1 as [|o ops1 IH]; intros s s1 xs1; cbn.
  - intros [= <- <-]. by destruct (run s ops2).
  - destruct (step s o) as [s' x]. destruct (run s' ops1) as [s'' xs] eqn:Hr. intros [= <- <-].
    rewrite (IH _ _ _ Hr). by destruct (run s'' ops2).
Qed.

Lemma run_length ops s s' xs : run s ops = (s', xs) -> length xs = length ops.
Proof.
  revert s s' xs; induction ops as [|o ops IH]; intros s s' xs; cbn; [by intros [= <- <-]|].
  destruct (step s o) as [s1 x]. destruct (run s1 ops) as [s2 xs2] eqn:Hr. intros [= <- <-]. cbn. by rewrite (IH _ _ _ Hr).
Qed.

Lemma view_from_app ops1 xs1 ops2 xs2 v : length xs1 = length ops1 ->
  view_from v (ops1 ++ ops2) (xs1 ++ xs2) = view_from (view_from v ops1 xs1) ops2 xs2.
Proof.
  revert xs1 v; induction ops1 as [|o ops1 IH]; intros [|x xs1] v; cbn; try done. intros H. apply IH. lia.
Qed.

Lemma history_app ops s v ops2 s2 xs2 : history ops s v -> run s ops2 = (s2, xs2) ->
  history (ops ++ ops2) s2 (view_from v ops2 xs2).
Proof.
  intros (xs & Hrun & ->) H2. exists (xs ++ xs2). rewrite (run_app _ _ _ _ _ Hrun), H2.
  split; [done|]. unfold view_of. rewrite view_from_app; [done|]. by eapply run_length.
Qed.

Lemma view_enters p k : forall s s' xs v, run s (repeat (OEnter p) k) = (s', xs) ->
  view_from v (repeat (OEnter p) k) xs = View (repeat p k ++ open v) (known v).
Proof.
  induction k as [|k IH]; intros s s' xs v; cbn.
  - intros [= <- <-]. by destruct v.
  - destruct (run (enter p s) (repeat (OEnter p) k)) as [s2 xs2] eqn:Hr. intros [= <- <-]. cbn.
    rewrite (IH _ _ _ _ Hr). cbn. f_equal. 
    change (p :: repeat p k ++ open v) with (repeat p (S k) ++ open v). 
    rewrite <- (app_assoc (repeat p k) [p] (open v)) || idtac.
    clear. induction k as [|k IH]; cbn; [done|]. cbn in IH. by rewrite IH.
Qed.

Lemma view_exits p k : forall s s' xs v l, run s (repeat (OExit p) k) = (s', xs) ->
  open v = repeat p k ++ l ->
  view_from v (repeat (OExit p) k) xs = View l (known v).
Proof.
  induction k as [|k IH]; intros s s' xs v l; cbn.
  - intros [= <- <-] <-. by destruct v.
  - destruct (exit_portal p s) as [s1 r1].
    destruct (run s1 (repeat (OExit p) k)) as [s2 xs2] eqn:Hr. intros [= <- <-] Ho. cbn.
    rewrite Ho. cbn. rewrite decide_True by done.
    rewrite (IH _ _ _ _ l Hr); [done|]. done.
Qed.

Lemma k_enters_k_exits ops s v p k j : history ops s v -> j <= k ->
  forall s', fst (run s (repeat (OEnter p) k ++ repeat (OExit p) j)) = s' ->
  most_recently_entered None s' = Ok (if j <? k then Some p else current v).
Proof.
  intros Hh Hj s' Hs'.
  destruct (run s (repeat (OEnter p) k)) as [s1 xs1] eqn:H1.
  rewrite (run_app _ _ _ _ _ H1) in Hs'. destruct (run s1 (repeat (OExit p) j)) as [s2 xs2] eqn:H2. cbn in Hs'. subst s2.
  pose proof (history_app _ _ _ _ _ _ Hh H1) as Hh1. rewrite (view_enters _ _ _ _ _ v H1) in Hh1.
  pose proof (history_app _ _ _ _ _ _ Hh1 H2) as Hh2.
  rewrite (view_exits p j s1 s' xs2 _ (repeat p (k - j) ++ open v) H2) in Hh2.
  - rewrite (current_ok _ _ _ Hh2). unfold current. cbn [open]. destruct (Nat.ltb_spec j k).
    + destruct (k - j) eqn:E; [lia|]. done.
    + by replace (k - j) with 0 by lia.
  - cbn. rewrite app_assoc, <- repeat_app. by replace (j + (k - j)) with k by lia.
Qed.

(** ** C08 *)
Lemma first_occ_in x l : x ∈ first_occurrences l <-> x ∈ l.
Proof.
  induction l as [|y l IH]; cbn; [done|]. rewrite !elem_of_cons, elem_of_list_filter, IH.
  destruct (decide (x = y)); naive_solver.
Qed.
Lemma first_occ_nodup l : NoDup (first_occurrences l).
Proof.
  induction l as [|y l IH]; cbn; [constructor|]. constructor.
  - rewrite elem_of_list_filter. naive_solver.
  - by apply NoDup_filter.
Qed.

Lemma fold_set_values l : forall d : dict nat nat, Forall (fun kv => kv.1 = kv.2) d ->
  dict_values (fold_left (fun d p => dict_set p p d) l d)
  = dict_values d ++ filter (fun p => p ∉ dict_values d) (first_occurrences l).
Proof.
  induction l as [|p l IH]; intros d Hd; cbn [fold_left first_occurrences].
  - by rewrite filter_nil, app_nil_r.
  - rewrite IH. 2:{ clear IH. induction d as [|[k v] d IHd]; cbn; [by repeat constructor|].
      inversion Hd; subst. case_decide; constructor; cbn; auto. }
    pose proof (keys_values _ Hd) as Hkv.
    destruct (decide (p ∈ dict_keys d)) as [Hin|Hin].
    + assert (dict_set p p d = d) as ->.
      { clear -Hin Hd. induction d as [|[k v] d IH]; cbn in *; [set_solver|]. inversion Hd; cbn in *; subst.
        case_decide; [by subst|]. rewrite IH; auto. set_solver. }
      f_equal. rewrite filter_cons_False by (rewrite Hkv; tauto).
      rewrite list_filter_filter. apply list_filter_iff. intros x. rewrite Hkv. split; [|tauto].
      intros Hx. split; [done|]. intros ->. by apply Hx.
    + rewrite dict_set_fresh by done. unfold dict_values in *. rewrite map_app. cbn [map snd].
      rewrite <- app_assoc. f_equal. rewrite filter_cons_True by (unfold dict_keys in *; by rewrite Hkv).
      cbn [app]. f_equal. rewrite list_filter_filter. apply list_filter_iff. intros x. set_solver.
Qed.

Lemma first_occ_filter_flat st cs : length cs = length st -> Forall (fun c => 1 <= c) cs ->
  first_occurrences (flat st cs) = first_occurrences st.
Proof.
  revert cs; induction st as [|p st IH]; intros [|c cs]; cbn; try done. intros Hl Hf. inversion Hf as [|? ? Hc Hf']; subst.
  rewrite <- (IH cs) by (auto; lia). clear IH Hf. destruct c as [|c]; [lia|]. clear Hc.
  induction c as [|c IH]; [done|].
  change (repeat p (S (S c)) ++ flat st cs) with (p :: (repeat p (S c) ++ flat st cs)).
  cbn [first_occurrences]. rewrite IH. f_equal.
  rewrite filter_cons_False by tauto.
  rewrite list_filter_filter. apply list_filter_iff. naive_solver.
Qed.

Lemma filter_all {A} (P : A -> Prop) `{!forall x, Decision (P x)} (l : list A) :
  (forall x, x ∈ l -> P x) -> filter P l = l.
Proof.
  induction l as [|x l IH]; intros HP; [done|]. rewrite filter_cons_True by (apply HP; by left).
  f_equal. apply IH. intros y Hy. apply HP. by right.
Qed.

Lemma entered_ok ops s v c : history ops s v ->
  entered_portals c s =
  if forallb (fun p => match c with Some c => instance_of (class_of s p) c | None => true end) (first_occurrences (open v))
  then Ok (first_occurrences (open v)) else Err AssertionError.
Proof.
  intros HR%history_Rel. destruct HR as ([Hl Hf] & _ & Ho & _). unfold entered_portals.
  rewrite (fold_set_values _ []) by constructor. cbn.
  rewrite <- Ho, (first_occ_filter_flat _ _ Hl Hf).
  assert (filter (fun p : nat => p ∉ []) (first_occurrences (stack s)) = first_occurrences (stack s)) as ->.
  { apply filter_all. intros x _. set_solver. }
  destruct c as [c|].
  - destruct (first_occurrences (stack s)) as [|a l] eqn:E; [done|]. cbn [length]. done.
  - by rewrite (proj2 (forallb_forall _ _)).
Qed.

(** ** C09 *)
Lemma noncurrent_ok ops s v c : history ops s v ->
  noncurrent_portals c s =
  if forallb (fun p => match c with Some c => instance_of (class_of s p) c | None => true end) (noncurrent v)
  then Ok (noncurrent v) else Err AssertionError.
Proof.
  intros Hh. pose proof (current_ok _ _ _ Hh) as Hcur. apply history_Rel in Hh.
  destruct Hh as (Hw & (R1 & R2 & R3 & R4 & R5) & Ho & Hk).
  unfold noncurrent_portals, noncurrent.
  assert (Heq : match stack s with [] => dict_values (all_portals s)
      | cur :: _ => dict_values (filter (fun kv => kv.1 <> cur) (all_portals s)) end
      = filter (fun p => Some p <> current v) (known v)).
  { unfold most_recently_entered in Hcur. destruct (stack s) as [|p st].
    - inversion Hcur as [Hc]. rewrite Hk, filter_all; done.
    - inversion Hcur as [Hc]. rewrite <- Hk. clear -R1. induction (all_portals s) as [|[k x] d IH]; [done|].
      inversion R1 as [|? ? Hkx Hrest]; cbn in Hkx; subst. unfold dict_values in *. cbn [map snd]. destruct (decide (x = p)) as [->|Hn].
      + rewrite (filter_cons_False _ (p, p)), (filter_cons_False _ p) by (cbn; tauto). by apply IH.
      + rewrite (filter_cons_True _ (x, x)), (filter_cons_True _ x) by (cbn; congruence). cbn [map snd]. f_equal. by apply IH. }
  rewrite Heq. destruct c; [done|]. by rewrite (proj2 (forallb_forall _ _)).
Qed.

Lemma known_nodup ops s v : history ops s v -> NoDup (known v).
Proof.
  intros HR%history_Rel. destruct HR as (_ & (R1 & R2 & _) & _ & <-). by rewrite keys_values.
Qed.

(** ** C10, C12 *)
Lemma last_map {A B} (f : A -> B) (l : list A) : last (map f l) = match last l with Some x => Some (f x) | None => None end.
Proof. induction l as [|a [|b l] IH]; [done|done|]. cbn [map]. cbn in *. exact IH. Qed.

Lemma best_priority ops s v : history ops s v ->
  (forall p, best_portal (Some p) s = (s, p, false))
  /\ (forall p, current v = Some p -> best_portal None s = (s, p, false))
  /\ (forall p, current v = None -> last (known v) = Some p -> best_portal None s = (s, p, false))
  /\ (current v = None -> known v = [] -> best_portal None s = default_local_portal s).
Proof.
  intros Hh. pose proof (current_ok _ _ _ Hh) as Hcur. apply history_Rel in Hh as (_ & _ & _ & Hk).
  assert (Hc2 : most_recently_entered (Some BasicPortal) s = Ok (current v)).
  { rewrite <- Hcur. unfold most_recently_entered. destruct (stack s); [done|]. by destruct (class_of s n). }
  assert (Hadd : most_recently_added s = last (known v)).
  { unfold most_recently_added. rewrite <- Hk. unfold dict_values. rewrite last_map. by destruct (last (all_portals s)) as [[]|]. }
  split; [done|]. unfold best_portal. rewrite Hc2, Hadd. repeat split.
  - by intros p ->.
  - by intros p -> ->.
  - by intros -> ->.
Qed.

Definition default_ok (s : pstate) : Prop :=
  forall i, default_instance s = Some i ->
    i ∈ dict_values (all_portals s) /\ dict_get i (objects s) = Some (Portal DefaultLocalPortal true).

Lemma default_ok_call s v : Rel s v -> default_ok s ->
  forall s' i b, default_local_portal s = (s', i, b) ->
  default_ok s' /\ i ∈ dict_values (all_portals s') /\ dict_get i (objects s') = Some (Portal DefaultLocalPortal true).
Proof.
  intros (_ & (R1 & R2 & R3 & R4 & R5) & _ & _) Hd s' i b. unfold default_local_portal.
  destruct (default_instance s) as [j|] eqn:Hdi.
  - rewrite decide_True by (by apply (R4 j)). intros [= <- <- <-]. split; [done|]. by apply Hd.
  - rewrite decide_False by (rewrite R5 by done; lia). intros [= <- <- <-].
    destruct (register_fresh _ _ R1 R2 R3) as (Q1 & Q2 & Q3 & Q4).
    assert (next_id s ∈ dict_values (dict_set (next_id s) (next_id s) (all_portals s))) by (rewrite Q4; set_solver).
    assert (dict_get (next_id s) (dict_set (next_id s) (Portal DefaultLocalPortal true) (objects s)) = Some (Portal DefaultLocalPortal true))
      by (by rewrite dict_get_set, decide_True).
    split; [|done]. intros i [= <-]. done.
Qed.

Lemma default_ok_step s v o s' x : Rel s v -> default_ok s -> step s o = (s', x) ->
  (forall cls, o = OClearAll cls -> cls = DefaultLocalPortal) -> default_ok s'.
Proof.
  intros HR Hd. pose proof HR as (Hw & (R1 & R2 & R3 & R4 & R5) & Ho & Hk).
  destruct o as [c|p|p| |sg| |cls]; cbn [step].
  - unfold new_portal. intros [= <- <-] _ i Hi. cbn [default_instance all_portals objects] in *. destruct (Hd i Hi) as [H1 H2]. destruct (R4 i Hi) as [H3 _].
    destruct (register_fresh _ _ R1 R2 R3) as (Q1 & Q2 & Q3 & Q4). split.
    + rewrite Q4. set_solver.
    + rewrite dict_get_set, decide_False by lia. done.
  - intros [= <- <-] _. pose proof (enter_rest p s) as (E1 & E2 & E3 & E4 & E5). unfold default_ok. by rewrite E1, E3, E4.
  - pose proof (exit_spec p s Hw) as He. destruct (flat _ _) as [|q l].
    + rewrite He. by intros [= <- <-] _.
    + case_decide.
      * destruct He as (s1 & -> & _ & (E1 & E2 & E3 & E4 & E5) & _). intros [= <- <-] _. unfold default_ok. by rewrite E1, E3, E4.
      * rewrite He. by intros [= <- <-] _.
  - destruct (exit_all_spec (list_sum (counters s)) s Hw (le_n _)) as (s1 & He & S1 & C1 & (E1 & E2 & E3 & E4 & E5)).
    unfold exit_all. rewrite He. intros [= <- <-] _. unfold default_ok. by rewrite E1, E3, E4.
  - destruct (best_portal sg s) as [[s1 p] b] eqn:Hb. intros [= <- <-] _.
    assert (Hsame : s1 = s \/ default_local_portal s = (s1, p, b)).
    { revert Hb. unfold best_portal. destruct sg; [by intros [= <- <- <-]; left|].
      destruct (most_recently_entered (Some BasicPortal) s) as [[q|]|]; [by intros [= <- <- <-]; left|..];
        (destruct (most_recently_added s); [by intros [= <- <- <-]; left|by right]). }
    destruct Hsame as [->|Hdl]; [done|]. by eapply default_ok_call.
  - destruct (default_local_portal s) as [[s1 p] b] eqn:Hdl. intros [= <- <-] _. by eapply default_ok_call.
  - intros [= <- <-] Hcls. rewrite (Hcls cls eq_refl). by intros i.
Qed.

Lemma default_ok_history ops : forall s v s' xs, Rel s v -> default_ok s -> run s ops = (s', xs) ->
  resets_through_default ops -> default_ok s'.
Proof.
  induction ops as [|o ops IH]; intros s v s' xs HR Hd; cbn [run].
  - by intros [= <- <-].
  - destruct (step s o) as [s1 x] eqn:Hst. destruct (run s1 ops) as [s2 xs'] eqn:Hrun.
    intros [= <- <-] Hres. eapply IH; [by eapply step_Rel| |exact Hrun|].
    + eapply default_ok_step; eauto. intros cls ->. apply Hres. by left.
    + intros cls Hin. apply Hres. by right.
Qed.

Lemma default_usable ops s v : history ops s v -> resets_through_default ops ->
  forall s' i b, default_local_portal s = (s', i, b) ->
  i ∈ dict_values (all_portals s') /\ dict_get i (objects s') = Some (Portal DefaultLocalPortal true).
Proof.
  intros Hh Hres s' i b Hd. pose proof (history_Rel _ _ _ Hh) as HR. destruct Hh as (xs & Hrun & ->).
  eapply default_ok_call; [exact HR| |exact Hd].
  eapply default_ok_history; [apply Rel_init| |exact Hrun|done]. by intros j.
Qed.

(** ** C05 *)
Lemma wf_stack_eq s s' : stack s' = stack s -> counters s' = counters s -> wf_stack s -> wf_stack s'.
Proof. unfold wf_stack. by intros -> ->. Qed.

Lemma best_lists sg s s' p b : best_portal sg s = (s', p, b) -> stack s' = stack s /\ counters s' = counters s.
Proof.
  unfold best_portal. destruct sg; [by intros [= <- <- <-]|].
  assert (Hd : forall s' p b, default_local_portal s = (s', p, b) -> stack s' = stack s /\ counters s' = counters s).
  { clear. intros s' p b. unfold default_local_portal. destruct (default_instance s); case_decide; intros [= <- <- <-]; done. }
  destruct (most_recently_entered (Some BasicPortal) s) as [[q|]|]; [by intros [= <- <- <-]|..];
  (destruct (most_recently_added s); [by intros [= <- <- <-]|apply Hd]).
Qed.

Lemma run_with_restores p body s o : wf_stack s ->
  (forall s, wf_stack s -> exists s', body s = (s', o) /\ stack s' = stack s /\ counters s' = counters s) ->
  exists s', run_with p body s = (s', o) /\ stack s' = stack s /\ counters s' = counters s.
Proof.
  intros Hw Hb. unfold run_with. destruct (Hb (enter p s) (enter_wf p s Hw)) as (s1 & -> & S1 & C1).
  destruct (enter_exit_exact p s s1 Hw S1 C1) as (s2 & -> & S2 & C2 & _). eauto.
Qed.

Lemma exec_restores pr : forall s, wf_stack s ->
  exists s', exec pr s = (s', plain_outcome pr) /\ stack s' = stack s /\ counters s' = counters s.
Proof.
  induction pr as [|e|p IHp q IHq|p IHp h IHh|p b IHb|c|c b IHb|sg|sg b IHb]; intros s Hw; cbn [exec plain_outcome].
  - eauto.
  - eauto.
  - destruct (IHp s Hw) as (s1 & -> & S1 & C1). destruct (plain_outcome p) as [e|]; [eauto|].
    destruct (IHq s1 (wf_stack_eq _ _ S1 C1 Hw)) as (s2 & -> & S2 & C2). eexists; split; [done|]. split; congruence.
  - destruct (IHp s Hw) as (s1 & -> & S1 & C1). destruct (plain_outcome p) as [e|]; [|eauto].
    destruct (IHh s1 (wf_stack_eq _ _ S1 C1 Hw)) as (s2 & -> & S2 & C2). eexists; split; [done|]. split; congruence.
  - by apply run_with_restores.
  - unfold new_portal. cbn. eauto.
  - unfold new_portal. match goal with |- context [run_with _ _ ?s1] => destruct (run_with_restores (next_id s) (exec b) s1 _ Hw IHb) as (s2 & -> & S2 & C2) end.
    eexists; split; [done|]. done.
  - destruct (best_portal sg s) as [[s1 p] b] eqn:Hb. destruct (best_lists _ _ _ _ _ Hb). cbn. eauto.
  - destruct (best_portal sg s) as [[s1 p] b'] eqn:Hb. destruct (best_lists _ _ _ _ _ Hb) as [S1 C1].
    destruct (run_with_restores p (exec b) s1 _ (wf_stack_eq _ _ S1 C1 Hw) IHb) as (s2 & -> & S2 & C2).
    eexists; split; [done|]. split; congruence.
Qed.

Lemma exec_restores_history ops s v pr : history ops s v ->
  exists s', exec pr s = (s', plain_outcome pr) /\ stack s' = stack s /\ counters s' = counters s
   /\ most_recently_entered None s' = most_recently_entered None s
   /\ entered_portals None s' = entered_portals None s.
Proof.
  intros HR%history_Rel. destruct HR as (Hw & _). destruct (exec_restores pr s Hw) as (s' & H1 & H2 & H3).
  exists s'. unfold most_recently_entered, entered_portals. rewrite H2, H3. done.
Qed.

(** ** C11 *)
Lemma restore_rebinds ops s v (a : aware) : history ops s v ->
  aware_setstate (aware_getstate a) s = Ok (Aware (current v) (aw_data a)).
Proof.
  intros Hh. unfold aware_setstate, capture_portal. cbn. by rewrite (current_ok _ _ _ Hh).
Qed.

Lemma late_binding ops s v (a : aware) : history ops s v -> aw_portal a = None ->
  aware_portal a s = Ok (current v, Aware (current v) (aw_data a)).
Proof.
  intros Hh Ha. unfold aware_portal, capture_portal. rewrite Ha, (current_ok _ _ _ Hh). done.
Qed.

Lemma default_created ops s v : history ops s v -> resets_through_default ops ->
  current v = None -> known v = [] ->
  exists s' i, best_portal None s = (s', i, true) /\ dict_values (all_portals s') = [i]
    /\ dict_get i (objects s') = Some (Portal DefaultLocalPortal true).
Proof.
  intros Hh Hres Hc Hk. destruct (best_priority _ _ _ Hh) as (_ & _ & _ & Hb). rewrite (Hb Hc Hk).
  pose proof (history_Rel _ _ _ Hh) as HR. destruct Hh as (xs & Hrun & ->).
  assert (Hd : default_ok s).
  { eapply default_ok_history; [apply Rel_init| |exact Hrun|done]. by intros j. }
  destruct HR as (_ & (R1 & R2 & R3 & R4 & R5) & _ & Hv). rewrite Hk in Hv.
  unfold default_local_portal. destruct (default_instance s) as [i|] eqn:Hdi.
  - exfalso. destruct (Hd i Hdi) as [Hin _]. rewrite Hv in Hin. set_solver.
  - rewrite decide_False by (rewrite R5 by done; lia). eexists _, _. split; [reflexivity|].
    destruct (register_fresh _ _ R1 R2 R3) as (_ & _ & _ & Q4). cbn [all_portals objects]. split.
    + by rewrite Q4, Hv.
    + by rewrite dict_get_set, decide_True.
Qed.
