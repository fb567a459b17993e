From Coq Require Import String.
From stdpp Require Import gmap.
From Verif Require Import Lib.Py Model.PyAst Model.Normalizer Model.NamesAnalyzer Spec.Scoping Proofs.PyAstP Proofs.NamesAnalyzerP.
Local Open Scope nat_scope.

Definition list_event (x : string) (f : list node) : option event := fold_right (fun c a => first_of (first_event x c) a) None f.
Definition fields_event (x : string) (fs : list (list node)) : option event := fold_right (fun f a => first_of (list_event x f) a) None fs.

(** what a step with this event does to [x] *)
Record step (x : string) (e : option event) (s s' : ana) : Prop := Step {
  st_known : x ∈ a_accessible s -> (x ∈ a_unclassified s' <-> x ∈ a_unclassified s) /\ (x ∈ a_nonlocal s' <-> x ∈ a_nonlocal s);
  st_none : x ∉ a_accessible s -> e = None -> x ∉ a_accessible s' /\ (x ∈ a_unclassified s' <-> x ∈ a_unclassified s) /\ (x ∈ a_nonlocal s' <-> x ∈ a_nonlocal s);
  st_bound : x ∉ a_accessible s -> e = Some Bound -> x ∈ a_accessible s' /\ (x ∈ a_unclassified s' <-> x ∈ a_unclassified s) /\ (x ∈ a_nonlocal s' <-> x ∈ a_nonlocal s);
  st_read : x ∉ a_accessible s -> e = Some Read -> x ∈ a_unclassified s';
  st_outer : x ∉ a_accessible s -> e = Some Outer -> x ∈ a_nonlocal s'
}.
Definition tidy (s : ana) : Prop := a_local s ∪ a_imported s ⊆ a_accessible s.
Definition steps (x : string) (n : node) : Prop := forall s, 1 <= a_level s -> tidy s -> step x (first_event x n) s (visit n s).

Lemma prepare_tidy l fs s : (forall f c s, f ∈ fs -> c ∈ f -> tidy s -> tidy (visit c s)) -> tidy s -> tidy (prepare l fs s).
Proof.
  intros H Ht. unfold tidy in *. destruct l as [|[]| | | | |? []| | | | | | | |[]| | | | | | |[]| | |[]| | | |]; cbn [prepare]; try done.
  - unfold load_name. destruct (decide _); [done|]. cbn. set_solver.
  - unfold store_name. destruct (decide _); [done|]. cbn. set_solver.
  - destruct fs; [done|]. cbn. set_solver.
  - destruct fs as [|? [|gens [|? ?]]]; try done. assert (Hg : forall c s, c ∈ gens -> tidy s -> tidy (visit c s)) by (intros c s' Hc; apply (H gens); [right; left|done]).
    clear H. revert s Ht. induction gens as [|c gens IH]; intros s Ht; [done|]. cbn. apply IH; [|apply Hg; [left|done]]. intros d s' Hd. apply Hg. by right.
  - destruct fs; [done|]. cbn. set_solver.
  - destruct fs as [|? [|? [|? [|? [|? ?]]]]]; try done. cbn. set_solver.
  - cbn. set_solver.
  - cbn. set_solver.
  - cbn. set_solver.
  - cbn. set_solver.
Qed.
Lemma visit_tidy n : wf n = true -> forall s, tidy s -> tidy (visit n s).
Proof.
  induction n as [l fs IH] using node_ind'. intros Hw s Ht. pose proof (wf_node _ _ Hw) as (Ha & _ & Hc).
  assert (Hv : forall f c s, f ∈ fs -> c ∈ f -> tidy s -> tidy (visit c s)) by eauto.
  assert (Hg : forall s, tidy s -> tidy (generic fs s)).
  { clear IH Ha Ht Hw s. induction fs as [|f fs IHf]; intros s Ht; [done|]. cbn. apply IHf; [by intros g c Hg; apply Hc; right|by intros g c s' Hg; apply Hv; right|].
    assert (Hf : forall c s, c ∈ f -> tidy s -> tidy (visit c s)) by (intros c s' Hcc; apply (Hv f); [left|done]).
    clear Hv IHf Hc. revert s Ht. induction f as [|c f IHc]; intros s Ht; [done|]. cbn. apply IHc; [|apply Hf; [left|done]]. intros d s' Hd. apply Hf. by right. }
  destruct (is_def l) eqn:Hd.
  - destruct l; try done. destruct is_async; [done|]. rewrite visit_def. destruct (a_level s =? 0).
    + unfold tidy. cbn [leave_function a_local a_imported a_accessible]. apply (Hg (enter_function name fs s)). unfold tidy in *. cbn. set_solver.
    + unfold tidy in *. cbn. set_solver.
  - rewrite visit_node by done. apply Hg. by apply prepare_tidy.
Qed.
Lemma visits_tidy l s : (forall c, c ∈ l -> wf c = true) -> tidy s -> tidy (visits l s).
Proof. revert s. induction l as [|c l IH]; intros s Hw Ht; [done|]. cbn. apply IH; [by intros; apply Hw; right|]. apply visit_tidy; [apply Hw; left|done]. Qed.

Lemma step_seq x a b s1 s2 s3 : step x a s1 s2 -> step x b s2 s3 -> grows s1 s2 -> grows s2 s3 -> step x (first_of a b) s1 s3.
Proof.
  intros [K1 N1 B1 R1 O1] [K2 N2 B2 R2 O2] G1 G2. constructor.
  - intros Hx. destruct (K1 Hx) as [HU HN]. destruct K2 as [HU2 HN2]; [by apply (g_acc _ _ G1)|]. split; [by rewrite HU2|by rewrite HN2].
  - intros Hx He. destruct a; [done|]. destruct (N1 Hx eq_refl) as (H1 & H2 & H3). destruct (N2 H1 He) as (H4 & H5 & H6). split_and!; [done|by rewrite H5|by rewrite H6].
  - intros Hx He. destruct a as [a|].
    + destruct (B1 Hx He) as (H1 & H2 & H3). destruct (K2 H1) as (H4 & H5). split_and!; [by apply (g_acc _ _ G2)|by rewrite H4|by rewrite H5].
    + destruct (N1 Hx eq_refl) as (H1 & H2 & H3). destruct (B2 H1 He) as (H4 & H5 & H6). split_and!; [done|by rewrite H5|by rewrite H6].
  - intros Hx He. destruct a as [a|].
    + apply (g_unc _ _ G2). by apply R1.
    + destruct (N1 Hx eq_refl) as (H1 & _). by apply R2.
  - intros Hx He. destruct a as [a|].
    + apply (g_nonloc _ _ G2). by apply O1.
    + destruct (N1 Hx eq_refl) as (H1 & _). by apply O2.
Qed.
Lemma step_id x s : step x None s s.
Proof. by constructor. Qed.
Lemma visits_step x l s : (forall c, c ∈ l -> wf c = true) -> (forall c, c ∈ l -> steps x c) -> 1 <= a_level s -> tidy s -> step x (list_event x l) s (visits l s).
Proof.
  revert s. induction l as [|c l IH]; intros s Hw Hs Hl Ht; [apply step_id|]. cbn [list_event fold_right visits fold_left].
  pose proof (visit_grows c s (Hw c (elem_of_list_here _ _))) as G.
  eapply step_seq; [apply Hs; [left|done|done]|apply IH|done|].
  - intros d Hd. apply Hw. by right.
  - intros d Hd. apply Hs. by right.
  - by rewrite (g_level _ _ G).
  - apply visit_tidy; [apply Hw; left|done].
  - apply visits_grows. intros d s' Hd. apply visit_grows, Hw. by right.
Qed.
Lemma generic_step x fs s : (forall f c, f ∈ fs -> c ∈ f -> wf c = true) -> (forall f c, f ∈ fs -> c ∈ f -> steps x c) -> 1 <= a_level s -> tidy s -> step x (fields_event x fs) s (generic fs s).
Proof.
  revert s. induction fs as [|f fs IH]; intros s Hw Hs Hl Ht; [apply step_id|]. cbn [fields_event fold_right generic fold_left].
  assert (Hwf : forall c, c ∈ f -> wf c = true) by (intros c; apply Hw; left).
  eapply step_seq; [apply visits_step; [done|intros c; apply Hs; left|done|done]|apply IH| |].
  - intros g c Hg. apply Hw. by right.
  - intros g c Hg. apply Hs. by right.
  - by rewrite visits_level.
  - by apply visits_tidy.
  - apply visits_grows. intros c s' Hc. by apply visit_grows, Hwf.
  - apply generic_grows. intros g c s' Hg Hc. apply visit_grows. eapply Hw; [by right|done].
Qed.

Lemma own_nonlocals_recorded n : wf n = true -> forall s, own_nonlocals n ⊆ a_nonlocal (visit n s).
Proof.
  induction n as [l fs IH] using node_ind'. intros Hw s. pose proof (wf_node _ _ Hw) as (Ha & Hs & Hc).
  assert (Hgen : forall s, deep own_nonlocals fs ⊆ a_nonlocal (generic fs s)).
  { intros s'. apply generic_collect'; [by intros ? ? []|done|]. intros f c s'' Hf Hcc. apply (IH f c Hf Hcc). eauto. }
  destruct (is_def l) eqn:Hd.
  - destruct l; try done. destruct is_async; [done|]. intros x Hx. by apply elem_of_empty in Hx.
  - rewrite visit_node by done. destruct l; try apply Hgen.
    + destruct is_async; [apply Hgen|done].
    + apply shape_leaf in Ha; [|done]. subst. cbn. set_solver.
Qed.
Lemma concat_nonlocals fs : unions (map own_nonlocals (concat fs)) = deep own_nonlocals fs.
Proof.
  apply set_eq. intros x. rewrite elem_unions, elem_deep. split.
  - intros (c & Hc & Hx). apply elem_of_list_In, in_concat in Hc as (f & Hf & Hc). exists f, c. rewrite !elem_of_list_In. rewrite <- elem_of_list_In in *. done.
  - intros (f & c & Hf & Hc & Hx). exists c. split; [|done]. apply elem_of_list_In, in_concat. exists f. by rewrite <- !elem_of_list_In.
Qed.
Lemma known_params_eq args rest : (forall c, c ∈ args -> wf c = true) -> analyzer_params (args :: rest) = known_params args.
Proof.
  intros Hw. unfold analyzer_params, known_params. destruct args as [|[l fs] [|? ?]]; try done; destruct l; try done;
    destruct fs as [|po [|a [|va [|ko [|kd [|ka [|d [|? ?]]]]]]]]; try done.
  specialize (Hw _ (elem_of_list_here _ _)). apply wf_node in Hw as (_ & Hs & _). cbn [sorts_ok] in Hs. rewrite forallb_forall in Hs.
  assert (Hall : forall n, In n (a ++ va ++ ka) -> is_arg n = true). { intros n Hn. apply Hs. rewrite !in_app_iff in *. tauto. }
  clear Hs. induction (a ++ va ++ ka) as [|n l IH]; [done|]. cbn. destruct n as [ln fn]. specialize (Hall (Node ln fn) (or_introl eq_refl)) as Hn. destruct ln; try done.
  cbn. f_equal. apply IH. intros m Hm. apply Hall. by right.
Qed.
Lemma rel_child l fs f c : relative_import (Node l fs) = false -> f ∈ fs -> c ∈ f -> relative_import c = false.
Proof.
  intros H Hf Hc. destruct (relative_import c) eqn:E; [|done]. exfalso. assert (Hx : existsb (existsb relative_import) fs = true).
  { apply existsb_exists. exists f. split; [by apply elem_of_list_In|]. apply existsb_exists. exists c. split; [by apply elem_of_list_In|done]. }
  cbn [relative_import] in H. destruct l; try congruence. destruct module; congruence.
Qed.
(** the analysis of a function in an analyzer of its own *)
Definition inside (name : string) (fs : list (list node)) : ana := leave_function (generic fs (enter_function name fs fresh)).
Lemma inside_step x name fs : wf (Node (LFunctionDef false name) fs) = true ->
  (forall f c, f ∈ fs -> c ∈ f -> x ∉ own_nonlocals c -> steps x c) ->
  match first_event_inside x (Node (LFunctionDef false name) fs) with
  | Some Read => x ∈ a_unclassified (inside name fs)
  | Some Outer => x ∈ a_nonlocal (inside name fs)
  | _ => x ∉ a_unclassified (inside name fs) /\ x ∉ a_nonlocal (inside name fs)
  end.
Proof.
  intros Hw Hst. pose proof (wf_node _ _ Hw) as (Ha & _ & Hc). apply shape_def in Ha as (args & body & decos & returns & ->).
  cbn [first_event_inside]. change (fold_right _ None [args; body; decos; returns]) with (fields_event x [args; body; decos; returns]).
  set (fs := [args; body; decos; returns]) in *. rewrite concat_nonlocals. destruct (decide _) as [Hnl|Hnl].
  - unfold inside. cbn [leave_function a_nonlocal]. revert Hnl. apply generic_collect'; [by intros ? ? []|done|].
    intros f c s Hf Hcc. apply own_nonlocals_recorded. eauto.
  - assert (Hch : forall f c, f ∈ fs -> c ∈ f -> steps x c).
    { intros f c Hf Hcc. apply (Hst f c Hf Hcc). intros Hx. apply Hnl, elem_deep. eauto. }
    set (s0 := enter_function name fs fresh).
    assert (H0 : step x (when (bool_decide (x ∈ known_params args)) Bound) (Ana None ∅ ∅ ∅ ∅ ∅ ∅ 1 0 false) s0).
    { assert (Hacc : x ∈ a_accessible s0 <-> x ∈ known_params args).
      { unfold s0, enter_function, fs. cbn [a_accessible fresh a_local]. rewrite (known_params_eq args) by (intros c; apply Hc; left). rewrite !elem_of_union, elem_of_list_to_set. set_solver. }
      destruct (bool_decide _) eqn:Hb; cbn [when].
      - apply bool_decide_eq_true in Hb. constructor; cbn; try done; intros; set_solver.
      - apply bool_decide_eq_false in Hb. constructor; cbn; try done; intros; set_solver. }
    assert (Hs : step x (first_of (when (bool_decide (x ∈ known_params args)) Bound) (fields_event x fs)) (Ana None ∅ ∅ ∅ ∅ ∅ ∅ 1 0 false) (generic fs s0)).
    { eapply step_seq; [exact H0|apply generic_step| |].
      - done.
      - done.
      - cbn. lia.
      - unfold tidy, s0, enter_function. cbn. set_solver.
      - unfold s0, enter_function. constructor; cbn; first [lia|set_solver].
      - apply generic_grows. intros f c s' Hf Hcc. apply visit_grows. eauto. }
    destruct Hs as [_ N B R O]. cbn [a_accessible] in *. specialize (N (not_elem_of_empty _)). specialize (B (not_elem_of_empty _)). specialize (R (not_elem_of_empty _)). specialize (O (not_elem_of_empty _)).
    unfold inside. cbn [leave_function a_unclassified a_nonlocal].
    destruct (first_of _ _) as [[]|].
    + by apply R.
    + destruct (B eq_refl) as (_ & [H1 _] & [H2 _]). split; intros H; [apply H1 in H|apply H2 in H]; by apply elem_of_empty in H.
    + by apply O.
    + destruct (N eq_refl) as (_ & [H1 _] & [H2 _]). split; intros H; [apply H1 in H|apply H2 in H]; by apply elem_of_empty in H.
Qed.
Ltac sets := repeat (rewrite elem_of_union || rewrite elem_of_list_to_set || rewrite elem_of_singleton || rewrite elem_of_difference); try tauto.
Lemma step_when_bound x (b : bool) s s' :
  (x ∈ a_accessible s' <-> x ∈ a_accessible s \/ b = true) -> (x ∈ a_unclassified s' <-> x ∈ a_unclassified s) -> (x ∈ a_nonlocal s' <-> x ∈ a_nonlocal s) -> step x (when b Bound) s s'.
Proof.
  intros HA HU HN. constructor; intros Hx; try (intros He); try done.
  - destruct b; [done|]. split_and!; [rewrite HA; by intros [?|?]|done|done].
  - destruct b; [|done]. split_and!; [rewrite HA; by right|done|done].
  - by destruct b.
  - by destruct b.
Qed.
Lemma own_child l fs f c x : is_def l = false -> (match l with LNonlocal _ => false | _ => true end) = true -> x ∉ own_nonlocals (Node l fs) -> f ∈ fs -> c ∈ f -> x ∉ own_nonlocals c.
Proof.
  intros Hd Hn H Hf Hc Hx. apply H. assert (Hdp : x ∈ deep own_nonlocals fs) by (apply elem_deep; eauto).
  destruct l; try done. by destruct is_async.
Qed.
Lemma visit_steps x n : wf n = true -> relative_import n = false -> x ∉ own_nonlocals n -> steps x n.
Proof.
  induction n as [l fs IH] using node_ind'. intros Hw Hr Hnl s Hl Ht.
  pose proof (wf_node _ _ Hw) as (Ha & Hs & Hc).
  assert (Hst : forall f c, f ∈ fs -> c ∈ f -> x ∉ own_nonlocals c -> steps x c).
  { intros f c Hf Hcc. apply (IH f c Hf Hcc); [eauto|by eapply rel_child]. }
  destruct (is_def l) eqn:Hd.
  - destruct l; try done. destruct is_async; [done|]. rewrite visit_def. destruct (a_level s) as [|k] eqn:El; [lia|]. cbn [Nat.eqb].
    pose proof (inside_step x name fs Hw Hst) as Hin. change (leave_function (generic fs (enter_function name fs fresh))) with (inside name fs).
    assert (Hfe : first_event x (Node (LFunctionDef false name) fs) =
      match first_event_inside x (Node (LFunctionDef false name) fs) with Some Read => Some Read | Some Outer => Some Outer | _ => when (bool_decide (x = name)) Bound end) by done.
    rewrite Hfe. clear Hfe. set (N := inside name fs) in *. clearbody N.
    destruct (first_event_inside x _) as [[]|].
    + constructor; cbn [merge_nested a_accessible a_unclassified a_nonlocal]; intros Hx; try done; sets.
    + apply step_when_bound; cbn [merge_nested a_accessible a_unclassified a_nonlocal]; sets. rewrite bool_decide_eq_true. tauto.
    + constructor; cbn [merge_nested a_accessible a_unclassified a_nonlocal]; intros Hx; try done; sets.
    + apply step_when_bound; cbn [merge_nested a_accessible a_unclassified a_nonlocal]; sets. rewrite bool_decide_eq_true. tauto.
  - rewrite visit_node by done.
    destruct (match l with LNonlocal _ => false | _ => true end) eqn:Hn.
    2:{ destruct l; try done. apply shape_leaf in Ha; [|done]. subst fs. cbn [own_nonlocals] in Hnl. unfold set_of in Hnl. rewrite elem_of_list_to_set in Hnl.
        constructor; cbn; intros; try done; sets. }
    assert (Hch : forall f c, f ∈ fs -> c ∈ f -> steps x c) by (intros f c Hf Hcc; apply (Hst f c Hf Hcc); by eapply own_child).
    assert (Hlv : a_level (prepare l fs s) = a_level s) by (by apply prepare_level).
    assert (Htd : tidy (prepare l fs s)) by (apply prepare_tidy; [|done]; intros f c s' Hf Hcc; apply visit_tidy; eauto).
    assert (Hgp : grows s (prepare l fs s)) by (apply prepare_grows; intros f c s' Hf Hcc; apply visit_grows; eauto).
    assert (Hgg : forall s, grows s (generic fs s)) by (intros s'; apply generic_grows; intros f c s'' Hf Hcc; apply visit_grows; eauto).
    assert (Hgen : step x (fields_event x fs) (prepare l fs s) (generic fs (prepare l fs s))) by (apply generic_step; [done|done|by rewrite Hlv|done]).
    assert (Hseq : forall e, step x e s (prepare l fs s) -> step x (first_of e (fields_event x fs)) s (generic fs (prepare l fs s))) by (intros e He; by eapply step_seq).
    destruct l as [|[]| | | | |y []| | | | | | | |[]| | | | | | |[]| | |[]| | | |]; try done.
    + (* Load *) apply shape_leaf in Ha; [|done]. subst fs. cbn [generic fold_left prepare first_event]. unfold load_name.
      destruct (decide (y ∈ a_accessible s)) as [Hy|Hy].
      * constructor; intros Hx; try (intros He; exfalso; unfold when in He; case_bool_decide; congruence); try done.
      * constructor; cbn; intros Hx; try (intros He; unfold when in He; case_bool_decide; try done); sets; subst; try tauto.
        split; [|done]. split; [|by left]. intros [?| ->]; done.
    + (* Store *) apply shape_leaf in Ha; [|done]. subst fs. cbn [generic fold_left prepare first_event]. unfold store_name.
      destruct (decide (y ∈ a_accessible s)) as [Hy|Hy]; apply step_when_bound; cbn; sets; rewrite ?bool_decide_eq_true; try tauto.
      split; [by left|]. intros [?| ->]; done.
    + (* for *) apply shape_for in Ha as (target & iter & body & orelse & ->). apply Hseq. cbn [prepare].
      apply step_when_bound; cbn; [|done|done]. rewrite !elem_of_union, elem_of_difference, elem_of_list_to_set, bool_decide_eq_true. unfold tidy in Ht. change (direct_targets target) with (simple_targets target).
      destruct (decide (x ∈ a_accessible s)); [tauto|]. assert (x ∉ a_local s) by set_solver. tauto.
    + (* comp *) apply shape_comp in Ha as (elts & gens & ->). apply Hseq. cbn [prepare]. apply visits_step; [intros c Hcc; apply (Hc gens); [right; left|done]|intros c Hcc; apply (Hch gens); [right; left|done]|done|done].
    + (* gen *) apply shape_gen in Ha as (target & iter & ifs & ->). apply Hseq. cbn [prepare].
      apply step_when_bound; cbn; [|done|done]. rewrite !elem_of_union, elem_of_difference, elem_of_list_to_set, bool_decide_eq_true. unfold tidy in Ht. change (direct_targets target) with (simple_targets target).
      destruct (decide (x ∈ a_accessible s)); [tauto|]. assert (x ∉ a_local s) by set_solver. tauto.
    + (* yield *) apply (Hseq None). by apply (step_when_bound x false); cbn; sets; intuition.
    + apply (Hseq None). by apply (step_when_bound x false); cbn; sets; intuition.
    + (* try *) apply shape_try in Ha as (body & hs & orelse & fin & ->). apply Hseq. cbn [prepare]. apply step_when_bound; cbn; [|done|done].
      rewrite !elem_of_union, elem_of_list_to_set, bool_decide_eq_true. done.
    + (* import *) apply shape_leaf in Ha; [|done]. subst fs. cbn [generic fold_left prepare first_event]. apply step_when_bound; cbn; [|done|done].
      rewrite !elem_of_union, elem_of_list_to_set, bool_decide_eq_true. unfold tidy in Ht. change (map alias_name aliases) with (import_from_binds aliases).
      destruct (decide (x ∈ a_accessible s)); [tauto|]. assert (x ∉ a_imported s) by set_solver. tauto.
    + apply shape_leaf in Ha; [|done]. subst fs. cbn [generic fold_left prepare first_event]. apply step_when_bound; cbn; [|done|done].
      rewrite !elem_of_union, elem_of_list_to_set, bool_decide_eq_true. unfold tidy in Ht. change (map alias_name aliases) with (import_from_binds aliases).
      destruct (decide (x ∈ a_accessible s)); [tauto|]. assert (x ∉ a_imported s) by set_solver. tauto.
    + (* global *) apply shape_leaf in Ha; [|done]. subst fs. cbn [generic fold_left prepare first_event]. apply step_when_bound; cbn; [|done|done].
      rewrite !elem_of_union, elem_of_list_to_set, bool_decide_eq_true. done.
Qed.

(** * Upper bounds, yields, crashes *)
Section Bound.
  Variable P : ana -> Prop.
  Lemma generic_pres fs s : (forall f c s, f ∈ fs -> c ∈ f -> P s -> P (visit c s)) -> P s -> P (generic fs s).
  Proof.
    revert s. induction fs as [|f fs IH]; intros s H HP; [done|]. cbn. apply IH; [by intros g c s' Hg; apply H; right|].
    assert (Hf : forall c s, c ∈ f -> P s -> P (visit c s)) by (intros c s' Hc; by apply (H f); [left|]). clear H IH.
    revert s HP. induction f as [|c f IHf]; intros s HP; [done|]. cbn. apply IHf; [by intros d s' Hd; apply Hf; right|]. by apply Hf; [left|].
  Qed.
  Lemma visits_pres f s : (forall c s, c ∈ f -> P s -> P (visit c s)) -> P s -> P (visits f s).
  Proof. intros Hf. revert s. induction f as [|c f IHf]; intros s HP; [done|]. cbn. apply IHf; [by intros d s' Hd; apply Hf; right|]. by apply Hf; [left|]. Qed.
End Bound.
Lemma visit_globals_bound n : wf n = true -> forall (G : gset string) s, global_names n ⊆ G -> a_global s ⊆ G -> a_global (visit n s) ⊆ G.
Proof.
  induction n as [l fs IH] using node_ind'. intros Hw G s Hn Hs. pose proof (wf_node _ _ Hw) as (Ha & _ & Hc).
  assert (Hch : forall f c s, f ∈ fs -> c ∈ f -> a_global s ⊆ G -> a_global (visit c s) ⊆ G).
  { intros f c s' Hf Hcc Hs'. apply (IH f c Hf Hcc); [eauto| |done]. etransitivity; [|exact Hn]. intros x Hx.
    destruct l; try (rewrite global_deep by done; apply elem_deep; by eauto). apply shape_leaf in Ha; [|done]. subst. by inversion Hf. }
  assert (Hg : forall s, a_global s ⊆ G -> a_global (generic fs s) ⊆ G) by (intros s'; apply (generic_pres (fun s => a_global s ⊆ G)); done).
  destruct (is_def l) eqn:Hd.
  - destruct l; try done. destruct is_async; [done|]. rewrite visit_def. destruct (a_level s =? 0); cbn; [by apply Hg|].
    apply union_least; [done|]. apply Hg. cbn. set_solver.
  - rewrite visit_node by done. apply Hg. destruct l as [|[]| | | | |? []| | | | | | | |[]| | | | | | |[]| | |[]| | | |]; cbn [prepare]; try done.
    + unfold load_name. by destruct (decide _).
    + unfold store_name. by destruct (decide _).
    + by destruct fs.
    + destruct fs as [|? [|gens [|? ?]]]; try done. apply (visits_pres (fun s => a_global s ⊆ G)); [|done]. intros c s' Hcc. apply (Hch gens); [right; left|done].
    + by destruct fs.
    + by destruct fs as [|? [|? [|? [|? [|? ?]]]]].
    + cbn. apply union_least; [done|]. exact Hn.
Qed.
Lemma visit_nonlocals_bound n : wf n = true -> forall (G : gset string) s, nonlocal_names n ⊆ G -> a_nonlocal s ⊆ G -> a_nonlocal (visit n s) ⊆ G.
Proof.
  induction n as [l fs IH] using node_ind'. intros Hw G s Hn Hs. pose proof (wf_node _ _ Hw) as (Ha & _ & Hc).
  assert (Hch : forall f c s, f ∈ fs -> c ∈ f -> a_nonlocal s ⊆ G -> a_nonlocal (visit c s) ⊆ G).
  { intros f c s' Hf Hcc Hs'. apply (IH f c Hf Hcc); [eauto| |done]. etransitivity; [|exact Hn]. intros x Hx.
    destruct l; try (apply (elem_deep nonlocal_names); by eauto). apply shape_leaf in Ha; [|done]. subst. by inversion Hf. }
  assert (Hg : forall s, a_nonlocal s ⊆ G -> a_nonlocal (generic fs s) ⊆ G) by (intros s'; apply (generic_pres (fun s => a_nonlocal s ⊆ G)); done).
  destruct (is_def l) eqn:Hd.
  - destruct l; try done. destruct is_async; [done|]. rewrite visit_def. destruct (a_level s =? 0); cbn; [by apply Hg|].
    apply union_least; [done|]. assert (H : a_nonlocal (generic fs (enter_function name fs fresh)) ⊆ G) by (apply Hg; cbn; set_solver). set_solver.
  - rewrite visit_node by done. apply Hg. destruct l as [|[]| | | | |? []| | | | | | | |[]| | | | | | |[]| | |[]| | | |]; cbn [prepare]; try done.
    + unfold load_name. by destruct (decide _).
    + unfold store_name. by destruct (decide _).
    + by destruct fs.
    + destruct fs as [|? [|gens [|? ?]]]; try done. apply (visits_pres (fun s => a_nonlocal s ⊆ G)); [|done]. intros c s' Hcc. apply (Hch gens); [right; left|done].
    + by destruct fs.
    + by destruct fs as [|? [|? [|? [|? [|? ?]]]]].
    + cbn. apply union_least; [done|]. exact Hn.
Qed.
Lemma exists_fields (p : node -> bool) fs : existsb (existsb p) fs = true <-> exists f c, f ∈ fs /\ c ∈ f /\ p c = true.
Proof.
  rewrite existsb_exists. setoid_rewrite existsb_exists. setoid_rewrite <- elem_of_list_In. split.
  - intros (f & Hf & c & Hc & H). eauto.
  - intros (f & c & Hf & Hc & H). eauto.
Qed.
Lemma exists_fields_false (p : node -> bool) fs : existsb (existsb p) fs = false <-> forall f c, f ∈ fs -> c ∈ f -> p c = false.
Proof.
  split.
  - intros H f c Hf Hc. destruct (p c) eqn:E; [|done]. assert (existsb (existsb p) fs = true) by (apply exists_fields; eauto). congruence.
  - intros H. destruct (existsb (existsb p) fs) eqn:E; [|done]. apply exists_fields in E as (f & c & Hf & Hc & E). rewrite (H f c) in E; done.
Qed.
Lemma generic_hit (P : ana -> Prop) fs s f c : f ∈ fs -> c ∈ f -> (forall s', grows s s' -> P (visit c s')) -> (forall s1 s2, grows s1 s2 -> P s1 -> P s2) ->
  (forall f c, f ∈ fs -> c ∈ f -> wf c = true) -> P (generic fs s).
Proof.
  intros Hf Hc HP Hm Hw. apply elem_of_list_split in Hf as (fs1 & fs2 & ->). apply elem_of_list_split in Hc as (l1 & l2 & ->).
  unfold generic. rewrite fold_left_app. cbn. unfold visits at 2. rewrite fold_left_app. cbn.
  assert (G1 : grows s (fold_left (fun s f => visits f s) fs1 s)). { apply generic_grows. intros g d s' Hg Hd. apply visit_grows. eapply Hw; [|exact Hd]. apply elem_of_app. by left. }
  set (s1 := fold_left (fun s f => visits f s) fs1 s) in *.
  assert (G2 : grows s1 (visits l1 s1)). { apply visits_grows. intros d s' Hd. apply visit_grows. eapply Hw; [apply elem_of_app; right; left|]. apply elem_of_app. by left. }
  eapply (Hm (visit c (visits l1 s1))).
  - eapply grows_trans; [|apply generic_grows; intros g d s' Hg Hd; apply visit_grows; eapply Hw; [|exact Hd]; apply elem_of_app; right; by right].
    apply visits_grows. intros d s' Hd. apply visit_grows. eapply Hw; [apply elem_of_app; right; left|]. apply elem_of_app. right. by right.
  - apply HP. by eapply grows_trans.
Qed.
Lemma visit_yields n : wf n = true -> forall s, 1 <= a_level s -> if own_yield n then a_yields s < a_yields (visit n s) else a_yields (visit n s) = a_yields s.
Proof.
  induction n as [l fs IH] using node_ind'. intros Hw s Hl. pose proof (wf_node _ _ Hw) as (Ha & _ & Hc).
  destruct (is_def l) eqn:Hd.
  - destruct l; try done. destruct is_async; [done|]. rewrite visit_def. destruct (a_level s) as [|k] eqn:El; [lia|]. cbn. done.
  - rewrite visit_node by done.
    assert (Hgp : grows s (prepare l fs s)) by (apply prepare_grows; intros f c s' Hf Hcc; apply visit_grows; eauto).
    assert (Hgg : forall s, grows s (generic fs s)) by (intros s'; apply generic_grows; intros f c s'' Hf Hcc; apply visit_grows; eauto).
    assert (Hlv : a_level (prepare l fs s) = a_level s) by (by apply prepare_level).
    destruct (own_yield (Node l fs)) eqn:Hy.
    + assert (Hcase : l = LYield \/ l = LYieldFrom \/ existsb (existsb own_yield) fs = true). { destruct l; try (right; right; done); try (by left); try (right; by left). by destruct is_async; [right; right|]. }
      destruct Hcase as [->|[->|Hex]].
      * pose proof (g_yields _ _ (Hgg (prepare LYield fs s))). cbn in *. lia.
      * pose proof (g_yields _ _ (Hgg (prepare LYieldFrom fs s))). cbn in *. lia.
      * apply exists_fields in Hex as (f & c & Hf & Hcc & Hyc). apply (generic_hit (fun s' => a_yields s < a_yields s') fs (prepare l fs s) f c Hf Hcc); [| |done].
        -- intros s' G. pose proof (IH f c Hf Hcc (Hc f c Hf Hcc) s') as H. rewrite Hyc in H. pose proof (g_yields _ _ G). pose proof (g_yields _ _ Hgp). pose proof (g_level _ _ G). lia.
        -- intros s1 s2 G ?. pose proof (g_yields _ _ G). lia.
    + assert (Hex : existsb (existsb own_yield) fs = false /\ l <> LYield /\ l <> LYieldFrom). { destruct l; try done. by destruct is_async. }
      destruct Hex as (Hex & Hny & Hnyf). rewrite exists_fields_false in Hex.
      assert (Hch : forall f c s', f ∈ fs -> c ∈ f -> 1 <= a_level s' /\ a_yields s' = a_yields s -> 1 <= a_level (visit c s') /\ a_yields (visit c s') = a_yields s).
      { intros f c s' Hf Hcc [L Y]. pose proof (IH f c Hf Hcc (Hc f c Hf Hcc) s' L) as H. rewrite (Hex f c Hf Hcc) in H. split; [|congruence].
        rewrite (g_level _ _ (visit_grows c s' (Hc f c Hf Hcc))). done. }
      apply (generic_pres (fun s' => 1 <= a_level s' /\ a_yields s' = a_yields s)); [done|]. split; [by rewrite Hlv|].
      destruct l as [|[]| | | | |? []| | | | | | | |[]| | | | | | |[]| | |[]| | | |]; cbn [prepare]; try done.
      * unfold load_name. by destruct (decide _).
      * unfold store_name. by destruct (decide _).
      * by destruct fs.
      * destruct fs as [|? [|gens [|? ?]]]; try done. apply (visits_pres (fun s' => 1 <= a_level s' /\ a_yields s' = a_yields s)); [|done]. intros c s' Hcc. apply (Hch gens); [right; left|done].
      * by destruct fs.
      * by destruct fs as [|? [|? [|? [|? [|? ?]]]]].
Qed.
Lemma visit_crash_mono n : wf n = true -> forall s, a_crashed s = true -> a_crashed (visit n s) = true.
Proof.
  induction n as [l fs IH] using node_ind'. intros Hw s Hs. pose proof (wf_node _ _ Hw) as (Ha & _ & Hc).
  assert (Hch : forall f c s, f ∈ fs -> c ∈ f -> a_crashed s = true -> a_crashed (visit c s) = true) by eauto.
  assert (Hg : forall s, a_crashed s = true -> a_crashed (generic fs s) = true) by (intros s'; apply (generic_pres (fun s => a_crashed s = true)); done).
  destruct (is_def l) eqn:Hd.
  - destruct l; try done. destruct is_async; [done|]. rewrite visit_def. destruct (a_level s =? 0); cbn; [by apply Hg|]. by rewrite Hs.
  - rewrite visit_node by done. apply Hg. destruct l as [|[]| | | | |? []| | | | | | | |[]| | | | | | |[]| | |[]| | | |]; cbn [prepare]; try done.
    + unfold load_name. by destruct (decide _).
    + unfold store_name. by destruct (decide _).
    + by destruct fs.
    + destruct fs as [|? [|gens [|? ?]]]; try done. apply (visits_pres (fun s => a_crashed s = true)); [|done]. intros c s' Hcc. apply (Hch gens); [right; left|done].
    + by destruct fs.
    + by destruct fs as [|? [|? [|? [|? [|? ?]]]]].
Qed.
Lemma generic_hit_crash fs s f c : f ∈ fs -> c ∈ f -> (forall s', a_crashed (visit c s') = true) -> (forall f c, f ∈ fs -> c ∈ f -> wf c = true) -> a_crashed (generic fs s) = true.
Proof.
  intros Hf Hc HP Hw. apply elem_of_list_split in Hf as (fs1 & fs2 & ->). apply elem_of_list_split in Hc as (l1 & l2 & ->).
  unfold generic. rewrite fold_left_app. cbn. unfold visits at 2. rewrite fold_left_app. cbn.
  apply (generic_pres (fun s => a_crashed s = true)); [intros g d s' Hg Hd; apply visit_crash_mono; eapply Hw; [|exact Hd]; apply elem_of_app; right; by right|].
  apply (visits_pres (fun s => a_crashed s = true)); [|apply HP].
  intros d s' Hd. apply visit_crash_mono. eapply Hw; [apply elem_of_app; right; left|]. apply elem_of_app. right. by right.
Qed.
Lemma visit_crashes n : wf n = true -> relative_import n = true -> forall s, a_crashed (visit n s) = true.
Proof.
  induction n as [l fs IH] using node_ind'. intros Hw Hr s. pose proof (wf_node _ _ Hw) as (Ha & _ & Hc).
  assert (Hcase : (exists al, l = LImportFrom None al) \/ existsb (existsb relative_import) fs = true). { destruct l; try (by right). destruct module; [by right|left; eauto]. }
  destruct Hcase as [[al ->]|Hex].
  - apply shape_leaf in Ha; [|done]. by subst.
  - apply exists_fields in Hex as (f & c & Hf & Hcc & Hrc).
    assert (Hg : forall s, a_crashed (generic fs s) = true) by (intros s'; apply (generic_hit_crash fs s' f c Hf Hcc); [|done]; intros s''; apply (IH f c Hf Hcc); eauto).
    destruct (is_def l) eqn:Hd.
    + destruct l; try done. destruct is_async; [done|]. rewrite visit_def. destruct (a_level s =? 0); cbn; [by apply Hg|]. rewrite Hg. apply orb_true_r.
    + rewrite visit_node by done. apply Hg.
Qed.
Lemma visit_no_crash n : wf n = true -> relative_import n = false -> forall s, a_crashed s = false -> a_crashed (visit n s) = false.
Proof.
  induction n as [l fs IH] using node_ind'. intros Hw Hr s Hs. pose proof (wf_node _ _ Hw) as (Ha & _ & Hc).
  assert (Hch : forall f c s, f ∈ fs -> c ∈ f -> a_crashed s = false -> a_crashed (visit c s) = false) by (intros f c s' Hf Hcc; apply (IH f c Hf Hcc); [eauto|by eapply rel_child]).
  assert (Hg : forall s, a_crashed s = false -> a_crashed (generic fs s) = false) by (intros s'; apply (generic_pres (fun s => a_crashed s = false)); done).
  destruct (is_def l) eqn:Hd.
  - destruct l; try done. destruct is_async; [done|]. rewrite visit_def. destruct (a_level s =? 0); cbn; [by apply Hg|]. by rewrite Hs, Hg.
  - rewrite visit_node by done. apply Hg. destruct l as [|[]| | | | |? []| | | | | | | |[]| | | | | | |[]| | |[]| | | |]; cbn [prepare]; try done.
    + unfold load_name. by destruct (decide _).
    + unfold store_name. by destruct (decide _).
    + by destruct fs.
    + destruct fs as [|? [|gens [|? ?]]]; try done. apply (visits_pres (fun s => a_crashed s = false)); [|done]. intros c s' Hcc. apply (Hch gens); [right; left|done].
    + by destruct fs.
    + by destruct fs as [|? [|? [|? [|? [|? ?]]]]].
Qed.

(** * Names that occur only inside one nested function *)
Lemma unmentioned_label x n : mentions x n = false -> label_mentions x (label_of n) = false.
Proof. destruct n as [l fs]. cbn. intros H. by apply orb_false_iff in H as [? _]. Qed.
Lemma unmentioned_child x n f c : mentions x n = false -> f ∈ fields_of n -> c ∈ f -> mentions x c = false.
Proof. destruct n as [l fs]. cbn [mentions fields_of]. intros H Hf Hc. apply orb_false_iff in H as [_ H]. rewrite exists_fields_false in H. eauto. Qed.
Lemma list_event_none x l : (forall c, c ∈ l -> first_event x c = None) -> list_event x l = None.
Proof. induction l as [|c l IH]; intros H; [done|]. cbn. rewrite (H c (elem_of_list_here _ _)). cbn. apply IH. intros d Hd. apply H. by right. Qed.
Lemma fields_event_none x fs : (forall f c, f ∈ fs -> c ∈ f -> first_event x c = None) -> fields_event x fs = None.
Proof.
  induction fs as [|f fs IH]; intros H; [done|]. cbn. rewrite list_event_none; [|intros c; apply H; left]. cbn. apply IH. intros g c Hg. apply H. by right.
Qed.
(** children and grandchildren whose own label does not mention x *)
Definition quiet_children (x : string) (n : node) : Prop := forall f c, f ∈ fields_of n -> c ∈ f -> label_mentions x (label_of c) = false.
Lemma quiet_targets x target : (forall t, t ∈ target -> label_mentions x (label_of t) = false) -> (forall t, t ∈ target -> is_def (label_of t) = false -> quiet_children x t) -> x ∉ simple_targets target.
Proof.
  intros H1 H2 Hx. unfold simple_targets in Hx. apply elem_of_list_In, in_flat_map in Hx as (t & Ht & Hx). apply elem_of_list_In in Ht.
  assert (Hq : label_mentions x (label_of t) = false).
  { destruct target as [|[l fs] [|? ?]]; try (by apply H1); destruct l; try (by apply H1); destruct fs as [|elts [|? ?]]; try (by apply H1).
    apply (H2 (Node (LSeq tag) [elts]) (elem_of_list_here _ _) eq_refl elts t); [left|done]. }
  destruct t as [lt ft]. cbn [label_of] in *. destruct lt; try done. destruct Hx as [->|[]]. cbn in Hq. case_bool_decide; done.
Qed.
Lemma quiet_params x args : (forall t, t ∈ args -> is_def (label_of t) = false -> quiet_children x t) -> x ∉ known_params args.
Proof.
  intros H Hx. unfold known_params in Hx. destruct args as [|[l fs] [|? ?]]; try (by inversion Hx); destruct l; try (by inversion Hx);
    destruct fs as [|po [|a [|va [|ko [|kd [|ka [|d [|? ?]]]]]]]]; try (by inversion Hx).
  apply elem_of_list_In, in_flat_map in Hx as (t & Ht & Hx). apply elem_of_list_In in Ht.
  pose proof (H _ (elem_of_list_here _ _) eq_refl) as Hq. assert (label_mentions x (label_of t) = false).
  { rewrite !elem_of_app in Ht. destruct Ht as [Ht|[Ht|Ht]]; (eapply Hq; [|exact Ht]); cbn [fields_of]; rewrite !elem_of_cons; tauto. }
  destruct t as [lt ft]. destruct lt; try done. destruct Hx as [->|[]]. cbn in *. case_bool_decide; done.
Qed.
Lemma own_nonlocals_unmentioned x n : mentions x n = false -> x ∉ own_nonlocals n.
Proof.
  induction n as [l fs IH] using node_ind'. intros Hm Hx. assert (Hc : x ∉ deep own_nonlocals fs).
  { intros H. apply elem_deep in H as (f & c & Hf & Hc & H). revert H. apply (IH f c Hf Hc). by apply (unmentioned_child x (Node l fs) f). }
  pose proof (unmentioned_label _ _ Hm) as Hl. cbn [label_of] in Hl.
  destruct l; try done; cbn [own_nonlocals] in Hx. - by destruct is_async. - cbn in Hl. case_bool_decide; [done|]. unfold set_of in Hx. by apply elem_of_list_to_set in Hx.
Qed.
Lemma unmentioned_event x n : mentions x n = false -> first_event x n = None.
Proof.
  induction n as [l fs IH] using node_ind'. intros Hm. pose proof (unmentioned_label _ _ Hm) as Hl. cbn [label_of] in Hl.
  assert (Hch : forall f c, f ∈ fs -> c ∈ f -> mentions x c = false) by (intros f c Hf Hc; by apply (unmentioned_child x (Node l fs) f)).
  assert (Hall : fields_event x fs = None) by (apply fields_event_none; eauto).
  assert (Hq : forall f, f ∈ fs -> (forall t, t ∈ f -> label_mentions x (label_of t) = false) /\ (forall t, t ∈ f -> is_def (label_of t) = false -> quiet_children x t)).
  { intros f Hf. split; intros t Ht; [apply unmentioned_label; eauto|]. intros _ g c Hg Hc. apply unmentioned_label. eapply unmentioned_child; [|done|done]. eauto. }
  destruct l as [|[]| | | | |y []| | | | | | | |[]| | | | | | |[]| | |[]| | | |]; try exact Hall; cbn [label_mentions] in Hl.
  - cbn [first_event]. rewrite concat_nonlocals, decide_False.
    + change (fold_right _ None fs) with (fields_event x fs). rewrite Hall.
      rewrite (bool_decide_eq_false_2 (x ∈ match fs with args :: _ => known_params args | [] => [] end)).
      * cbn [when first_of]. rewrite Hl. done.
      * destruct fs as [|args rest]; [intros H; by inversion H|]. apply quiet_params. apply Hq. left.
    + intros H. apply elem_deep in H as (f & c & Hf & Hc & H). revert H. apply own_nonlocals_unmentioned. eauto.
  - cbn [first_event]. by rewrite Hl.
  - cbn [first_event]. by rewrite Hl.
  - cbn [first_event]. change (fold_right _ None fs) with (fields_event x fs). rewrite Hall. destruct fs as [|target rest]; [done|].
    rewrite bool_decide_eq_false_2; [done|]. apply quiet_targets; apply Hq; left.
  - cbn [first_event]. change (fold_right _ None fs) with (fields_event x fs). rewrite Hall. destruct fs as [|elts [|gens [|? ?]]]; try done.
    change (fold_right _ None gens) with (list_event x gens). rewrite list_event_none; [done|]. intros c Hc. apply (IH gens); [right; left|done|]. eapply Hch; [right; left|done].
  - cbn [first_event]. change (fold_right _ None fs) with (fields_event x fs). rewrite Hall. destruct fs as [|target rest]; [done|].
    rewrite bool_decide_eq_false_2; [done|]. apply quiet_targets; apply Hq; left.
  - cbn [first_event]. change (fold_right _ None fs) with (fields_event x fs). rewrite Hall. destruct fs as [|body [|hs [|orelse [|fin [|? ?]]]]]; try done.
    rewrite bool_decide_eq_false_2; [done|]. intros Hx. apply elem_of_list_In, in_flat_map in Hx as (t & Ht & Hx). apply elem_of_list_In in Ht.
    destruct (Hq hs) as [Hq1 _]; [right; left|]. specialize (Hq1 t Ht). destruct t as [lt ft]. cbn [label_of] in *. destruct lt; try done. destruct name; [|done].
    destruct Hx as [->|[]]. cbn in Hq1. case_bool_decide; done.
  - cbn [first_event]. by rewrite Hl.
  - cbn [first_event]. by rewrite Hl.
  - cbn [first_event]. by rewrite Hl.
  - cbn [first_event]. by rewrite Hl.
  - done.
Qed.
Lemma list_event_hit x l1 c l2 : (forall d, d ∈ l1 -> first_event x d = None) -> first_event x c = Some Outer -> list_event x (l1 ++ c :: l2) = Some Outer.
Proof. induction l1 as [|d l1 IH]; intros H Hc; cbn; [by rewrite Hc|]. rewrite (H d (elem_of_list_here _ _)). apply IH; [|done]. intros e He. apply H. by right. Qed.
Lemma fields_event_hit x fs1 f fs2 : (forall g d, g ∈ fs1 -> d ∈ g -> first_event x d = None) -> list_event x f = Some Outer -> fields_event x (fs1 ++ f :: fs2) = Some Outer.
Proof.
  induction fs1 as [|d fs1 IH]; intros H Hc; cbn; [by rewrite Hc|]. rewrite list_event_none; [|intros c; apply H; left]. apply IH; [|done]. intros e c He. apply H. by right.
Qed.
Section Only.
  Variables (x : string) (g : node).
  Hypothesis Hg : first_event x g = Some Outer.
  Hypothesis Hgl : label_mentions x (label_of g) = false.
  Hypothesis Hgd : is_def (label_of g) = true.
  Lemma only_label n : only_in x g n -> label_mentions x (label_of n) = false.
  Proof. intros H. destruct H as [|l fs1 f1 c f2 fs2 Hl Ho Hc]; [exact Hgl|exact Hl]. Qed.
  Lemma only_quiet n : only_in x g n -> is_def (label_of n) = false -> quiet_children x n.
  Proof.
    intros H Hd. inversion H as [|l fs1 f1 c f2 fs2 Hl Ho Hc]; subst; [congruence|]. intros f d Hf Hdd. cbn [fields_of] in Hf.
    apply elem_of_app in Hf as [Hf|Hf]; [apply unmentioned_label, (Ho f); [apply elem_of_app; by left|done]|].
    apply elem_of_cons in Hf as [->|Hf]; [|apply unmentioned_label, (Ho f); [apply elem_of_app; right; right; by right|done]].
    apply elem_of_app in Hdd as [Hdd|Hdd]; [apply unmentioned_label, (Ho f1); [apply elem_of_app; right; left|done]|].
    apply elem_of_cons in Hdd as [->|Hdd]; [by apply only_label|apply unmentioned_label, (Ho f2); [apply elem_of_app; right; right; left|done]].
  Qed.
  Lemma only_event n : only_in x g n -> wf n = true -> first_event x n = Some Outer.
  Proof.
    induction 1 as [|l fs1 f1 c f2 fs2 Hl Ho Hc IH]; [done|]. intros Hw. pose proof (wf_node _ _ Hw) as (Ha & _ & Hwc).
    assert (Hwcc : wf c = true). { apply (Hwc (f1 ++ c :: f2)); [apply elem_of_app; right; left|apply elem_of_app; right; left]. } specialize (IH Hwcc).
    assert (Hleaf : no_fields l = true -> False). { intros Hn. apply shape_leaf in Ha; [|done]. by destruct fs1. }
    set (fs := fs1 ++ (f1 ++ c :: f2) :: fs2) in *.
    assert (Hle : list_event x (f1 ++ c :: f2) = Some Outer).
    { apply list_event_hit; [|done]. intros d Hd. apply unmentioned_event, (Ho f1); [apply elem_of_app; right; left|done]. }
    assert (Hall : fields_event x fs = Some Outer).
    { apply fields_event_hit; [|done]. intros f d Hf Hd. apply unmentioned_event, (Ho f); [apply elem_of_app; by left|done]. }
    assert (Hq : forall f, f ∈ fs -> (forall t, t ∈ f -> label_mentions x (label_of t) = false) /\ (forall t, t ∈ f -> is_def (label_of t) = false -> quiet_children x t)).
    { assert (Hm : forall t, mentions x t = false -> label_mentions x (label_of t) = false /\ (is_def (label_of t) = false -> quiet_children x t)).
      { intros t Ht. split; [by apply unmentioned_label|]. intros _ f' c' Hf' Hc'. apply unmentioned_label. by eapply unmentioned_child. }
      assert (Ht : forall f t, f ∈ fs -> t ∈ f -> label_mentions x (label_of t) = false /\ (is_def (label_of t) = false -> quiet_children x t)).
      { intros f t Hf Ht. apply elem_of_app in Hf as [Hf|Hf]; [apply Hm, (Ho f); [apply elem_of_app; by left|done]|].
        apply elem_of_cons in Hf as [->|Hf]; [|apply Hm, (Ho f); [apply elem_of_app; right; right; by right|done]].
        apply elem_of_app in Ht as [Ht|Ht]; [apply Hm, (Ho f1); [apply elem_of_app; right; left|done]|].
        apply elem_of_cons in Ht as [->|Ht]; [split; [by apply only_label|by apply only_quiet]|apply Hm, (Ho f2); [apply elem_of_app; right; right; left|done]]. }
      intros f Hf. split; intros t Htf; by apply (Ht f t Hf Htf). }
    assert (Hcomp : forall elts gens, fs = [elts; gens] -> list_event x gens = None \/ list_event x gens = Some Outer).
    { intros elts gens E. unfold fs in E. destruct fs1 as [|h fs1].
      - injection E as E1 E2. subst. left. apply list_event_none. intros d Hd. apply unmentioned_event, (Ho gens); [right; right; left|done].
      - destruct fs1 as [|? [|? ?]]; try done. injection E as E1 E2. subst. by right. }
    clearbody fs. cbn [label_mentions] in Hl.
    destruct l as [|[]| | | | |y []| | | | | | | |[]| | | | | | |[]| | |[]| | | |]; try exact Hall; cbn [label_mentions] in Hl.
    - cbn [first_event]. rewrite concat_nonlocals. destruct (decide _); [done|]. change (fold_right _ None fs) with (fields_event x fs). rewrite Hall.
      rewrite (bool_decide_eq_false_2 (x ∈ match fs with args :: _ => known_params args | [] => [] end)); [done|].
      destruct fs as [|args rest]; [intros H; by inversion H|]. apply quiet_params. apply Hq. left.
    - by destruct Hleaf.
    - by destruct Hleaf.
    - cbn [first_event]. change (fold_right _ None fs) with (fields_event x fs). rewrite Hall. destruct fs as [|target rest]; [done|].
      rewrite bool_decide_eq_false_2; [done|]. apply quiet_targets; apply Hq; left.
    - cbn [first_event]. change (fold_right _ None fs) with (fields_event x fs). rewrite Hall. destruct fs as [|elts [|gens [|? ?]]]; try done.
      change (fold_right _ None gens) with (list_event x gens). by destruct (Hcomp elts gens eq_refl) as [->| ->].
    - cbn [first_event]. change (fold_right _ None fs) with (fields_event x fs). rewrite Hall. destruct fs as [|target rest]; [done|].
      rewrite bool_decide_eq_false_2; [done|]. apply quiet_targets; apply Hq; left.
    - cbn [first_event]. change (fold_right _ None fs) with (fields_event x fs). rewrite Hall. destruct fs as [|body [|hs [|orelse [|fin [|? ?]]]]]; try done.
      rewrite bool_decide_eq_false_2; [done|]. intros Hx. apply elem_of_list_In, in_flat_map in Hx as (t & Ht & Hx). apply elem_of_list_In in Ht.
      destruct (Hq hs) as [Hq1 _]; [right; left|]. specialize (Hq1 t Ht). destruct t as [lt ft]. cbn [label_of] in *. destruct lt; try done. destruct name; [|done].
      destruct Hx as [->|[]]. cbn in Hq1. case_bool_decide; done.
    - by destruct Hleaf.
    - by destruct Hleaf.
    - by destruct Hleaf.
    - by destruct Hleaf.
    - by destruct Hleaf.
  Qed.
End Only.
