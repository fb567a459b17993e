(** What the names analyzer records of one name is determined by the list of its uses. *)
From Coq Require Import String.
From stdpp Require Import gmap sets.
From Verif Require Import Lib.Py Model.PyAst Model.Normalizer Model.NamesAnalyzer Spec.Scoping Spec.NameUses Proofs.PyAstP Proofs.NamesAnalyzerP Proofs.NamesEventsP.
Local Open Scope nat_scope.

(** known, reported as read, reported as nonlocal *)
Definition obs3 : Type := bool * bool * bool.
Definition obs (x : string) (s : ana) : obs3 := (bool_decide (x ∈ a_accessible s), bool_decide (x ∈ a_unclassified s), bool_decide (x ∈ a_nonlocal s)).
Definition effect (o : obs3) (u : use) : obs3 :=
  let '(a, r, n) := o in
  match u with
  | Own Read => (true, r || negb a, n)
  | Own Bound => (true, r, n)
  | Own Outer => (true, r, true)
  | Nested Read => (a, r || negb a, n)
  | Nested Outer => (a, r, n || negb a)
  | Nested Bound => o
  end.
Definition effects (us : list use) (o : obs3) : obs3 := fold_left effect us o.
Lemma effects_app us vs o : effects (us ++ vs) o = effects vs (effects us o).
Proof. apply fold_left_app. Qed.

(** reading the outcome off the list *)
Lemma effects_known us r n : effects us (true, r, n) = (true, r, n || existsb is_own_outer us).
Proof.
  revert r n. induction us as [|u us IH]; intros r n; cbn; [by rewrite orb_false_r|].
  destruct u as [[]|[]]; cbn; unfold effects in IH; rewrite ?orb_false_r, ?IH; try done. destruct n; done.
Qed.
Lemma effects_unknown us r n : exists a, effects us (false, r, n) = (a, r || reads_outside us, n || nonlocal_outside us).
Proof.
  revert r n. induction us as [|u us IH]; intros r n; [exists false; cbn; by rewrite !orb_false_r|]. unfold nonlocal_outside in *.
  destruct u as [[]|[]]; cbn [effects fold_left effect reads_outside nested_outer existsb is_own_outer orb negb]; rewrite ?orb_true_r, ?orb_false_r; fold (effects us).
  - exists true. rewrite effects_known. done.
  - exists true. rewrite effects_known. done.
  - exists true. rewrite effects_known. done.
  - destruct (IH true n) as [a E]. exists a. change (fold_left effect us ?o) with (effects us o). rewrite E. done.
  - destruct (IH r n) as [a E]. exists a. change (fold_left effect us ?o) with (effects us o). by rewrite E.
  - destruct (IH r true) as [a E]. exists a. change (fold_left effect us ?o) with (effects us o). by rewrite E.
Qed.

Definition prep_uses (x : string) (l : label) (fs : list (list node)) : list use :=
  match l with
  | LName y Load => if_use (bool_decide (x = y)) (Own Read)
  | LName y Store => if_use (bool_decide (x = y)) (Own Bound)
  | LTry false => if_use (match fs with [_; hs; _; _] => bool_decide (x ∈ handler_names hs) | _ => false end) (Own Bound)
  | LGen | LFor false => if_use (match fs with target :: _ => bool_decide (x ∈ direct_targets target) | [] => false end) (Own Bound)
  | LComp _ => match fs with [_; gens] => flat_map (uses x) gens | _ => [] end
  | LImport aliases | LImportFrom (Some _) aliases => if_use (bool_decide (x ∈ map alias_name aliases)) (Own Bound)
  | LGlobal ys => if_use (bool_decide (x ∈ ys)) (Own Bound)
  | LNonlocal ys => if_use (bool_decide (x ∈ ys)) (Own Outer)
  | _ => []
  end.
Definition all_uses (x : string) (fs : list (list node)) : list use := flat_map (flat_map (uses x)) fs.
Lemma uses_node x l fs : is_def l = false -> arity_ok l fs = true -> uses x (Node l fs) = prep_uses x l fs ++ all_uses x fs.
Proof.
  intros Hd Ha. destruct l as [|[]| | | | |? []| | | | | | | |[]| | | | | | |[]| | |[]| | | |]; try done; try (destruct fs; [|done]; cbn; by rewrite ?app_nil_r).
Qed.
Lemma obs_bound x (xs : list string) (s s' : ana) : (forall y, y ∈ a_accessible s' <-> y ∈ a_accessible s \/ y ∈ xs) -> a_unclassified s' = a_unclassified s -> a_nonlocal s' = a_nonlocal s ->
  obs x s' = effects (if_use (bool_decide (x ∈ xs)) (Own Bound)) (obs x s).
Proof.
  intros Ha Hu Hn. unfold obs. rewrite Hu, Hn. destruct (bool_decide (x ∈ xs)) eqn:E; cbn.
  - apply bool_decide_eq_true in E. f_equal. f_equal. apply bool_decide_eq_true. apply Ha. by right.
  - apply bool_decide_eq_false in E. f_equal. f_equal. apply bool_decide_ext. rewrite Ha. tauto.
Qed.
Definition follows (x : string) (n : node) : Prop := forall s, 1 <= a_level s -> tidy s -> obs x (visit n s) = effects (uses x n) (obs x s).
Lemma visits_follow x l s : (forall c, c ∈ l -> wf c = true) -> (forall c, c ∈ l -> follows x c) -> 1 <= a_level s -> tidy s ->
  obs x (visits l s) = effects (flat_map (uses x) l) (obs x s).
Proof.
  revert s. induction l as [|c l IH]; intros s Hw Hf Hl Ht; [done|]. cbn [visits fold_left flat_map]. change (fold_left (fun s c => visit c s) l ?s) with (visits l s).
  rewrite effects_app, <- (Hf c (elem_of_list_here _ _) s Hl Ht). apply IH.
  - intros d Hd. apply Hw. by right.
  - intros d Hd. apply Hf. by right.
  - rewrite (g_level _ _ (visit_grows c s (Hw c (elem_of_list_here _ _)))). done.
  - apply visit_tidy; [apply Hw; left|done].
Qed.
Lemma generic_follow x fs s : (forall f c, f ∈ fs -> c ∈ f -> wf c = true) -> (forall f c, f ∈ fs -> c ∈ f -> follows x c) -> 1 <= a_level s -> tidy s ->
  obs x (generic fs s) = effects (all_uses x fs) (obs x s).
Proof.
  revert s. induction fs as [|f fs IH]; intros s Hw Hf Hl Ht; [done|]. cbn [generic fold_left flat_map all_uses]. change (fold_left (fun s f => visits f s) fs ?s) with (generic fs s).
  change (flat_map (flat_map (uses x)) fs) with (all_uses x fs).
  assert (Hwf : forall c, c ∈ f -> wf c = true) by (intros c Hc; apply (Hw f); [left|done]).
  rewrite effects_app, <- (visits_follow x f s Hwf (fun c Hc => Hf f c (elem_of_list_here _ _) Hc) Hl Ht). apply IH.
  - intros g c Hg. apply Hw. by right.
  - intros g c Hg. apply Hf. by right.
  - rewrite visits_level by done. done.
  - by apply visits_tidy.
Qed.
Lemma prepare_follow x l fs s : wf (Node l fs) = true -> (forall f c, f ∈ fs -> c ∈ f -> follows x c) -> 1 <= a_level s -> tidy s ->
  obs x (prepare l fs s) = effects (prep_uses x l fs) (obs x s).
Proof.
  intros Hw Hf Hl Ht. pose proof (wf_node _ _ Hw) as (Ha & _ & Hc). unfold tidy in Ht.
  destruct l as [|[]| | | | |y []| | | | | | | |[]| | | | | | |[]| | |[]| | | |]; cbn [prepare prep_uses]; try done.
  - unfold load_name, obs. destruct (decide (x = y)) as [->|Hx]; cbn.
    + rewrite (bool_decide_eq_true_2 (y = y)) by done. cbn. destruct (decide (y ∈ a_accessible s)) as [Hy|Hy].
      * rewrite (bool_decide_eq_true_2 (y ∈ a_accessible s)) by done. cbn. by rewrite orb_false_r.
      * rewrite (bool_decide_eq_false_2 (y ∈ a_accessible s)) by done. cbn. rewrite orb_true_r. f_equal; [f_equal|..]; apply bool_decide_eq_true; set_solver.
    + rewrite (bool_decide_eq_false_2 (x = y)) by done. cbn. destruct (decide (y ∈ a_accessible s)); [done|]. cbn. f_equal; [f_equal|..]; apply bool_decide_ext; set_solver.
  - rewrite <- (bool_decide_ext (x ∈ [y]) (x = y)) by apply elem_of_list_singleton. apply obs_bound; unfold store_name; destruct (decide (y ∈ a_accessible s)); cbn; try done.
    + intros z. rewrite elem_of_list_singleton. split; [by left|intros [H|H]; [done|by rewrite H]].
    + intros z. rewrite elem_of_union, elem_of_singleton, elem_of_list_singleton. done.
  - destruct (shape_for _ _ Ha) as (t & i & b & o & ->). apply obs_bound; [|done|done]. intros z. cbn. rewrite !elem_of_union, elem_of_difference, elem_of_list_to_set.
    split; [intros [?|[?|[? ?]]]; [by left|left; set_solver|by right]|]. intros [?|?]; [by left|]. destruct (decide (z ∈ a_accessible s)); [by left|]. right. by right.
  - destruct (shape_comp _ _ Ha) as (e & g & ->). apply visits_follow; [|intros c Hcc; apply (Hf g); [right; left|done]|done|done].
    intros c Hcc. apply (Hc g); [right; left|done].
  - destruct (shape_gen _ Ha) as (t & i & o & ->). apply obs_bound; [|done|done]. intros z. cbn. rewrite !elem_of_union, elem_of_difference, elem_of_list_to_set.
    split; [intros [?|[?|[? ?]]]; [by left|left; set_solver|by right]|]. intros [?|?]; [by left|]. destruct (decide (z ∈ a_accessible s)); [by left|]. right. by right.
  - destruct (shape_try _ _ Ha) as (t & i & b & o & ->). apply obs_bound; [|done|done]. intros z. cbn. rewrite elem_of_union, elem_of_list_to_set. done.
  - apply obs_bound; [|done|done]. intros z. cbn. rewrite !elem_of_union, elem_of_list_to_set. split; [intros [?|[?|?]]; [by left|left; set_solver|by right]|intros [?|?]; [by left|right; by right]].
  - apply obs_bound; [|done|done]. intros z. cbn. rewrite !elem_of_union, elem_of_list_to_set. split; [intros [?|[?|?]]; [by left|left; set_solver|by right]|intros [?|?]; [by left|right; by right]].
  - apply obs_bound; [|done|done]. intros z. cbn. rewrite !elem_of_union, elem_of_list_to_set. done.
  - unfold obs. cbn. destruct (bool_decide (x ∈ names)) eqn:E; cbn.
    + apply bool_decide_eq_true in E. f_equal; [f_equal|..]; apply bool_decide_eq_true; rewrite elem_of_union, elem_of_list_to_set; by right.
    + apply bool_decide_eq_false in E. f_equal; [f_equal|..]; apply bool_decide_ext; rewrite elem_of_union, elem_of_list_to_set; tauto.
Qed.
Lemma params_known x fs : (forall f c, f ∈ fs -> c ∈ f -> wf c = true) ->
  bool_decide (x ∈ analyzer_params fs) = bool_decide (x ∈ match fs with args :: _ => known_params args | [] => [] end).
Proof.
  intros Hw. apply bool_decide_ext. destruct fs as [|args fs]; [done|]. unfold analyzer_params, known_params.
  destruct args as [|[[] ff] [|? ?]]; try done. destruct ff as [|po [|a [|va [|ko [|kd [|ka [|de [|? ?]]]]]]]]; try done.
  pose proof (Hw _ _ (elem_of_list_here _ _) (elem_of_list_here _ _)) as H. apply wf_node in H as (_ & Hs & _). cbn [sorts_ok] in Hs. rewrite forallb_forall in Hs.
  assert (Hl : forall l, (forall n, n ∈ l -> is_arg n = true) -> map arg_name l = arg_names l).
  { induction l as [|n l IH]; intros H; [done|]. cbn. unfold arg_names in *. cbn. rewrite <- IH by (intros m Hm; apply H; by right). pose proof (H n (elem_of_list_here _ _)) as Hn. unfold is_arg in Hn. unfold arg_name. destruct (label_of n); done. }
  rewrite Hl; [done|]. intros n Hn. apply Hs, elem_of_list_In. rewrite !elem_of_app in *. tauto.
Qed.
Lemma inside_follow x name fs : (forall f c, f ∈ fs -> c ∈ f -> wf c = true) -> (forall f c, f ∈ fs -> c ∈ f -> follows x c) ->
  obs x (inside name fs) = effects (uses_inside x (Node (LFunctionDef false name) fs)) (false, false, false).
Proof.
  intros Hw Hf. unfold inside. change (obs x (leave_function ?s)) with (obs x s). cbn [uses_inside]. change (flat_map (flat_map (uses x)) fs) with (all_uses x fs). rewrite effects_app.
  assert (E : obs x (enter_function name fs fresh) = effects (if_use (bool_decide (x ∈ match fs with args :: _ => known_params args | [] => [] end)) (Own Bound)) (false, false, false)).
  { rewrite <- params_known by done. change (false, false, false) with (obs x fresh). apply obs_bound; [|done|done]. intros y. cbn. rewrite !elem_of_union, elem_of_list_to_set. set_solver. }
  rewrite <- E. apply generic_follow; [done|done|cbn; lia|]. unfold tidy. cbn. set_solver.
Qed.
Lemma merge_bool (a b : gset string) acc x : bool_decide (x ∈ a ∪ (b ∖ acc)) = bool_decide (x ∈ a) || (bool_decide (x ∈ b) && negb (bool_decide (x ∈ acc))).
Proof.
  destruct (decide (x ∈ a)), (decide (x ∈ b)), (decide (x ∈ acc));
    rewrite ?(bool_decide_eq_true_2 (x ∈ a)), ?(bool_decide_eq_false_2 (x ∈ a)), ?(bool_decide_eq_true_2 (x ∈ b)), ?(bool_decide_eq_false_2 (x ∈ b)), ?(bool_decide_eq_true_2 (x ∈ acc)), ?(bool_decide_eq_false_2 (x ∈ acc)) by done;
    cbn; first [apply bool_decide_eq_true; set_solver|apply bool_decide_eq_false; set_solver].
Qed.
Lemma visit_follows x n : wf n = true -> follows x n.
Proof.
  induction n as [l fs IH] using node_ind'. intros Hw s Hl Ht. pose proof (wf_node _ _ Hw) as (Ha & _ & Hc).
  assert (Hf : forall f c, f ∈ fs -> c ∈ f -> follows x c) by eauto.
  destruct (is_def l) eqn:Hd.
  - destruct l as [|[]| | | | | | | | | | | | | | | | | | | | | | | | | | |]; try done. rewrite visit_def. destruct (a_level s) as [|lv] eqn:El; [lia|]. cbn [Nat.eqb].
    change (leave_function _) with (inside name fs). pose proof (inside_follow x name fs Hc Hf) as Hi.
    change (uses x (Node (LFunctionDef false name) fs)) with (nested_uses x name (uses_inside x (Node (LFunctionDef false name) fs))).
    set (us := uses_inside x _) in *. destruct (effects_unknown us false false) as [a E]. rewrite E, !orb_false_l in Hi. unfold obs in Hi.
    assert (Hr : bool_decide (x ∈ a_unclassified (inside name fs)) = reads_outside us) by by injection Hi.
    assert (Hn : bool_decide (x ∈ a_nonlocal (inside name fs)) = nonlocal_outside us) by by injection Hi.
    unfold obs. cbn [merge_nested a_accessible a_unclassified a_nonlocal]. rewrite !merge_bool, Hr, Hn. unfold nested_uses.
    assert (Hacc : bool_decide (x ∈ a_accessible s ∪ {[name]}) = bool_decide (x ∈ a_accessible s) || bool_decide (x = name)).
    { destruct (decide (x ∈ a_accessible s)) as [H1|H1]; [rewrite !(bool_decide_eq_true_2 (x ∈ _)) by set_solver; done|]. rewrite (bool_decide_eq_false_2 (x ∈ a_accessible s)) by done. cbn. apply bool_decide_ext. set_solver. }
    rewrite Hacc. destruct (reads_outside us), (nonlocal_outside us), (bool_decide (x = name)), (bool_decide (x ∈ a_accessible s)), (bool_decide (x ∈ a_unclassified s)), (bool_decide (x ∈ a_nonlocal s)); reflexivity.
  - rewrite visit_node, uses_node by done. rewrite effects_app, <- (prepare_follow x l fs s) by done. apply generic_follow; [done|done|by rewrite prepare_level|].
    apply prepare_tidy; [|done]. intros f c s' Hff Hcc. apply visit_tidy. eauto.
Qed.
(** Exactly what is reported of each name. *)
Lemma inside_reports x name fs : wf (Node (LFunctionDef false name) fs) = true -> let us := uses_inside x (Node (LFunctionDef false name) fs) in
  (x ∈ a_unclassified (inside name fs) <-> reads_outside us = true) /\ (x ∈ a_nonlocal (inside name fs) <-> nonlocal_outside us = true).
Proof.
  intros Hw us. pose proof (wf_node _ _ Hw) as (_ & _ & Hc). assert (Hi : obs x (inside name fs) = effects us (false, false, false)).
  { apply inside_follow; [done|]. intros f c Hf Hcc. apply visit_follows. eauto. }
  destruct (effects_unknown us false false) as [a E]. rewrite E, !orb_false_l in Hi. unfold obs in Hi.
    assert (Hr : bool_decide (x ∈ a_unclassified (inside name fs)) = reads_outside us) by by injection Hi.
    assert (Hn : bool_decide (x ∈ a_nonlocal (inside name fs)) = nonlocal_outside us) by by injection Hi.
  rewrite <- Hr, <- Hn, !bool_decide_eq_true. done.
Qed.

(** Every known name is in one of the lists. *)
Definition is_own (u : use) : bool := match u with Own _ => true | _ => false end.
Lemma effects_acc us a r n : fst (fst (effects us (a, r, n))) = a || existsb is_own us.
Proof.
  revert a r n. induction us as [|u us IH]; intros a r n; cbn; [by rewrite orb_false_r|]. unfold effects in IH.
  destruct u as [[]|[]]; cbn; rewrite IH; cbn; by rewrite ?orb_true_r.
Qed.
Definition listed (s : ana) : gset string := a_local s ∪ a_imported s ∪ a_global s ∪ a_nonlocal s ∪ a_unclassified s.
Definition sorted (s : ana) : Prop := a_accessible s ⊆ listed s.
Lemma enter_sorted name fs s : sorted s -> sorted (enter_function name fs s).
Proof. unfold sorted, listed. cbn. set_solver. Qed.
Lemma prepare_sorted l fs s : (forall f c s, f ∈ fs -> c ∈ f -> sorted s -> sorted (visit c s)) -> sorted s -> sorted (prepare l fs s).
Proof.
  intros H Hs. destruct l as [|[]| | | | |y []| | | | | | | |[]| | | | | | |[]| | |[]| | | |]; cbn [prepare]; try done.
  - unfold load_name. destruct (decide _); [done|]. unfold sorted, listed in *. cbn. set_solver.
  - unfold store_name. destruct (decide _); [done|]. unfold sorted, listed in *. cbn. set_solver.
  - destruct fs; [done|]. unfold sorted, listed in *. cbn. set_solver.
  - destruct fs as [|? [|gens [|? ?]]]; try done. assert (Hg : forall c s, c ∈ gens -> sorted s -> sorted (visit c s)) by (intros c s' Hc; apply (H gens); [right; left|done]).
    clear H. revert s Hs. induction gens as [|c gens IH]; intros s Hs; [done|]. cbn. apply IH; [|apply Hg; [left|done]]. intros d s' Hd. apply Hg. by right.
  - destruct fs; [done|]. unfold sorted, listed in *. cbn. set_solver.
  - destruct fs as [|? [|? [|? [|? [|? ?]]]]]; try done. unfold sorted, listed in *. cbn. set_solver.
  - unfold sorted, listed in *. cbn. set_solver.
  - unfold sorted, listed in *. cbn. set_solver.
  - unfold sorted, listed in *. cbn. set_solver.
  - unfold sorted, listed in *. cbn. set_solver.
Qed.
Lemma generic_sorted fs s : (forall f c s, f ∈ fs -> c ∈ f -> sorted s -> sorted (visit c s)) -> sorted s -> sorted (generic fs s).
Proof.
  revert s. induction fs as [|f fs IHf]; intros s Hv Ht; [done|]. cbn. apply IHf; [by intros g c s' Hg; apply Hv; right|].
  assert (Hf : forall c s, c ∈ f -> sorted s -> sorted (visit c s)) by (intros c s' Hcc; apply (Hv f); [left|done]).
  clear Hv IHf. revert s Ht. induction f as [|c f IHc]; intros s Ht; [done|]. cbn. apply IHc; [|apply Hf; [left|done]]. intros d s' Hd. apply Hf. by right.
Qed.
Lemma visit_sorted n : wf n = true -> forall s, sorted s -> sorted (visit n s).
Proof.
  induction n as [l fs IH] using node_ind'. intros Hw s Ht. pose proof (wf_node _ _ Hw) as (Ha & _ & Hc).
  assert (Hv : forall f c s, f ∈ fs -> c ∈ f -> sorted s -> sorted (visit c s)) by eauto.
  destruct (is_def l) eqn:Hd.
  - destruct l; try done. destruct is_async; [done|]. rewrite visit_def. destruct (a_level s =? 0).
    + change (sorted (generic fs (enter_function name fs s))). apply generic_sorted; [done|by apply enter_sorted].
    + unfold sorted, listed in *. cbn. set_solver.
  - rewrite visit_node by done. apply generic_sorted; [done|]. by apply prepare_sorted.
Qed.
Lemma inside_listed x name fs : wf (Node (LFunctionDef false name) fs) = true -> existsb is_own (uses_inside x (Node (LFunctionDef false name) fs)) = true -> x ∈ listed (inside name fs).
Proof.
  intros Hw Ho. pose proof (wf_node _ _ Hw) as (_ & _ & Hc).
  assert (Hs : sorted (inside name fs)).
  { change (sorted (generic fs (enter_function name fs fresh))). apply generic_sorted; [|apply enter_sorted; unfold sorted; cbn; set_solver]. intros f c s' Hf Hcc. apply visit_sorted. eauto. }
  apply Hs. assert (Hi : obs x (inside name fs) = effects (uses_inside x (Node (LFunctionDef false name) fs)) (false, false, false)).
  { apply inside_follow; [done|]. intros f c Hf Hcc. apply visit_follows. eauto. }
  apply (f_equal (fun o => fst (fst o))) in Hi. rewrite effects_acc, Ho in Hi. cbn in Hi. by apply bool_decide_eq_true in Hi.
Qed.
