From Coq Require Import String.
From stdpp Require Import gmap.
From Verif Require Import Lib.Py Model.PyAst Model.Normalizer Model.NamesAnalyzer Spec.Scoping Proofs.PyAstP.
Local Open Scope nat_scope.

Definition visits (l : list node) (s : ana) : ana := fold_left (fun s c => visit c s) l s.
Definition generic (fs : list (list node)) (s : ana) : ana := fold_left (fun s f => visits f s) fs s.
Definition prepare (l : label) (fs : list (list node)) (s : ana) : ana :=
  match l with
  | LName x Load => load_name x s
  | LName x Store => store_name x s
  | LYield | LYieldFrom => count_yield s
  | LTry false => match fs with [_; hs; _; _] => add_local (handler_names hs) s | _ => s end
  | LGen | LFor false => match fs with target :: _ => comprehension_targets (direct_targets target) s | _ => s end
  | LComp _ => match fs with [_; gens] => visits gens s | _ => s end
  | LImport aliases => import_names (map alias_name aliases) s
  | LImportFrom (Some _) aliases => import_names (map alias_name aliases) s
  | LImportFrom None _ => crash s
  | LNonlocal xs => declare_nonlocal xs s
  | LGlobal xs => declare_global xs s
  | _ => s
  end.
Definition is_def (l : label) : bool := match l with LFunctionDef false _ => true | _ => false end.
Lemma visit_node l fs s : is_def l = false -> arity_ok l fs = true -> visit (Node l fs) s = generic fs (prepare l fs s).
Proof.
  intros Hd Ha. destruct l as [|[]| | | | |? []| | | | | | | |[]| | | | | | |[]| | |[]| | | |]; try done.
  destruct fs; done.
Qed.
Lemma visit_def name fs s :
  visit (Node (LFunctionDef false name) fs) s =
    if a_level s =? 0 then leave_function (generic fs (enter_function name fs s))
    else merge_nested name (leave_function (generic fs (enter_function name fs fresh))) s.
Proof. done. Qed.

Lemma elem_unions {A} (f : A -> gset string) l x : x ∈ unions (map f l) <-> exists y, y ∈ l /\ x ∈ f y.
Proof.
  unfold unions. rewrite elem_of_union_list. split.
  - intros (X & HX & Hx). apply elem_of_list_fmap in HX as (y & -> & Hy). by exists y.
  - intros (y & Hy & Hx). exists (f y). split; [|done]. apply elem_of_list_fmap. by exists y.
Qed.
Definition deep (f : node -> gset string) (fs : list (list node)) : gset string := unions (map (fun l => unions (map f l)) fs).
Lemma elem_deep f fs x : x ∈ deep f fs <-> exists l c, l ∈ fs /\ c ∈ l /\ x ∈ f c.
Proof.
  unfold deep. rewrite elem_unions. split.
  - intros (l & Hl & H). apply elem_unions in H as (c & Hc & H). eauto.
  - intros (l & c & Hl & Hc & H). exists l. split; [done|]. apply elem_unions. eauto.
Qed.

(** * What the analyzer reports only grows *)
Definition reported (s : ana) : gset string := a_unclassified s ∪ a_global s ∪ a_nonlocal s.
Record grows (s s' : ana) : Prop := Grows {
  g_level : a_level s' = a_level s;
  g_unc : a_unclassified s ⊆ a_unclassified s';
  g_glob : a_global s ⊆ a_global s';
  g_nonloc : a_nonlocal s ⊆ a_nonlocal s';
  g_acc : a_accessible s ⊆ a_accessible s';
  g_yields : a_yields s <= a_yields s'
}.
Lemma grows_refl s : grows s s.
Proof. by constructor. Qed.
Lemma grows_trans s1 s2 s3 : grows s1 s2 -> grows s2 s3 -> grows s1 s3.
Proof. intros [] []. constructor; [congruence|set_solver|set_solver|set_solver|set_solver|lia]. Qed.
Lemma grows_reported s s' : grows s s' -> reported s ⊆ reported s'.
Proof. intros []. unfold reported. set_solver. Qed.
Lemma visits_grows l s : (forall c s, c ∈ l -> grows s (visit c s)) -> grows s (visits l s).
Proof.
  revert s. induction l as [|c l IH]; intros s H; [apply grows_refl|]. cbn. eapply grows_trans; [apply H; left|].
  apply IH. intros d s' Hd. apply H. by right.
Qed.
Lemma generic_grows fs s : (forall f c s, f ∈ fs -> c ∈ f -> grows s (visit c s)) -> grows s (generic fs s).
Proof.
  revert s. induction fs as [|f fs IH]; intros s H; [apply grows_refl|]. cbn. eapply grows_trans; [apply visits_grows; intros c s' Hc; by apply (H f); [left|]|].
  apply IH. intros g c s' Hg Hc. apply (H g); [by right|done].
Qed.
Lemma prepare_grows l fs s : (forall f c s, f ∈ fs -> c ∈ f -> grows s (visit c s)) -> grows s (prepare l fs s).
Proof.
  intros H. destruct l as [|[]| | | | |? []| | | | | | | |[]| | | | | | |[]| | |[]| | | |]; cbn [prepare]; try apply grows_refl.
  - unfold load_name. destruct (decide _); [apply grows_refl|]. constructor; cbn; first [lia|set_solver].
  - unfold store_name. destruct (decide _); [apply grows_refl|]. constructor; cbn; first [lia|set_solver].
  - destruct fs; [apply grows_refl|]. constructor; cbn; first [lia|set_solver].
  - destruct fs as [|? [|gens [|? ?]]]; try apply grows_refl. apply visits_grows. intros c s' Hc. apply (H gens); [right; left|done].
  - destruct fs; [apply grows_refl|]. constructor; cbn; first [lia|set_solver].
  - constructor; cbn; first [lia|set_solver].
  - constructor; cbn; first [lia|set_solver].
  - destruct fs as [|? [|? [|? [|? [|? ?]]]]]; try apply grows_refl. constructor; cbn; first [lia|set_solver].
  - constructor; cbn; first [lia|set_solver].
  - constructor; cbn; first [lia|set_solver].
  - constructor; cbn; first [lia|set_solver].
  - constructor; cbn; first [lia|set_solver].
  - constructor; cbn; first [lia|set_solver].
Qed.
Lemma visit_grows n : forall s, wf n = true -> grows s (visit n s).
Proof.
  induction n as [l fs IH] using node_ind'. intros s Hw. apply wf_node in Hw as (Ha & Hs & Hc).
  assert (Hg : forall f c s, f ∈ fs -> c ∈ f -> grows s (visit c s)) by eauto.
  destruct (is_def l) eqn:Hd.
  - destruct l; try done. destruct is_async; [done|]. rewrite visit_def. destruct (a_level s =? 0) eqn:E.
    + apply Nat.eqb_eq in E. pose proof (generic_grows fs (enter_function name fs s) Hg) as [H1 H2 H3 H4 H5 H6]. cbn in *.
      constructor; cbn; [lia|done|done|done|set_solver|done].
    + constructor; cbn; first [lia|set_solver].
  - rewrite visit_node by done. eapply grows_trans; [by apply prepare_grows|by apply generic_grows].
Qed.

(** * Every accessible name is local to the function, or reported, or excepted *)
Definition okname (E : env) (X : gset string) (x : string) : Prop := E x = false \/ x ∈ X.
Definition Inv (E : env) (X : gset string) (s : ana) : Prop :=
  forall x, x ∈ a_accessible s ∪ a_local s ∪ a_imported s -> E x = false \/ x ∈ reported s ∪ X.
Lemma leaky_deep l fs x : x ∈ deep leaky fs -> x ∈ leaky (Node l fs).
Proof.
  intros H. destruct l as [|[]| | | | | | | | | | | | | | | | | | | | | | | | | | |]; cbn [leaky]; try exact H.
  - destruct fs as [|? [|? [|? [|? [|? ?]]]]]; try exact H. apply elem_of_union. by right.
  - destruct fs as [|? [|? [|? [|? [|? ?]]]]]; try exact H. apply elem_of_union. by right.
  - destruct fs as [|? [|? [|? [|? [|? ?]]]]]; try exact H. apply elem_of_union. by right.
  - destruct fs as [|? [|? [|? ?]]]; try exact H. apply elem_of_union. by right.
  - destruct fs as [|? ?]; try exact H. apply elem_of_union. by right.
  - apply elem_of_union. by right.
Qed.
Lemma leaky_child l fs f c : f ∈ fs -> c ∈ f -> leaky c ⊆ leaky (Node l fs).
Proof. intros Hf Hc x Hx. apply leaky_deep, elem_deep. eauto. Qed.
Lemma shape_def b name fs : arity_ok (LFunctionDef b name) fs = true -> exists args body decos returns, fs = [args; body; decos; returns].
Proof. cbn. intros H. repeat (destruct fs as [|? fs]; try (by repeat case_match)). eauto. Qed.
Lemma shape_class name fs : arity_ok (LClassDef name) fs = true -> exists args body decos returns, fs = [args; body; decos; returns].
Proof. cbn. intros H. repeat (destruct fs as [|? fs]; try (by repeat case_match)). eauto. Qed.
Lemma shape_lambda fs : arity_ok LLambda fs = true -> exists args body, fs = [args; body].
Proof. cbn. intros H. repeat (destruct fs as [|? fs]; try (by repeat case_match)). eauto. Qed.
Lemma shape_gen fs : arity_ok LGen fs = true -> exists target iter ifs, fs = [target; iter; ifs].
Proof. cbn. intros H. repeat (destruct fs as [|? fs]; try (by repeat case_match)). eauto. Qed.
Lemma shape_for b fs : arity_ok (LFor b) fs = true -> exists target iter body orelse, fs = [target; iter; body; orelse].
Proof. cbn. intros H. repeat (destruct fs as [|? fs]; try (by repeat case_match)). eauto. Qed.
Lemma shape_comp t fs : arity_ok (LComp t) fs = true -> exists elts gens, fs = [elts; gens].
Proof. cbn. intros H. repeat (destruct fs as [|? fs]; try (by repeat case_match)). eauto. Qed.
Lemma shape_try b fs : arity_ok (LTry b) fs = true -> exists body hs orelse fin, fs = [body; hs; orelse; fin].
Proof. cbn. intros H. repeat (destruct fs as [|? fs]; try (by repeat case_match)). eauto. Qed.
Definition no_fields (l : label) : bool := match l with LName _ _ | LStr _ | LConst _ | LPass | LImport _ | LImportFrom _ _ | LGlobal _ | LNonlocal _ => true | _ => false end.
Lemma shape_leaf l fs : no_fields l = true -> arity_ok l fs = true -> fs = [].
Proof. destruct l; try done; by destruct fs. Qed.
(** labels for which nothing special happens *)
Definition plain (l : label) : bool :=
  match l with
  | LFunctionDef _ _ | LClassDef _ | LLambda | LGen | LComp _ | LName _ _ | LHandler (Some _) | LCapture _ | LImport _ | LImportFrom _ _ | LGlobal _ | LNonlocal _ => false
  | _ => true
  end.
Lemma plain_binds l fs : plain l = true -> binds (Node l fs) = deep binds fs.
Proof. destruct l as [| | | | | | | | | | | | | | | | | | | | | |[]| | | | | |]; done. Qed.
Lemma plain_leaky l fs : plain l = true -> leaky (Node l fs) = deep leaky fs.
Proof. destruct l as [| | | | | | | | | | | | | | | | | | | | | |[]| | | | | |]; done. Qed.
Lemma plain_declared b l fs : plain l = true -> declared b (Node l fs) = deep (declared b) fs.
Proof. destruct l as [| | | | | | | | | | | | | | | | | | | | | |[]| | | | | |]; done. Qed.
Lemma plain_outside cur fn l fs : plain l = true -> outside cur fn (Node l fs) = deep (outside cur fn) fs.
Proof. destruct l as [| | | | | | | | | | | | | | | | | | | | | |[]| | | | | |]; done. Qed.
Lemma global_deep l fs : (match l with LGlobal _ => false | _ => true end) = true -> global_names (Node l fs) = deep global_names fs.
Proof. destruct l; done. Qed.

Lemma binds_child l fs f c : is_def l = false -> arity_ok l fs = true -> f ∈ fs -> c ∈ f -> binds c ⊆ binds (Node l fs) ∪ leaky (Node l fs).
Proof.
  intros Hd Ha Hf Hc x Hx. assert (Hdeep : x ∈ deep binds fs) by (apply elem_deep; eauto).
  assert (Hl : forall g, g ∈ fs -> c ∈ g -> x ∈ unions (map binds g)) by (intros g Hg Hcg; apply elem_unions; eauto).
  destruct (plain l) eqn:Hp. { apply elem_of_union_l. by rewrite plain_binds. }
  destruct (no_fields l) eqn:Hn. { apply shape_leaf in Ha; [|done]. subst. by inversion Hf. }
  destruct l as [|[]| | | | | | | | | | | | | | | | | | | | |[]| | | | | |]; try done.
  - apply shape_def in Ha as (? & ? & ? & ? & ->). apply elem_of_union. cbn [binds leaky]. unfold binds_all. rewrite !elem_of_cons in Hf. rewrite !elem_of_union.
    destruct Hf as [->|[->|[->|[->|Hf]]]]; [left; left; left; right; apply elem_unions; eauto|right; left; apply elem_unions; eauto|left; left; right; apply elem_unions; eauto|left; right; apply elem_unions; eauto|by inversion Hf].
  - apply shape_class in Ha as (? & ? & ? & ? & ->). apply elem_of_union. cbn [binds leaky]. unfold binds_all. rewrite !elem_of_cons in Hf. rewrite !elem_of_union.
    destruct Hf as [->|[->|[->|[->|Hf]]]]; [left; left; left; right; apply elem_unions; eauto|left; left; right; apply elem_unions; eauto|right; left; apply elem_unions; eauto|left; right; apply elem_unions; eauto|by inversion Hf].
  - apply shape_lambda in Ha as (? & ? & ->). apply elem_of_union. cbn [binds leaky]. unfold binds_all. rewrite !elem_of_cons in Hf. rewrite !elem_of_union.
    destruct Hf as [->|[->|Hf]]; [left; apply elem_unions; eauto|right; left; apply elem_unions; eauto|by inversion Hf].
  - apply elem_of_union_l. exact Hdeep.
  - apply shape_gen in Ha as (? & ? & ? & ->). apply elem_of_union. cbn [binds leaky]. unfold binds_all. rewrite !elem_of_cons in Hf. rewrite !elem_of_union.
    destruct Hf as [->|[->|[->|Hf]]]; [right; left; apply elem_unions; eauto|left; left; apply elem_unions; eauto|left; right; apply elem_unions; eauto|by inversion Hf].
  - apply elem_of_union_l. cbn [binds]. apply elem_of_union_r. exact Hdeep.
  - apply elem_of_union_l. cbn [binds]. apply elem_of_union_r. exact Hdeep.
Qed.

Lemma Inv_add E X s s' :
  grows s s' -> Inv E X s ->
  (forall x, x ∈ a_accessible s' ∪ a_local s' ∪ a_imported s' -> x ∈ a_accessible s ∪ a_local s ∪ a_imported s \/ okname E X x \/ x ∈ reported s') ->
  Inv E X s'.
Proof.
  intros Hg HI H x Hx. destruct (H x Hx) as [H1|[H1|H1]].
  - destruct (HI x H1) as [?|?]; [by left|]. right. pose proof (grows_reported _ _ Hg). set_solver.
  - destruct H1; [by left|right; set_solver].
  - right. set_solver.
Qed.
Lemma before_dot_alias aliases x : x ∈ map alias_name aliases -> x ∈ set_of (import_binds aliases) \/
  x ∈ set_of (flat_map (fun a => match snd a with Some _ => [] | None => if decide (before_dot (fst a) = fst a) then [] else [fst a] end) aliases).
Proof.
  intros H. apply elem_of_list_fmap in H as ([a o] & -> & H). unfold set_of, import_binds. rewrite !elem_of_list_to_set. cbn.
  destruct o as [y|]; cbn.
  - left. apply elem_of_list_fmap. by exists (a, Some y).
  - destruct (decide (before_dot a = a)) as [E|E].
    + left. apply elem_of_list_fmap. exists (a, None). by rewrite <- E at 1.
    + right. apply elem_of_list_In, in_flat_map. exists (a, None). split; [by apply elem_of_list_In|]. cbn. rewrite decide_False by done. by left.
Qed.
Lemma direct_targets_binds target x :
  forallb (fun t => negb (is_load t)) match target with [Node (LSeq _) [elts]] => elts | _ => target end = true ->
  x ∈ direct_targets target -> x ∈ binds_all target.
Proof.
  unfold direct_targets. set (elts := match target with [Node (LSeq _) [elts]] => elts | _ => target end). intros Hs Hx.
  apply elem_of_list_In, in_flat_map in Hx as ([l fs] & Ht & Hx). cbn [label_of] in Hx.
  assert (Hb : x ∈ unions (map binds elts)).
  { apply elem_unions. exists (Node l fs). split; [by apply elem_of_list_In|]. rewrite forallb_forall in Hs. specialize (Hs _ Ht).
    destruct l as [| | | | | |y []| | | | | | | | | | | | | | | | | | | | | |]; try done; destruct Hx as [->|[]]; cbn [binds]; by apply elem_of_singleton. }
  unfold binds_all. subst elts. destruct target as [|[[] [|? [|? ?]]] [|? ?]]; try exact Hb. cbn [map binds]. unfold unions at 1. cbn. rewrite union_empty_r_L.
  unfold unions at 1. cbn. rewrite union_empty_r_L. exact Hb.
Qed.
Lemma stores_node l fs : stores_ok (Node l fs) = true ->
  match l, fs with
  | (LGen | LFor _), target :: _ => forallb (fun t => negb (is_load t)) match target with [Node (LSeq _) [elts]] => elts | _ => target end
  | _, _ => true
  end = true /\ forall f c, f ∈ fs -> c ∈ f -> stores_ok c = true.
Proof.
  cbn [stores_ok]. intros H. apply andb_true_iff in H as [Ha Hf]. split; [exact Ha|]. intros f c Hin Hc.
  rewrite forallb_forall in Hf. specialize (Hf f (proj1 (elem_of_list_In _ _) Hin)). rewrite forallb_forall in Hf. apply Hf. by apply elem_of_list_In.
Qed.
Definition covered (E : env) (X : gset string) (n : node) : Prop := (forall x, x ∈ binds n -> okname E X x) /\ leaky n ⊆ X.
Lemma covered_child E X l fs f c : is_def l = false -> arity_ok l fs = true -> covered E X (Node l fs) -> f ∈ fs -> c ∈ f -> covered E X c.
Proof.
  intros Hd Ha [Hb Hl] Hf Hc. split.
  - intros x Hx. pose proof (binds_child l fs f c Hd Ha Hf Hc x Hx) as H. apply elem_of_union in H as [H|H]; [by apply Hb|]. right. by apply Hl.
  - etransitivity; [by eapply leaky_child|done].
Qed.
Definition pres (E : env) (X : gset string) (c : node) : Prop := forall s, 1 <= a_level s -> Inv E X s -> Inv E X (visit c s).
Lemma visits_inv E X l s : (forall c, c ∈ l -> wf c = true) -> (forall c, c ∈ l -> pres E X c) -> 1 <= a_level s -> Inv E X s -> Inv E X (visits l s).
Proof.
  revert s. induction l as [|c l IH]; intros s Hw H Hl HI; [done|]. cbn. apply IH.
  - intros d Hd. apply Hw. by right.
  - intros d Hd. apply H. by right.
  - rewrite (g_level _ _ (visit_grows c s (Hw c (elem_of_list_here _ _)))). done.
  - apply H; [left|done|done].
Qed.
Lemma visits_level l s : (forall c, c ∈ l -> wf c = true) -> a_level (visits l s) = a_level s.
Proof. intros H. apply (visits_grows l s). intros c s' Hc. apply visit_grows. by apply H. Qed.
Lemma generic_inv E X fs s : (forall f c, f ∈ fs -> c ∈ f -> wf c = true) -> (forall f c, f ∈ fs -> c ∈ f -> pres E X c) -> 1 <= a_level s -> Inv E X s -> Inv E X (generic fs s).
Proof.
  revert s. induction fs as [|f fs IH]; intros s Hw H Hl HI; [done|]. cbn. apply IH.
  - intros g c Hg. apply Hw. by right.
  - intros g c Hg. apply H. by right.
  - rewrite visits_level; [done|]. intros c Hc. apply (Hw f); [left|done].
  - apply visits_inv; [|by (intros c Hc; apply (H f); [left|])|done|done]. intros c Hc. apply (Hw f); [left|done].
Qed.
Lemma prepare_level l fs s : (forall f c, f ∈ fs -> c ∈ f -> wf c = true) -> a_level (prepare l fs s) = a_level s.
Proof. intros H. apply (prepare_grows l fs s). intros f c s' Hf Hc. apply visit_grows. by eapply H. Qed.
Lemma handler_binds hs x : forallb is_handler hs = true -> x ∈ handler_names hs -> x ∈ unions (map binds hs).
Proof.
  intros _ H. apply elem_of_list_In, in_flat_map in H as ([l fs] & Hh & Hx). apply elem_unions. exists (Node l fs). split; [by apply elem_of_list_In|].
  cbn [label_of] in Hx. destruct l; try done. destruct name; [|done]. destruct Hx as [->|[]]. cbn [binds]. set_solver.
Qed.
Lemma prepare_inv E X l fs s :
  wf (Node l fs) = true -> stores_ok (Node l fs) = true -> (forall f c, f ∈ fs -> c ∈ f -> pres E X c) -> is_def l = false -> covered E X (Node l fs) ->
  1 <= a_level s -> Inv E X s -> Inv E X (prepare l fs s).
Proof.
  intros Hw Hso Hp Hd [Hb Hlk] Hl HI. apply wf_node in Hw as (Ha & Hs & Hc). apply stores_node in Hso as [Hst _].
  assert (Hg : grows s (prepare l fs s)) by (apply prepare_grows; intros f c s' Hf Hcc; apply visit_grows; by eapply Hc).
  destruct l as [|[]| | | | |? []| | | | | | | |[]| | | | | | |[]| | |[]| | | |]; try done.
  - eapply Inv_add; [exact Hg|done|]. cbn. unfold load_name. destruct (decide _); [by left|]. cbn. unfold reported; cbn. intros x. destruct (decide (x = id)); set_solver.
  - eapply Inv_add; [exact Hg|done|]. cbn. unfold store_name. destruct (decide _); [by left|]. cbn. unfold reported; cbn. intros x. destruct (decide (x = id)) as [->|].
    + right. left. apply Hb. cbn [binds]. set_solver.
    + set_solver.
  - pose proof (shape_for _ _ Ha) as (target & iter & body & orelse & ->). eapply Inv_add; [exact Hg|done|]. cbn. intros x Hx.
    destruct (decide (x ∈ direct_targets target)) as [Ht|Ht]; [|left; set_solver]. right. left. apply Hb. pose proof (direct_targets_binds target x Hst Ht).
    apply (elem_deep binds). apply elem_unions in H as (y & Hy & H). exists target, y. split; [left|done].
  - destruct (shape_comp _ _ Ha) as (elts & gens & ->). cbn [prepare]. apply visits_inv; [|intros c Hcc; apply (Hp gens); [right; left|done]|done|done].
    intros c Hcc. apply (Hc gens); [right; left|done].
  - pose proof (shape_gen _ Ha) as (target & iter & ifs & ->). eapply Inv_add; [exact Hg|done|]. cbn. intros x Hx.
    destruct (decide (x ∈ direct_targets target)) as [Ht|Ht]; [|left; set_solver]. right. left. right. apply Hlk. pose proof (direct_targets_binds target x Hst Ht).
    cbn [leaky]. set_solver.
  - pose proof (shape_try _ _ Ha) as (body & hs & orelse & fin & ->). eapply Inv_add; [exact Hg|done|]. cbn. intros x Hx.
    destruct (decide (x ∈ handler_names hs)) as [Ht|Ht]; [|left; set_solver]. right. left. apply Hb. apply (elem_deep binds).
    pose proof (handler_binds hs x Hs Ht). apply elem_unions in H as (y & Hy & H). exists hs, y. split; [right; left|done].
  - eapply Inv_add; [exact Hg|done|]. cbn. intros x Hx. destruct (decide (x ∈ map alias_name aliases)) as [Ht|Ht]; [|left; set_solver].
    right. left. apply before_dot_alias in Ht as [Ht|Ht]; [by apply Hb|]. right. apply Hlk. cbn [leaky]. set_solver.
  - eapply Inv_add; [exact Hg|done|]. cbn. intros x Hx. destruct (decide (x ∈ map alias_name aliases)) as [Ht|Ht]; [|left; set_solver].
    right. left. apply Hb. cbn [binds]. unfold set_of. apply elem_of_list_to_set. done.
  - eapply Inv_add; [exact Hg|done|]. cbn. unfold reported; cbn. set_solver.
  - eapply Inv_add; [exact Hg|done|]. cbn. unfold reported; cbn. set_solver.
Qed.
Lemma visit_inv n : wf n = true -> stores_ok n = true -> forall E X, covered E X n -> pres E X n.
Proof.
  induction n as [l fs IH] using node_ind'. intros Hw Hso E X Hcov s Hl HI.
  pose proof (wf_node _ _ Hw) as (Ha & Hs & Hc). pose proof (stores_node _ _ Hso) as (_ & Hsc).
  destruct (is_def l) eqn:Hd.
  - destruct l; try done. destruct is_async; [done|]. rewrite visit_def.
    destruct (a_level s) as [|k] eqn:El; [lia|]. cbn [Nat.eqb]. apply shape_def in Ha as (args & body & decos & returns & ->).
    eapply Inv_add; [|exact HI|].
    + constructor; cbn; first [lia|set_solver].
    + cbn. intros x Hx. destruct (decide (x = name)) as [->|]; [|left; set_solver]. right. left. apply Hcov. cbn [binds]. set_solver.
  - rewrite visit_node by done.
    assert (Hp : forall f c, f ∈ fs -> c ∈ f -> pres E X c) by (intros f c Hf Hcc; eapply IH; eauto; by eapply covered_child).
    apply generic_inv; [done|done| |by apply prepare_inv]. rewrite prepare_level by done. done.
Qed.

(** * The specification is monotone *)
Definition le_env (e e' : env) : Prop := forall x, e x = true -> e' x = true.
Definition omono (n : node) : Prop := forall cur cur' fn fn', le_env cur cur' -> le_env fn fn' -> outside cur fn n ⊆ outside cur' fn' n.
Lemma le_function_env p b e e' : le_env e e' -> le_env (function_env p b e) (function_env p b e').
Proof. intros H x. unfold function_env. repeat case_decide; try done; apply H. Qed.
Lemma le_comp_env g e e' : le_env e e' -> le_env (comp_env g e) (comp_env g e').
Proof. intros H x. unfold comp_env. case_decide; [done|apply H]. Qed.
Lemma omono_list cur cur' fn fn' l : (forall c, c ∈ l -> omono c) -> le_env cur cur' -> le_env fn fn' -> unions (map (outside cur fn) l) ⊆ unions (map (outside cur' fn') l).
Proof. intros H H1 H2 x Hx. apply elem_unions in Hx as (c & Hc & Hx). apply elem_unions. exists c. split; [done|]. exact (H c Hc _ _ _ _ H1 H2 x Hx). Qed.
Lemma omono_deep cur cur' fn fn' fs : (forall f c, f ∈ fs -> c ∈ f -> omono c) -> le_env cur cur' -> le_env fn fn' -> deep (outside cur fn) fs ⊆ deep (outside cur' fn') fs.
Proof. intros H H1 H2 x Hx. apply elem_deep in Hx as (l & c & Hl & Hc & Hx). apply elem_deep. exists l, c. split_and!; [done|done|]. exact (H l c Hl Hc _ _ _ _ H1 H2 x Hx). Qed.
Lemma oref_mono (cur cur' : env) x : le_env cur cur' -> (if cur x then {[x]} else ∅ : gset string) ⊆ (if cur' x then {[x]} else ∅).
Proof. intros H. specialize (H x). destruct (cur x); [rewrite H by done; done|set_solver]. Qed.
Lemma union_mono4 (a b c d a' b' c' d' : gset string) : a ⊆ a' -> b ⊆ b' -> c ⊆ c' -> d ⊆ d' -> a ∪ b ∪ c ∪ d ⊆ a' ∪ b' ∪ c' ∪ d'.
Proof. set_solver. Qed.
Lemma outside_mono_all n : wf n = true -> omono n /\ forall f c, f ∈ fields_of n -> c ∈ f -> omono c.
Proof.
  induction n as [l fs IH] using node_ind'. intros Hw. pose proof (wf_node _ _ Hw) as (Ha & Hs & Hc). cbn [fields_of].
  assert (Hch : forall f c, f ∈ fs -> c ∈ f -> omono c) by (intros f c Hf Hcc; exact (proj1 (IH f c Hf Hcc (Hc f c Hf Hcc)))).
  split; [|done]. intros cur cur' fn fn' H1 H2.
  destruct (plain l) eqn:Hp; [rewrite !plain_outside by done; by apply omono_deep|].
  destruct l; try done.
  - apply shape_def in Ha as (args & body & decos & returns & ->). cbn [outside].
    apply union_mono; [apply union_mono4|].
    + by apply oref_mono.
    + apply omono_list; [|done|done]. intros c. apply Hch. left.
    + apply omono_list; [|done|done]. intros c. apply Hch. right; right; left.
    + apply omono_list; [|done|done]. intros c. apply Hch. right; right; right; left.
    + apply omono_list; [|by apply le_function_env|by apply le_function_env]. intros c. apply Hch. right; left.
  - apply shape_class in Ha as (bases & kw & body & decos & ->). cbn [outside].
    apply union_mono; [apply union_mono4|].
    + by apply oref_mono.
    + apply omono_list; [|done|done]. intros c. apply Hch. left.
    + apply omono_list; [|done|done]. intros c. apply Hch. right; left.
    + apply omono_list; [|done|done]. intros c. apply Hch. right; right; right; left.
    + apply omono_list; [|by apply le_function_env|done]. intros c. apply Hch. right; right; left.
  - apply shape_lambda in Ha as (args & body & ->). cbn [outside]. apply union_mono.
    + apply omono_list; [|done|done]. intros c. apply Hch. left.
    + apply omono_list; [|by apply le_function_env|by apply le_function_env]. intros c. apply Hch. right; left.
  - cbn [outside]. by apply oref_mono.
  - apply shape_comp in Ha as (elts & gens & ->). cbn [outside]. apply union_mono.
    + apply omono_list; [|by apply le_comp_env|by apply le_comp_env]. intros c. apply Hch. left.
    + destruct gens as [|[lg fg] rest]; [done|]. apply union_mono.
      * assert (Hgg : forall f c, f ∈ fg -> c ∈ f -> omono c).
        { apply (fun H => proj2 (IH (Node lg fg :: rest) (Node lg fg) (elem_of_list_further _ _ _ (elem_of_list_here _ _)) (elem_of_list_here _ _) H)). apply (Hc (Node lg fg :: rest)); [right; left|left]. }
        destruct fg as [|t [|i [|fi [|? ?]]]]; try done. apply union_mono; [apply union_mono|].
        -- apply omono_list; [|by apply le_comp_env|by apply le_comp_env]. intros c. apply Hgg. left.
        -- apply omono_list; [|done|done]. intros c. apply Hgg. right; left.
        -- apply omono_list; [|by apply le_comp_env|by apply le_comp_env]. intros c. apply Hgg. right; right; left.
      * apply omono_list; [|by apply le_comp_env|by apply le_comp_env]. intros c Hc'. apply (Hch (Node lg fg :: rest)); [right; left|by right].
  - apply (omono_deep cur cur' fn fn' fs Hch H1 H2).
  - destruct name; [|done]. cbn [outside]. apply union_mono; [by apply oref_mono|]. apply (omono_deep cur cur' fn fn' fs Hch H1 H2).
  - cbn [outside]. intros x Hx. apply elem_unions in Hx as (y & Hy & Hx). apply elem_unions. exists y. split; [done|]. revert Hx. by apply oref_mono.
  - cbn [outside]. intros x Hx. apply elem_unions in Hx as (y & Hy & Hx). apply elem_unions. exists y. split; [done|]. revert Hx. by apply oref_mono.
  - cbn [outside]. apply (omono_deep cur cur' fn fn' fs Hch H1 H2).
  - cbn [outside]. apply (omono_deep cur cur' fn fn' fs Hch H1 H2).
  - cbn [outside]. apply union_mono; [by apply oref_mono|]. apply (omono_deep cur cur' fn fn' fs Hch H1 H2).
Qed.
Lemma outside_mono n : wf n = true -> omono n.
Proof. intros H. by apply outside_mono_all. Qed.

(** An outside name is one the environment says is outside, or one declared global somewhere. *)
Definition oenv (n : node) : Prop := forall cur fn x, x ∈ outside cur fn n -> cur x = true \/ fn x = true \/ x ∈ global_names n.
Lemma oref_env (cur : env) (x y : string) : x ∈ (if cur y then {[y]} else ∅ : gset string) -> cur x = true.
Proof. destruct (cur y) eqn:E; [|set_solver]. intros ->%elem_of_singleton. done. Qed.
Lemma declared_global n : wf n = true -> declared true n ⊆ global_names n.
Proof.
  induction n as [l fs IH] using node_ind'. intros Hw. pose proof (wf_node _ _ Hw) as (Ha & Hs & Hc).
  destruct l; cbn [declared global_names]; try done; try (intros x Hx; by apply elem_of_empty in Hx); intros x Hx; apply (elem_deep (declared true)) in Hx as (f0 & c0 & Hf & Hcc & Hx);
    apply (elem_deep global_names); exists f0, c0; (split_and!; [done|done|]); by eapply IH; eauto.
Qed.
Lemma function_env_true p b e x : (forall c, c ∈ b -> wf c = true) -> function_env p b e x = true -> e x = true \/ x ∈ unions (map global_names b).
Proof.
  intros Hw. unfold function_env. repeat case_decide; auto; try done. intros _. right. apply elem_unions in H as (c & Hc & H). apply elem_unions. exists c. split; [done|].
  apply declared_global; auto.
Qed.
Lemma comp_env_true g e x : comp_env g e x = true -> e x = true.
Proof. unfold comp_env. by case_decide. Qed.
Lemma outside_env_all n : wf n = true -> oenv n /\ forall f c, f ∈ fields_of n -> c ∈ f -> oenv c.
Proof.
  induction n as [l fs IH] using node_ind'. intros Hw. pose proof (wf_node _ _ Hw) as (Ha & Hs & Hc). cbn [fields_of].
  assert (Hch : forall f c, f ∈ fs -> c ∈ f -> oenv c) by (intros f c Hf Hcc; exact (proj1 (IH f c Hf Hcc (Hc f c Hf Hcc)))).
  split; [|done]. intros cur fn x Hx.
  assert (Hdp : (match l with LGlobal _ => false | _ => true end) = true -> x ∈ deep (outside cur fn) fs -> cur x = true \/ fn x = true \/ x ∈ global_names (Node l fs)).
  { intros Hng H. rewrite global_deep by done. apply elem_deep in H as (f & c & Hf & Hcc & H). apply (Hch f c Hf Hcc) in H as [H|[H|H]]; [auto|auto|].
    right. right. apply elem_deep. eauto. }
  assert (Hlist : forall f, (match l with LGlobal _ => false | _ => true end) = true -> f ∈ fs -> x ∈ unions (map (outside cur fn) f) -> cur x = true \/ fn x = true \/ x ∈ global_names (Node l fs)).
  { intros f Hng Hf H. apply Hdp; [done|]. apply elem_unions in H as (c & ? & ?). apply elem_deep. eauto. }
  assert (Hscope : forall f cur' fn', (match l with LGlobal _ => false | _ => true end) = true -> f ∈ fs -> x ∈ unions (map (outside cur' fn') f) ->
     (cur' x = true -> fn x = true \/ x ∈ global_names (Node l fs)) -> (fn' x = true -> fn x = true \/ x ∈ global_names (Node l fs)) -> cur x = true \/ fn x = true \/ x ∈ global_names (Node l fs)).
  { intros f cur' fn' Hng Hf H G1 G2. apply elem_unions in H as (c & Hcc & H). apply (Hch f c Hf Hcc) in H as [H|[H|H]]; [apply G1 in H; tauto|apply G2 in H; tauto|].
    right. right. rewrite global_deep by done. apply elem_deep. eauto. }
  assert (Hbody : forall body p, (match l with LGlobal _ => false | _ => true end) = true -> body ∈ fs -> function_env p body fn x = true -> fn x = true \/ x ∈ global_names (Node l fs)).
  { intros body p Hng Hb H. apply function_env_true in H as [H|H]; [by left| |by (intros; eapply Hc; eauto)]. right. rewrite global_deep by done.
    apply elem_unions in H as (c & ? & ?). apply elem_deep. eauto. }
  destruct (plain l) eqn:Hp. { rewrite plain_outside in Hx by done. apply Hdp; [by destruct l|done]. }
  destruct l; try done.
  - apply shape_def in Ha as (args & body & decos & returns & ->). cbn [outside] in Hx. rewrite !elem_of_union in Hx.
    destruct Hx as [[[[Hx|Hx]|Hx]|Hx]|Hx].
    + left. by apply oref_env in Hx.
    + revert Hx. by apply Hlist; [|left].
    + revert Hx. by apply Hlist; [|right; right; left].
    + revert Hx. by apply Hlist; [|right; right; right; left].
    + eapply Hscope in Hx; [exact Hx|done|right; left|..]; apply Hbody; try done; right; left.
  - apply shape_class in Ha as (bases & kw & body & decos & ->). cbn [outside] in Hx. rewrite !elem_of_union in Hx.
    destruct Hx as [[[[Hx|Hx]|Hx]|Hx]|Hx].
    + left. by apply oref_env in Hx.
    + revert Hx. by apply Hlist; [|left].
    + revert Hx. by apply Hlist; [|right; left].
    + revert Hx. by apply Hlist; [|right; right; right; left].
    + eapply Hscope in Hx; [exact Hx|done|right; right; left|..]; [apply Hbody; [done|right; right; left]|by left].
  - apply shape_lambda in Ha as (args & body & ->). cbn [outside] in Hx. rewrite !elem_of_union in Hx. destruct Hx as [Hx|Hx].
    + revert Hx. by apply Hlist; [|left].
    + eapply Hscope in Hx; [exact Hx|done|right; left|..]; apply Hbody; try done; right; left.
  - left. cbn [outside] in Hx. by apply oref_env in Hx.
  - apply shape_comp in Ha as (elts & gens & ->). cbn [outside] in Hx. rewrite !elem_of_union in Hx. destruct Hx as [Hx|Hx].
    + eapply Hscope in Hx; [exact Hx|done|left|..]; intros H; left; by apply comp_env_true in H.
    + destruct gens as [|[lg fg] rest]; [set_solver|]. rewrite elem_of_union in Hx. destruct Hx as [Hx|Hx].
      * assert (Hl2 : lg = LGen). { cbn in Hs. apply andb_true_iff in Hs as [Hs _]. by destruct lg. } subst lg.
        assert (Hgg : forall f c, f ∈ fg -> c ∈ f -> oenv c).
        { apply (fun H => proj2 (IH (Node LGen fg :: rest) (Node LGen fg) (elem_of_list_further _ _ _ (elem_of_list_here _ _)) (elem_of_list_here _ _) H)). apply (Hc (Node LGen fg :: rest)); [right; left|left]. }
        assert (Hgn : forall f c, f ∈ fg -> c ∈ f -> global_names c ⊆ global_names (Node (LComp tag) [elts; Node LGen fg :: rest])).
        { intros f c Hf Hcc y Hy. rewrite global_deep by done. apply elem_deep. exists (Node LGen fg :: rest), (Node LGen fg). split_and!; [right; left|left|].
          rewrite global_deep by done. apply elem_deep. eauto. }
        destruct fg as [|t [|i [|fi [|? ?]]]]; try (by apply elem_of_empty in Hx). rewrite !elem_of_union in Hx. destruct Hx as [[Hx|Hx]|Hx];
          apply elem_unions in Hx as (c & Hcc & Hx).
        -- apply (Hgg t) in Hx; [|left|done]. destruct Hx as [H|[H|H]]; [apply comp_env_true in H; auto|apply comp_env_true in H; auto|]. right; right. eapply Hgn; [left|done|done].
        -- apply (Hgg i) in Hx; [|right; left|done]. destruct Hx as [H|[H|H]]; [auto|auto|]. right; right. eapply Hgn; [right; left|done|done].
        -- apply (Hgg fi) in Hx; [|right; right; left|done]. destruct Hx as [H|[H|H]]; [apply comp_env_true in H; auto|apply comp_env_true in H; auto|]. right; right. eapply Hgn; [right; right; left|done|done].
      * apply elem_unions in Hx as (c & Hcc & Hx). apply (Hch (Node lg fg :: rest)) in Hx; [|right; left|by right].
        destruct Hx as [H|[H|H]]; [apply comp_env_true in H; auto|apply comp_env_true in H; auto|]. right; right. rewrite global_deep by done.
        apply elem_deep. exists (Node lg fg :: rest), c. split_and!; [right; left|by right|done].
  - by apply Hdp.
  - destruct name; [|done]. cbn [outside] in Hx. apply elem_of_union in Hx as [Hx|Hx]; [left; by apply oref_env in Hx|by apply Hdp].
  - left. cbn [outside] in Hx. apply elem_unions in Hx as (y & _ & Hx). by apply oref_env in Hx.
  - left. cbn [outside] in Hx. apply elem_unions in Hx as (y & _ & Hx). by apply oref_env in Hx.
  - cbn [outside] in Hx. apply shape_leaf in Ha; [|done]. subst. by apply elem_of_empty in Hx.
  - by apply Hdp.
  - cbn [outside] in Hx. apply elem_of_union in Hx as [Hx|Hx]; [left; by apply oref_env in Hx|by apply Hdp].
Qed.
Lemma outside_env n : wf n = true -> oenv n.
Proof. intros H. by apply outside_env_all. Qed.

(** * Collecting over children *)
Section Collect.
  Variable Q : ana -> Prop.
  Variable S : node -> gset string.
  Variable F : ana -> gset string.
  Hypothesis Fm : forall s s', grows s s' -> F s ⊆ F s'.
  Definition collects (c : node) : Prop := forall s, Q s -> Q (visit c s) /\ S c ⊆ F (visit c s).
  Lemma visits_collect l s : (forall c, c ∈ l -> wf c = true) -> (forall c, c ∈ l -> collects c) -> Q s -> Q (visits l s) /\ unions (map S l) ⊆ F (visits l s).
  Proof.
    revert s. induction l as [|c l IH]; intros s Hw Hc HQ.
    - split; [done|]. intros x Hx. by apply elem_of_empty in Hx.
    - cbn [visits fold_left]. destruct (Hc c (elem_of_list_here _ _) s HQ) as [Q1 S1].
      destruct (IH (visit c s)) as [Q2 S2]; [by intros; apply Hw; right|by intros; apply Hc; right|done|]. split; [done|].
      intros x Hx. apply elem_unions in Hx as (d & Hd & Hx). apply elem_of_cons in Hd as [->|Hd].
      + eapply Fm; [|by apply S1]. apply visits_grows. intros c' s' Hc'. apply visit_grows, Hw. by right.
      + apply S2. apply elem_unions. eauto.
  Qed.
  Lemma generic_collect fs s : (forall f c, f ∈ fs -> c ∈ f -> wf c = true) -> (forall f c, f ∈ fs -> c ∈ f -> collects c) -> Q s -> Q (generic fs s) /\ deep S fs ⊆ F (generic fs s).
  Proof.
    revert s. induction fs as [|f fs IH]; intros s Hw Hc HQ.
    - split; [done|]. intros x Hx. by apply elem_of_empty in Hx.
    - cbn [generic fold_left]. destruct (visits_collect f s) as [Q1 S1]; [by intros c; apply Hw; left|by intros c; apply Hc; left|done|].
      destruct (IH (visits f s)) as [Q2 S2]; [by intros g c Hg; apply Hw; right|by intros g c Hg; apply Hc; right|done|]. split; [done|].
      intros x Hx. apply elem_deep in Hx as (g & d & Hg & Hd & Hx). apply elem_of_cons in Hg as [->|Hg].
      + eapply Fm; [|apply S1, elem_unions; eauto]. apply generic_grows. intros f' c' s' Hf' Hc'. apply visit_grows. eapply Hw; [by right|done].
      + apply S2. apply elem_deep. eauto.
  Qed.
End Collect.
Lemma generic_collect' S F fs s : (forall s s', grows s s' -> F s ⊆ F s') -> (forall f c, f ∈ fs -> c ∈ f -> wf c = true) ->
  (forall f c s, f ∈ fs -> c ∈ f -> S c ⊆ F (visit c s)) -> deep S fs ⊆ F (generic fs s).
Proof. intros Fm Hw Hc. apply (generic_collect (fun _ => True) S F Fm fs s Hw); [|done]. intros f c Hf Hcc s' _. split; [done|by eapply Hc]. Qed.

(** Declarations are recorded. *)
Lemma visit_globals n : wf n = true -> forall s, global_names n ⊆ a_global (visit n s).
Proof.
  induction n as [l fs IH] using node_ind'. intros Hw s. pose proof (wf_node _ _ Hw) as (Ha & Hs & Hc).
  assert (Hgen : forall s, deep global_names fs ⊆ a_global (generic fs s)).
  { intros s'. apply generic_collect'; [by intros ? ? []|done|]. intros f c s'' Hf Hcc. apply (IH f c Hf Hcc). eauto. }
  destruct (is_def l) eqn:Hd.
  - destruct l; try done. destruct is_async; [done|]. rewrite visit_def, global_deep by done. destruct (a_level s =? 0); cbn; [apply Hgen|].
    pose proof (Hgen (enter_function name fs fresh)). set_solver.
  - rewrite visit_node by done. destruct l; try (rewrite global_deep by done; apply Hgen).
    apply shape_leaf in Ha; [|done]. subst. cbn. set_solver.
Qed.
Lemma visit_nonlocals n : wf n = true -> forall s, declared false n ⊆ a_nonlocal (visit n s).
Proof.
  induction n as [l fs IH] using node_ind'. intros Hw s. pose proof (wf_node _ _ Hw) as (Ha & Hs & Hc).
  assert (Hgen : forall s, deep (declared false) fs ⊆ a_nonlocal (generic fs s)).
  { intros s'. apply generic_collect'; [by intros ? ? []|done|]. intros f c s'' Hf Hcc. apply (IH f c Hf Hcc). eauto. }
  destruct (is_def l) eqn:Hd.
  - destruct l; done.
  - rewrite visit_node by done. destruct l; try apply Hgen; try (intros x Hx; by apply elem_of_empty in Hx).
    apply shape_leaf in Ha; [|done]. subst. cbn. set_solver.
Qed.

(** * Every outside name is reported, or excepted *)
Definition weak (E : env) (X : gset string) : env := fun x => E x || bool_decide (x ∈ X).
Lemma weak_true E X x : weak E X x = true <-> E x = true \/ x ∈ X.
Proof. unfold weak. rewrite orb_true_iff, bool_decide_eq_true. done. Qed.
Definition covers (n : node) : Prop := forall E X s, covered E X n -> global_names n ⊆ X -> 1 <= a_level s -> Inv E X s -> outside (weak E X) (weak E X) n ⊆ reported (visit n s) ∪ X.
Lemma covers_fields E X l fs s :
  wf (Node l fs) = true -> stores_ok (Node l fs) = true -> (forall f c, f ∈ fs -> c ∈ f -> covers c) -> (forall f c, f ∈ fs -> c ∈ f -> covered E X c) -> global_names (Node l fs) ⊆ X ->
  1 <= a_level s -> Inv E X s -> deep (outside (weak E X) (weak E X)) fs ⊆ reported (generic fs s) ∪ X.
Proof.
  intros Hw Hso Hcs Hcov Hg Hl HI. pose proof (wf_node _ _ Hw) as (Ha & Hs & Hc). pose proof (stores_node _ _ Hso) as (_ & Hsc).
  assert (Hgc : forall f c, f ∈ fs -> c ∈ f -> global_names c ⊆ X).
  { intros f c Hf Hcc x Hx. destruct l; try (apply Hg; rewrite global_deep by done; apply elem_deep; by eauto). apply shape_leaf in Ha; [|done]. subst. by inversion Hf. }
  apply (generic_collect (fun s => 1 <= a_level s /\ Inv E X s) (outside (weak E X) (weak E X)) (fun s => reported s ∪ X)).
  - intros s1 s2 G. pose proof (grows_reported _ _ G). set_solver.
  - done.
  - intros f c Hf Hcc s' [L I]. split; [split|].
    + rewrite (g_level _ _ (visit_grows c s' (Hc f c Hf Hcc))). done.
    + eapply visit_inv; eauto.
    + eapply Hcs; eauto.
  - done.
Qed.
Lemma analyzer_params_sub args rest x : (forall c, c ∈ args -> wf c = true) -> x ∈ analyzer_params (args :: rest) -> x ∈ all_params args.
Proof.
  intros Hw Hx. unfold analyzer_params, all_params in *. destruct args as [|[l fs] [|? ?]]; try (by inversion Hx); destruct l; try (by inversion Hx);
    destruct fs as [|po [|a [|va [|ko [|kd [|ka [|d [|? ?]]]]]]]]; try (by inversion Hx).
  specialize (Hw _ (elem_of_list_here _ _)). apply wf_node in Hw as (_ & Hs & _). cbn [sorts_ok] in Hs. rewrite forallb_forall in Hs.
  apply elem_of_list_fmap in Hx as (n & -> & Hn).
  assert (Hin : n ∈ po ++ a ++ va ++ ko ++ ka) by (rewrite !elem_of_app in *; tauto).
  specialize (Hs n (proj1 (elem_of_list_In _ _) Hin)). unfold set_of. rewrite elem_of_list_to_set. apply elem_of_list_In, in_flat_map. exists n.
  split; [by apply elem_of_list_In|]. destruct n as [ln fn]. destruct ln; try done. by left.
Qed.
Lemma leaky_def name args body decos returns X : leaky (Node (LFunctionDef false name) [args; body; decos; returns]) ⊆ X ->
  (forall x, x ∈ all_params args ∪ binds_all body -> x ∈ outside_header module_env module_env args decos returns -> x ∈ X) /\
  (forall x, x ∈ binds_all (args ++ decos ++ returns) -> x ∈ X) /\ (forall f c, f ∈ [args; body; decos; returns] -> c ∈ f -> leaky c ⊆ X).
Proof.
  intros H. split_and!.
  - intros x H1 H2. apply H. cbn [leaky]. apply elem_of_union_l, elem_of_union_l, elem_of_intersection. done.
  - intros x H1. apply H. cbn [leaky]. apply elem_of_union_l, elem_of_union_r. done.
  - intros f c Hf Hc. etransitivity; [|exact H]. by eapply leaky_child.
Qed.
Lemma function_env_le p body E X : le_env (function_env p body (weak E X)) (weak (function_env p body E) X).
Proof. intros x. rewrite weak_true. unfold function_env. repeat case_decide; auto; try done; by rewrite weak_true. Qed.
Lemma weak_mono E X Y : X ⊆ Y -> le_env (weak E X) (weak E Y).
Proof. intros H x. rewrite !weak_true. intros [?|?]; [by left|right; by apply H]. Qed.
Lemma covered_mono E X Y n : X ⊆ Y -> covered E X n -> covered E Y n.
Proof. intros H [H1 H2]. split; [|by transitivity X]. intros x Hx. destruct (H1 x Hx) as [?|?]; [by left|right; by apply H]. Qed.
Lemma Inv_mono E X Y s : X ⊆ Y -> Inv E X s -> Inv E Y s.
Proof. intros H HI x Hx. destruct (HI x Hx) as [?|?]; [by left|right; set_solver]. Qed.
Lemma le_trans e1 e2 e3 : le_env e1 e2 -> le_env e2 e3 -> le_env e1 e3.
Proof. intros H1 H2 x Hx. apply H2, H1, Hx. Qed.
Lemma mono_list cur cur' l : (forall c, c ∈ l -> wf c = true) -> le_env cur cur' -> unions (map (outside cur cur) l) ⊆ unions (map (outside cur' cur') l).
Proof. intros H H1. apply omono_list; [|done|done]. intros c Hc. by apply outside_mono, H. Qed.

Section DefCovers.
  Variables (name : string) (args body decos returns : list node).
  Notation fs := [args; body; decos; returns].
  Notation n := (Node (LFunctionDef false name) fs).
  Hypothesis Hw : wf n = true.
  Hypothesis Hso : stores_ok n = true.
  Hypothesis Hcs : forall f c, f ∈ fs -> c ∈ f -> covers c.
  Variables (E : env) (X : gset string).
  Hypothesis Hlk : leaky n ⊆ X.
  Hypothesis Hgl : global_names n ⊆ X.
  Notation W := (weak E X).
  Notation e := (function_env (all_params args) body W).
  Notation sN := (generic fs (enter_function name fs fresh)).
  Notation E' := (function_env (all_params args) body E).
  Notation X' := (X ∪ declared_all false body).
  Notation locals := (all_params args ∪ binds_all body).

  Lemma def_wf f c : f ∈ fs -> c ∈ f -> wf c = true.
  Proof. apply wf_node in Hw as (_ & _ & Hc). apply Hc. Qed.
  Lemma def_covered f c : f ∈ fs -> c ∈ f -> covered E' X' c.
  Proof.
    intros Hf Hc. pose proof (leaky_def _ _ _ _ _ _ Hlk) as (H1 & H2 & H3). split; [|pose proof (H3 f c Hf Hc); set_solver].
    intros x Hx.
    assert (Hcase : c ∈ body \/ c ∈ args ++ decos ++ returns).
    { rewrite !elem_of_cons in Hf. rewrite !elem_of_app. destruct Hf as [->|[->|[->|[->|Hf]]]]; try tauto. by inversion Hf. }
    destruct Hcase as [Hb|Hh].
    - unfold okname, function_env. repeat case_decide; auto.
      + right. apply elem_of_union_l. apply Hgl. rewrite global_deep by done. apply elem_unions in H as (d & Hd & H). apply elem_deep. exists body, d. split_and!; [right; left|done|].
        apply declared_global; [|done]. eapply def_wf; [right; left|done].
      + right. set_solver.
      + exfalso. apply H4, elem_of_union_r, elem_unions. eauto.
    - right. apply elem_of_union_l. apply H2. unfold binds_all. apply elem_unions. eauto.
  Qed.
  Lemma def_inv : Inv E' X' (enter_function name fs fresh).
  Proof.
    intros x Hx. assert (Hp : x ∈ all_params args).
    { apply (analyzer_params_sub args [body; decos; returns]); [by intros c Hc; eapply def_wf; [left|]|]. cbn [enter_function fresh a_accessible a_local a_imported] in Hx. set_solver. }
    unfold function_env. repeat case_decide; auto.
    - right. apply elem_of_union_r, elem_of_union_l. apply Hgl. rewrite global_deep by done. apply elem_unions in H as (d & Hd & H). apply elem_deep. exists body, d. split_and!; [right; left|done|].
      apply declared_global; [|done]. eapply def_wf; [right; left|done].
    - right. set_solver.
    - exfalso. apply H1. by apply elem_of_union_l.
  Qed.
  Lemma def_body : unions (map (outside e e) body) ⊆ reported sN ∪ X.
  Proof.
    intros x Hx. assert (H : x ∈ deep (outside (weak E' X') (weak E' X')) fs).
    { apply elem_deep. apply (mono_list e (weak E' X')) in Hx.
      - apply elem_unions in Hx as (c & Hc & Hx). exists body, c. split_and!; [right; left|done|done].
      - intros c Hc. eapply def_wf; [right; left|done].
      - eapply le_trans; [apply function_env_le|]. apply weak_mono. set_solver. }
    apply (covers_fields E' X' (LFunctionDef false name) fs (enter_function name fs fresh) Hw Hso Hcs def_covered) in H; [|set_solver|cbn; lia|apply def_inv].
    apply elem_of_union in H as [H|H]; [by apply elem_of_union_l|]. apply elem_of_union in H as [H|H]; [by apply elem_of_union_r|].
    apply elem_of_union_l. unfold reported. apply elem_of_union_r.
    assert (Hd : x ∈ deep (declared false) fs). { apply elem_deep. apply elem_unions in H as (d & Hd & H). exists body, d. split_and!; [right; left|done|done]. }
    revert Hd. apply generic_collect'; [by intros ? ? []|apply def_wf|]. intros f c s Hf Hc. apply visit_nonlocals. by eapply def_wf.
  Qed.
  Lemma def_header : outside_header W W args decos returns ⊆ reported sN ∪ X.
  Proof.
    intros x Hx. set (X'' := X' ∪ locals).
    assert (Hle : le_env W (weak E' X'')).
    { intros y. rewrite !weak_true. intros [H|H]; [|right; subst X''; set_solver]. unfold function_env. repeat case_decide; auto. right. subst X''. set_solver. }
    assert (H : x ∈ deep (outside (weak E' X'') (weak E' X'')) fs).
    { apply elem_deep. unfold outside_header in Hx. rewrite !elem_of_union in Hx. destruct Hx as [[Hx|Hx]|Hx]; apply (mono_list W (weak E' X'')) in Hx; try done;
        try (intros c Hc; eapply def_wf; [|exact Hc]; set_solver); apply elem_unions in Hx as (c & Hc & Hx); eexists _, c; (split_and!; [|exact Hc|exact Hx]); set_solver. }
    apply (covers_fields E' X'' (LFunctionDef false name) fs (enter_function name fs fresh) Hw Hso Hcs) in H;
      [|intros f c Hf Hc; eapply covered_mono; [|by eapply def_covered]; subst X''; set_solver|subst X''; set_solver|cbn; lia|eapply Inv_mono; [|apply def_inv]; subst X''; set_solver].
    apply elem_of_union in H as [H|H]; [by apply elem_of_union_l|]. apply elem_of_union in H as [H|H].
    - apply elem_of_union in H as [H|H]; [by apply elem_of_union_r|].
      apply elem_of_union_l. unfold reported. apply elem_of_union_r.
      assert (Hd : x ∈ deep (declared false) fs). { apply elem_deep. apply elem_unions in H as (d & Hd & H). exists body, d. split_and!; [right; left|done|done]. }
      revert Hd. apply generic_collect'; [by intros ? ? []|apply def_wf|]. intros f c s Hf Hc. apply visit_nonlocals. by eapply def_wf.
    - apply elem_of_union_r. pose proof (leaky_def _ _ _ _ _ _ Hlk) as (H1 & _). apply H1; [done|].
      unfold outside_header in Hx |- *. rewrite !elem_of_union in Hx |- *.
      assert (HT : le_env W module_env) by (intros y Hy; done).
      destruct Hx as [[Hx|Hx]|Hx]; apply (mono_list W module_env) in Hx; try done; try (intros c Hc; eapply def_wf; [|exact Hc]; set_solver); auto.
  Qed.
End DefCovers.
Lemma binds_ref_ok E X x : okname E X x -> (if weak E X x then {[x]} else ∅ : gset string) ⊆ X.
Proof. intros H. destruct (weak E X x) eqn:Ew; [|set_solver]. apply weak_true in Ew. destruct H as [H|H]; [|set_solver]. destruct Ew; [congruence|set_solver]. Qed.
Lemma elem_merge (u g n u' g' n' acc : gset string) x : x ∈ u' ∪ g' ∪ n' -> (x ∈ acc -> x ∈ u ∪ g ∪ n) -> x ∈ (u ∪ (u' ∖ acc)) ∪ (g ∪ g') ∪ (n ∪ (n' ∖ acc)).
Proof. intros H1 H2. destruct (decide (x ∈ acc)) as [H|H]; [specialize (H2 H)|]; set_solver. Qed.
Lemma elem_left (a b : gset string) x : x ∈ a ∪ b -> x ∉ b -> x ∈ a.
Proof. set_solver. Qed.
Lemma visit_covers n : wf n = true -> stores_ok n = true -> covers n.
Proof.
  induction n as [l fs IH] using node_ind'. intros Hw Hso E X s Hcov Hgl Hl HI x Hx.
  pose proof (wf_node _ _ Hw) as (Ha & Hs & Hc). pose proof (stores_node _ _ Hso) as (_ & Hsc).
  assert (Hcs : forall f c, f ∈ fs -> c ∈ f -> covers c) by (intros f c Hf Hcc; apply (IH f c Hf Hcc); eauto).
  destruct (is_def l) eqn:Hd.
  - destruct l; try done. destruct is_async; [done|]. apply shape_def in Ha as (args & body & decos & returns & ->).
    rewrite visit_def. destruct (a_level s) as [|k] eqn:El; [lia|]. cbn [Nat.eqb].
    pose proof (def_body name args body decos returns Hw Hso Hcs E X (proj2 Hcov) Hgl) as Hb.
    pose proof (def_header name args body decos returns Hw Hso Hcs E X (proj2 Hcov) Hgl) as Hh.
    set (sN := generic [args; body; decos; returns] (enter_function name [args; body; decos; returns] fresh)) in *.
    destruct (decide (x ∈ X)) as [HX|HX]; [by apply elem_of_union_r|].
    assert (HE : E x = true).
    { pose proof (outside_env _ Hw _ _ _ Hx) as [H|[H|H]]; [apply weak_true in H as [?|?]; done|apply weak_true in H as [?|?]; done|]. by apply Hgl in H. }
    assert (Hr : x ∈ reported sN).
    { cbn [outside] in Hx. rewrite !elem_of_union in Hx. unfold outside_header in Hh. destruct Hx as [[[[Hx|Hx]|Hx]|Hx]|Hx].
      - exfalso. apply HX. apply (binds_ref_ok E X name); [|done]. apply Hcov. cbn [binds]. rewrite ?elem_of_union, elem_of_singleton. tauto.
      - assert (H : x ∈ reported sN ∪ X) by (apply Hh; rewrite !elem_of_union; auto). by apply elem_left in H.
      - assert (H : x ∈ reported sN ∪ X) by (apply Hh; rewrite !elem_of_union; auto). by apply elem_left in H.
      - assert (H : x ∈ reported sN ∪ X) by (apply Hh; rewrite !elem_of_union; auto). by apply elem_left in H.
      - assert (H : x ∈ reported sN ∪ X) by (by apply Hb). by apply elem_left in H. }
    apply elem_of_union_l. unfold reported in Hr. unfold reported. cbn [merge_nested leave_function a_unclassified a_global a_nonlocal].
    apply (elem_merge _ _ _ _ _ _ (a_accessible s) x Hr). intros Hacc.
    destruct (HI x) as [?|H]; [by apply elem_of_union_l, elem_of_union_l|congruence|]. apply elem_of_union in H as [H|H]; [exact H|done].
  - rewrite visit_node by done.
    assert (Hg : forall f c, f ∈ fs -> c ∈ f -> global_names c ⊆ X).
    { intros f c Hf Hcc y Hy. destruct l; try (apply Hgl; rewrite global_deep by done; apply elem_deep; by eauto). apply shape_leaf in Ha; [|done]. subst. by inversion Hf. }
    assert (Hcc : forall f c, f ∈ fs -> c ∈ f -> covered E X c) by (intros; by eapply covered_child).
    assert (Hpr : forall f c, f ∈ fs -> c ∈ f -> pres E X c) by (intros f c Hf Hccc; eapply visit_inv; eauto).
    assert (Hdeep : deep (outside (weak E X) (weak E X)) fs ⊆ reported (generic fs (prepare l fs s)) ∪ X).
    { apply (covers_fields E X l); try done; [rewrite prepare_level by done; done|]. by apply prepare_inv. }
    assert (Hsub : forall f cur fn, f ∈ fs -> le_env cur (weak E X) -> le_env fn (weak E X) -> unions (map (outside cur fn) f) ⊆ deep (outside (weak E X) (weak E X)) fs).
    { intros f cur fn Hf H1 H2 y Hy. apply elem_unions in Hy as (c & Hcin & Hy). apply elem_deep. exists f, c. split_and!; [done|done|].
      exact (outside_mono c (Hc f c Hf Hcin) _ _ _ _ H1 H2 y Hy). }
    assert (Hrefl : le_env (weak E X) (weak E X)) by (intros y Hy; exact Hy).
    assert (Hfe : forall p body, body ∈ fs -> le_env (function_env p body (weak E X)) (weak E X)).
    { intros p body Hb y Hy. apply function_env_true in Hy as [Hy|Hy]; [done| |by (intros; eapply Hc; eauto)]. apply weak_true. right.
      apply elem_unions in Hy as (c & Hcin & Hy). by eapply Hg. }
    assert (Hce : forall g, le_env (comp_env g (weak E X)) (weak E X)) by (intros g y; apply comp_env_true).
    destruct (plain l) eqn:Hp. { rewrite plain_outside in Hx by done. by apply Hdeep. }
    destruct l; try done.
    + destruct is_async; [|done]. apply shape_def in Ha as (args & body & decos & returns & ->). cbn [outside] in Hx. rewrite !elem_of_union in Hx.
      destruct Hx as [[[[Hx|Hx]|Hx]|Hx]|Hx].
      * apply elem_of_union_r. apply (binds_ref_ok E X name); [|done]. apply Hcov. cbn [binds]. rewrite ?elem_of_union, elem_of_singleton. tauto.
      * apply Hdeep. eapply Hsub; [left|done|done|done].
      * apply Hdeep. eapply Hsub; [right; right; left|done|done|done].
      * apply Hdeep. eapply Hsub; [right; right; right; left|done|done|done].
      * apply Hdeep. eapply Hsub; [right; left|apply Hfe; right; left|apply Hfe; right; left|done].
    + apply shape_class in Ha as (bases & kw & body & decos & ->). cbn [outside] in Hx. rewrite !elem_of_union in Hx.
      destruct Hx as [[[[Hx|Hx]|Hx]|Hx]|Hx].
      * apply elem_of_union_r. apply (binds_ref_ok E X name); [|done]. apply Hcov. cbn [binds]. rewrite ?elem_of_union, elem_of_singleton. tauto.
      * apply Hdeep. eapply Hsub; [left|done|done|done].
      * apply Hdeep. eapply Hsub; [right; left|done|done|done].
      * apply Hdeep. eapply Hsub; [right; right; right; left|done|done|done].
      * apply Hdeep. eapply Hsub; [right; right; left|apply Hfe; right; right; left|done|done].
    + apply shape_lambda in Ha as (args & body & ->). cbn [outside] in Hx. rewrite !elem_of_union in Hx. destruct Hx as [Hx|Hx].
      * apply Hdeep. eapply Hsub; [left|done|done|done].
      * apply Hdeep. eapply Hsub; [right; left|apply Hfe; right; left|apply Hfe; right; left|done].
    + (* names *) cbn [outside] in Hx. pose proof (oref_env _ _ _ Hx) as Hwx. destruct (weak E X id) eqn:Ew; [|by apply elem_of_empty in Hx]. apply elem_of_singleton in Hx as ->.
      apply shape_leaf in Ha; [|done]. subst fs. cbn [generic fold_left]. destruct c.
      * cbn [prepare]. unfold load_name. destruct (decide (id ∈ a_accessible s)) as [Hacc|Hacc]; [|unfold reported; cbn; rewrite !elem_of_union, elem_of_singleton; tauto].
        destruct (HI id) as [HE|H]; [by apply elem_of_union_l, elem_of_union_l| |done]. apply weak_true in Hwx as [?|?]; [congruence|by apply elem_of_union_r].
      * apply elem_of_union_r. apply (binds_ref_ok E X id); [|rewrite Ew; by apply elem_of_singleton]. apply Hcov. cbn [binds]. rewrite ?elem_of_union, elem_of_singleton. tauto.
      * apply elem_of_union_r. apply (binds_ref_ok E X id); [|rewrite Ew; by apply elem_of_singleton]. apply Hcov. cbn [binds]. rewrite ?elem_of_union, elem_of_singleton. tauto.
    + apply shape_comp in Ha as (elts & gens & ->). cbn [outside] in Hx. rewrite !elem_of_union in Hx. destruct Hx as [Hx|Hx].
      * apply Hdeep. eapply Hsub; [left|apply Hce|apply Hce|done].
      * destruct gens as [|[lg fg] rest]; [by apply elem_of_empty in Hx|]. rewrite elem_of_union in Hx. destruct Hx as [Hx|Hx].
        -- assert (Hlg : lg = LGen). { cbn in Hs. apply andb_true_iff in Hs as [Hs _]. by destruct lg. } subst lg.
           assert (Hwg : wf (Node LGen fg) = true) by (apply (Hc (Node LGen fg :: rest)); [right; left|left]).
           pose proof (wf_node _ _ Hwg) as (_ & _ & Hcg).
           assert (H : x ∈ outside (weak E X) (weak E X) (Node LGen fg)).
           { apply (elem_deep (outside (weak E X) (weak E X))). destruct fg as [|t [|i [|fi [|? ?]]]]; try (by apply elem_of_empty in Hx). rewrite !elem_of_union in Hx.
             destruct Hx as [[Hx|Hx]|Hx]; apply elem_unions in Hx as (c & Hcin & Hx).
             - exists t, c. split_and!; [left|done|]. eapply outside_mono; [eapply Hcg; [left|done]|apply Hce|apply Hce|done].
             - exists i, c. split_and!; [right; left|done|done].
             - exists fi, c. split_and!; [right; right; left|done|]. eapply outside_mono; [eapply Hcg; [right; right; left|done]|apply Hce|apply Hce|done]. }
           apply Hdeep. apply elem_deep. exists (Node LGen fg :: rest), (Node LGen fg). split_and!; [right; left|left|done].
        -- apply Hdeep. apply elem_unions in Hx as (c & Hcin & Hx). apply elem_deep. exists (Node lg fg :: rest), c. split_and!; [right; left|by right|].
           eapply outside_mono; [apply (Hc (Node lg fg :: rest)); [right; left|by right]|apply Hce|apply Hce|done].
    + by apply Hdeep.
    + destruct name; [|done]. cbn [outside] in Hx. apply elem_of_union in Hx as [Hx|Hx]; [|by apply Hdeep].
      apply elem_of_union_r. apply (binds_ref_ok E X s0); [|done]. apply Hcov. cbn [binds]. rewrite ?elem_of_union, elem_of_singleton. tauto.
    + cbn [outside] in Hx. apply elem_unions in Hx as (y & Hy & Hx). apply elem_of_union_r. apply (binds_ref_ok E X y); [|done]. apply Hcov. cbn [binds]. unfold set_of. by apply elem_of_list_to_set.
    + cbn [outside] in Hx. apply elem_unions in Hx as (y & Hy & Hx). apply elem_of_union_r. apply (binds_ref_ok E X y); [|done]. apply Hcov. cbn [binds]. unfold set_of. by apply elem_of_list_to_set.
    + cbn [outside] in Hx. apply shape_leaf in Ha; [|done]. subst. by apply elem_of_empty in Hx.
    + cbn [outside] in Hx. apply shape_leaf in Ha; [|done]. subst. by apply elem_of_empty in Hx.
    + cbn [outside] in Hx. apply elem_of_union in Hx as [Hx|Hx]; [|by apply Hdeep].
      apply elem_of_union_r. apply (binds_ref_ok E X name); [|done]. apply Hcov. cbn [binds]. rewrite ?elem_of_union, elem_of_singleton. tauto.
Qed.
Lemma fn_reported name args body decos returns : let f := Node (LFunctionDef false name) [args; body; decos; returns] in
  wf f = true -> stores_ok f = true -> outside_names f ⊆ reported (visit f fresh) ∪ leaky f.
Proof.
  intros f Hw Hso x Hx. pose proof (wf_node _ _ Hw) as (Ha & Hs & Hc). pose proof (stores_node _ _ Hso) as (_ & Hsc).
  assert (Hcs : forall g c, g ∈ [args; body; decos; returns] -> c ∈ g -> covers c) by (intros g c Hg Hcc; apply visit_covers; eauto).
  assert (exists X, leaky f ⊆ X /\ global_names f ⊆ X /\ forall y, y ∈ X -> y ∈ leaky f \/ y ∈ global_names f) as (X & HX1 & HX2 & HX3).
  { exists (leaky f ∪ global_names f). split_and!; [apply union_subseteq_l|apply union_subseteq_r|]. intros y Hy. by apply elem_of_union. }
  pose proof (def_body name args body decos returns Hw Hso Hcs module_env X) as Hb.
  pose proof (def_header name args body decos returns Hw Hso Hcs module_env X) as Hh.
  assert (Hle1 : le_env module_env (weak module_env X)) by (intros y Hy; apply weak_true; by left).
  assert (Hr : x ∈ reported (generic [args; body; decos; returns] (enter_function name [args; body; decos; returns] fresh)) ∪ X).
  { unfold f in Hx. cbn [outside_names] in Hx. apply elem_of_union in Hx as [Hx|Hx].
    - apply Hh; [done|done|]. unfold outside_header in Hx |- *. rewrite !elem_of_union in Hx |- *.
      destruct Hx as [[Hx|Hx]|Hx]; apply (mono_list module_env (weak module_env X)) in Hx; try done; try (intros c Hcc; eapply Hc; [|exact Hcc]; rewrite !elem_of_cons; tauto); auto.
    - apply Hb; [done|done|]. revert Hx. apply mono_list; [intros c Hcc; eapply Hc; [right; left|done]|]. by apply le_function_env. }
  pose proof (visit_globals f Hw fresh) as Hg. 
  assert (Hv : visit f fresh = leave_function (generic [args; body; decos; returns] (enter_function name [args; body; decos; returns] fresh))) by apply visit_def.
  rewrite Hv in Hg |- *.
  apply elem_of_union in Hr as [Hr|Hr]; [by apply elem_of_union_l|]. apply HX3 in Hr as [Hr|Hr]; [by apply elem_of_union_r|].
  apply elem_of_union_l. unfold reported. apply Hg in Hr. apply elem_of_union_l, elem_of_union_r. done.
Qed.
