(** C110: exactly which functions the autonomy checks accept, at decoration and at completion. *)
From Coq Require Import String.
From stdpp Require Import gmap sets.
From Verif Require Import Lib.Py Model.PyAst Model.Normalizer Model.NamesAnalyzer Spec.Scoping Spec.NameUses Proofs.PyAstP Proofs.NamesAnalyzerP Proofs.NamesEventsP Proofs.NameUsesP Properties.P_Normalizer Properties.P_NamesAnalyzer.
Local Open Scope nat_scope.

(** The names a function asks the outside for, in the eyes of the check: those read outside, and those declared global. *)
Definition asks (f : node) (x : string) : Prop := reads_outside (uses_inside x f) = true \/ x ∈ global_names f.
(** and those it wants to assign outside *)
Definition assigns_outside (f : node) (x : string) : Prop := nonlocal_outside (uses_inside x f) = true.

Lemma analyze_ok_iff f name fs : f = Node (LFunctionDef false name) fs -> wf (Node LModule [[f]]) = true ->
  (exists s, analyze (Node LModule [[f]]) = Ok s) <-> relative_import f = false.
Proof.
  intros -> Hw. split.
  - intros [s H]. destruct (analyze_form _ _ Hw H) as (n & a & b & d & r & E & _ & _ & Hr). by injection E as -> ->.
  - intros Hr. pose proof (wf_node _ _ Hw) as (_ & _ & Hc). pose proof (Hc _ _ (elem_of_list_here _ _) (elem_of_list_here _ _)) as Hf.
    exists (inside name fs). unfold analyze. change (visit (Node LModule [[Node (LFunctionDef false name) fs]]) fresh) with (inside name fs).
    pose proof (visit_no_crash _ Hf Hr fresh eq_refl) as H. rewrite visit_def in H. cbn [a_level fresh Nat.eqb] in H. change (leave_function _) with (inside name fs) in H. by rewrite H.
Qed.
Lemma global_exact f s : wf (Node LModule [[f]]) = true -> analyze (Node LModule [[f]]) = Ok s -> forall x, x ∈ a_global s <-> x ∈ global_names f.
Proof.
  intros Hw H x. destruct (analyze_form _ _ Hw H) as (name & a & b & d & r & E & Hf & -> & Hr). injection E as ->.
  pose proof (visit_globals _ Hf fresh) as H1. rewrite visit_def in H1. cbn [a_level fresh Nat.eqb] in H1. change (leave_function _) with (inside name [a; b; d; r]) in H1.
  pose proof (visit_globals_bound _ Hf (global_names (Node (LFunctionDef false name) [a; b; d; r])) fresh) as H2. rewrite visit_def in H2. cbn [a_level fresh Nat.eqb] in H2. change (leave_function _) with (inside name [a; b; d; r]) in H2.
  split; [|apply H1]. apply H2; [done|cbn; set_solver].
Qed.
(** What the analyzer reports, exactly. *)
Theorem C110_reported_exactly : forall f s, wf (Node LModule [[f]]) = true -> analyze (Node LModule [[f]]) = Ok s -> forall x,
  (x ∈ a_unclassified s <-> reads_outside (uses_inside x f) = true) /\ (x ∈ a_nonlocal s <-> assigns_outside f x) /\ (x ∈ a_global s <-> x ∈ global_names f).
Proof.
  intros f s Hw H x. split; [|split; [|by apply global_exact]]; destruct (analyze_form _ _ Hw H) as (name & a & b & d & r & E & Hf & -> & Hr); injection E as ->; by apply inside_reports.
Qed.
Print Assumptions C110_reported_exactly.
(** No name is forgotten: every name the function itself does something with is in one of the lists of the report. *)
Theorem C110_every_name_listed : forall f s, wf (Node LModule [[f]]) = true -> analyze (Node LModule [[f]]) = Ok s -> forall x e,
  Own e ∈ uses_inside x f -> x ∈ a_local s ∪ a_imported s ∪ a_global s ∪ a_nonlocal s ∪ a_unclassified s.
Proof.
  intros f s Hw H x e Hu. destruct (analyze_form _ _ Hw H) as (name & a & b & d & r & E & Hf & -> & Hr). injection E as ->. apply (inside_listed x name [a; b; d; r] Hf).
  apply existsb_exists. exists (Own e). split; [by apply elem_of_list_In|done].
Qed.
Print Assumptions C110_every_name_listed.
Lemma asks_exact f s : wf (Node LModule [[f]]) = true -> analyze (Node LModule [[f]]) = Ok s -> forall x, x ∈ a_global s ∪ a_unclassified s <-> asks f x.
Proof. intros Hw H x. destruct (C110_reported_exactly f s Hw H x) as (H1 & _ & H2). rewrite elem_of_union, H1, H2. unfold asks. tauto. Qed.
Lemma complete_check_exact builtins strictly island name s b : complete_check builtins strictly island name s = Ok b <->
  (forall x, x ∈ a_global s ∪ a_unclassified s -> allowed builtins name x \/ (strictly = false /\ x ∈ island)) /\
  (b = true <-> forall x, x ∈ a_global s ∪ a_unclassified s -> allowed builtins name x).
Proof.
  unfold complete_check, names_set. set (req := _ ∖ {["self"%string]}).
  assert (Hreq : forall x, x ∈ req <-> x ∈ a_global s ∪ a_unclassified s /\ ~ allowed builtins name x).
  { intros x. subst req. unfold allowed. rewrite !elem_of_difference, !elem_of_singleton, elem_of_list_to_set. tauto. }
  assert (Hdec : forall x, Decision (allowed builtins name x)) by (intros x; unfold allowed; apply _).
  assert (Hall : (forall x, x ∈ a_global s ∪ a_unclassified s -> allowed builtins name x) <-> req = ∅).
  { split.
    - intros H. apply set_eq. intros x. rewrite Hreq. split; [|set_solver]. intros [Hx Hn]. by apply H in Hx.
    - intros E x Hx. destruct (decide (allowed builtins name x)) as [|Hn]; [done|]. assert (x ∈ req) by by apply Hreq. rewrite E in *. set_solver. }
  rewrite Hall. destruct strictly.
  - destruct (bool_decide (req = ∅)) eqn:E; cbn [passert rbind].
    + apply bool_decide_eq_true in E. split.
      * injection 1 as <-. split; [|done]. intros x Hx. left. by apply Hall.
      * intros [_ [_ H]]. by rewrite H.
    + apply bool_decide_eq_false in E. split; [done|]. intros [H _]. exfalso. apply E, Hall. intros x Hx. destruct (H x Hx) as [|[? _]]; done.
  - destruct (bool_decide (req ∖ island = ∅)) eqn:E; cbn [passert rbind].
    + apply bool_decide_eq_true in E. rewrite E.
      assert (Hb : bool_decide (size (∅ : gset string) = size req) = true <-> req = ∅).
      { rewrite bool_decide_eq_true, size_empty. split; [|by intros ->]. intros Hz. symmetry in Hz. by apply size_empty_inv, leibniz_equiv in Hz. }
      split.
      * injection 1 as <-. split; [|done]. intros x Hx. destruct (decide (allowed builtins name x)) as [|Hn]; [by left|]. right. split; [done|].
        destruct (decide (x ∈ island)); [done|]. assert (x ∈ req ∖ island) by (apply elem_of_difference; split; [by apply Hreq|done]). rewrite E in *. set_solver.
      * intros [_ H]. f_equal. rewrite <- Hb in H. destruct b, (bool_decide _); naive_solver.
    + apply bool_decide_eq_false in E. split; [done|]. intros [H _]. exfalso. apply E, set_eq. intros x. split; [|set_solver]. rewrite elem_of_difference, Hreq.
      intros [[Hx Hn] Hi]. destruct (H x Hx) as [|[_ ?]]; done.
Qed.

(** At decoration: exactly the functions are let in that contain no "from . import", have no yield of their own and where every
    name declared nonlocal is known beforehand to an enclosing function inside (or is the name of a decorator). *)
Theorem C110_decoration_exactly : forall f name fs, f = Node (LFunctionDef false name) fs -> wf (Node LModule [[f]]) = true ->
  (exists s, analyze (Node LModule [[f]]) = Ok s /\ begin_check s = Ok tt) <->
  relative_import f = false /\ has_own_yield f = false /\ (forall x, assigns_outside f x -> x ∈ all_decorators).
Proof.
  intros f name fs E Hw. rewrite <- (analyze_ok_iff f name fs E Hw). split.
  - intros (s & Ha & Hb). apply begin_check_ok in Hb as [Hn Hy]. split; [by exists s|]. pose proof (C34_yield_rejected f s Hw Ha) as [Hiff _]. split.
    + destruct (has_own_yield f); [|done]. exfalso. by apply Hiff.
    + intros x Hx. apply Hn. by apply (C110_reported_exactly f s Hw Ha x).
  - intros ([s Ha] & Hy & Ho). exists s. split; [done|]. apply begin_check_ok. pose proof (C34_yield_rejected f s Hw Ha) as [Hiff _]. split.
    + intros x Hx. apply Ho. by apply (C110_reported_exactly f s Hw Ha x).
    + destruct (decide (a_yields s = 0)) as [|Hz]; [done|]. apply Hiff in Hz. congruence.
Qed.
Print Assumptions C110_decoration_exactly.
(** And, once the island is known: exactly those of them are accepted whose every name asked for is allowed, or - unless strict
    autonomy is demanded - is a function of the island; the function ends up marked strictly autonomous exactly if it asks for no
    name but the allowed ones. *)
Theorem C110_accepted_exactly : forall builtins strictly island f name fs b, f = Node (LFunctionDef false name) fs -> wf (Node LModule [[f]]) = true ->
  (exists s, analyze (Node LModule [[f]]) = Ok s /\ begin_check s = Ok tt /\ complete_check builtins strictly island name s = Ok b) <->
  (relative_import f = false /\ has_own_yield f = false /\ (forall x, assigns_outside f x -> x ∈ all_decorators)) /\
  (forall x, asks f x -> allowed builtins name x \/ (strictly = false /\ x ∈ island)) /\
  (b = true <-> forall x, asks f x -> allowed builtins name x).
Proof.
  intros builtins strictly island f name fs b E Hw. rewrite <- (C110_decoration_exactly f name fs E Hw).
  assert (Hex : forall s, analyze (Node LModule [[f]]) = Ok s -> complete_check builtins strictly island name s = Ok b <->
    (forall x, asks f x -> allowed builtins name x \/ (strictly = false /\ x ∈ island)) /\ (b = true <-> forall x, asks f x -> allowed builtins name x)).
  { intros s Ha. rewrite complete_check_exact. pose proof (asks_exact f s Hw Ha) as H. setoid_rewrite H. done. }
  split.
  - intros (s & Ha & Hb & Hc). apply (Hex s Ha) in Hc. split; [by exists s|done].
  - intros ((s & Ha & Hb) & Hc). exists s. split; [done|]. split; [done|]. by apply (Hex s Ha).
Qed.
Print Assumptions C110_accepted_exactly.
(** The answer never depends on the built-ins, on the island or on the demand for strictness when nothing is asked for. *)
Corollary C110_self_contained : forall builtins strictly island f name fs, f = Node (LFunctionDef false name) fs -> wf (Node LModule [[f]]) = true ->
  (forall x, ~ asks f x) ->
  (exists s, analyze (Node LModule [[f]]) = Ok s /\ begin_check s = Ok tt /\ complete_check builtins strictly island name s = Ok true) <->
  relative_import f = false /\ has_own_yield f = false /\ (forall x, assigns_outside f x -> x ∈ all_decorators).
Proof. intros builtins strictly island f name fs E Hw Hn. rewrite (C110_accepted_exactly _ _ _ f name fs true E Hw). naive_solver. Qed.

(** def f(a):
      b = len(a)
      return helper(b)      accepted with helper in the island, but not as strictly autonomous *)
Definition ex_loose : node := sfun "f" [("a", [])]%string [sassign "b" (scall (sload "len") [sload "a"]); sret (scall (sload "helper") [sload "b"])] [] [].
Example C110_example :
  wf (Node LModule [[ex_loose]]) = true /\ asks ex_loose "helper" /\ asks ex_loose "len" /\ ~ asks ex_loose "a" /\
  (exists s, analyze (Node LModule [[ex_loose]]) = Ok s /\ begin_check s = Ok tt /\ complete_check {["len"%string]} false {["helper"%string]} "f" s = Ok false) /\
  ~ (exists s, analyze (Node LModule [[ex_loose]]) = Ok s /\ begin_check s = Ok tt /\ complete_check {["len"%string]} true {["helper"%string]} "f" s = Ok true).
Proof.
  assert (Hw : wf (Node LModule [[ex_loose]]) = true) by bq.
  split; [done|]. split; [left; bq|]. split; [left; bq|]. split.
  { intros [H|H]; [by vm_compute in H|]. assert (E : global_names ex_loose = ∅) by setq. rewrite E in H. set_solver. }
  split.
  - destruct (runs (fun s => begins s && completes {["len"%string]} false {["helper"%string]} "f" false s) ex_loose) as (s & Hs & H); [bq|].
    apply andb_true_iff in H as [H1 H2]. exists s. split; [done|]. split; [by apply begins_ok|by apply completes_ok].
  - intros H. apply (C110_accepted_exactly _ _ _ ex_loose "f" _ true eq_refl Hw) in H as (_ & H & _).
    destruct (H "helper"%string) as [Hal|[? _]]; [left; bq| |done]. unfold allowed, primary_decorators in Hal. rewrite !elem_of_cons, elem_of_nil, elem_of_singleton in Hal. clear -Hal. naive_solver.
Qed.
