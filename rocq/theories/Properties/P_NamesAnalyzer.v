(** C32-C34: the names an autonomous function may use. *)
From Coq Require Import String.
From stdpp Require Import gmap.
From Verif Require Import Lib.Py Model.PyAst Model.Normalizer Model.NamesAnalyzer Spec.Scoping Proofs.PyAstP Proofs.NamesAnalyzerP Proofs.NamesEventsP Properties.P_Normalizer.
Local Open Scope nat_scope.

Lemma passert_ok b (r : unit) : passert b = Ok r -> b = true.
Proof. by destruct b. Qed.
Lemma analyze_form tree s : wf tree = true -> analyze tree = Ok s ->
  exists name args body decos returns, tree = Node LModule [[Node (LFunctionDef false name) [args; body; decos; returns]]] /\
    wf (Node (LFunctionDef false name) [args; body; decos; returns]) = true /\ s = inside name [args; body; decos; returns] /\
    relative_import (Node (LFunctionDef false name) [args; body; decos; returns]) = false.
Proof.
  intros Hw H. unfold analyze in H. destruct tree as [[] fs]; try done. destruct fs as [|[|[lf ff] [|? ?]] [|? ?]]; try (by destruct lf as [|[]| | | | | | | | | | | | | | | | | | | | | | | | | | |]); try done.
  destruct lf as [|[]| | | | | | | | | | | | | | | | | | | | | | | | | | |]; try done.
  apply wf_node in Hw as (_ & _ & Hc). pose proof (Hc _ _ (elem_of_list_here _ _) (elem_of_list_here _ _)) as Hf.
  pose proof (wf_node _ _ Hf) as (Ha & _). apply shape_def in Ha as (args & body & decos & returns & ->). exists name, args, body, decos, returns.
  assert (Hv : visit (Node LModule [[Node (LFunctionDef false name) [args; body; decos; returns]]]) fresh = inside name [args; body; decos; returns]) by done.
  rewrite Hv in H. split_and!; [done|done| |].
  - destruct (a_crashed _) eqn:E in H; [done|]. by injection H as <-.
  - destruct (relative_import _) eqn:Hr; [|done]. pose proof (visit_crashes _ Hf Hr fresh) as Hcr. rewrite visit_def in Hcr. cbn [a_level fresh Nat.eqb] in Hcr.
    change (leave_function _) with (inside name [args; body; decos; returns]) in Hcr. rewrite Hcr in H. done.
Qed.
Lemma begin_check_ok s : begin_check s = Ok tt <-> (forall x, x ∈ a_nonlocal s -> x ∈ all_decorators) /\ a_yields s = 0.
Proof.
  unfold begin_check, names_set. destruct (bool_decide _) eqn:E; cbn [passert rbind].
  - apply bool_decide_eq_true in E. destruct (a_yields s =? 0) eqn:Ey.
    + apply Nat.eqb_eq in Ey. split; [|done]. intros _. split; [|done]. intros x Hx. destruct (decide (x ∈ all_decorators)); [done|].
      exfalso. assert (x ∈ (∅ : gset string)); [|set_solver]. rewrite <- E. rewrite elem_of_difference, elem_of_list_to_set. done.
    + apply Nat.eqb_neq in Ey. split; [done|]. intros [_ ?]. done.
  - apply bool_decide_eq_false in E. split; [done|]. intros [H _]. exfalso. apply E. apply set_eq. intros x. rewrite elem_of_difference, elem_of_list_to_set. set_solver.
Qed.
(** what the second check lets a name be *)
Definition allowed (builtins : gset string) (name x : string) : Prop :=
  x ∈ builtins \/ x = "pth"%string \/ x = "self"%string \/ x = name \/ x ∈ primary_decorators.
Lemma complete_check_ok builtins strictly island name s b : complete_check builtins strictly island name s = Ok b ->
  forall x, x ∈ a_global s ∪ a_unclassified s -> allowed builtins name x \/ (strictly = false /\ x ∈ island).
Proof.
  unfold complete_check, allowed, names_set. set (req := _ ∖ {["self"%string]}). intros H x Hx.
  assert (Hreq : x ∈ req \/ allowed builtins name x).
  { subst req. unfold allowed. rewrite !elem_of_difference, !elem_of_singleton, elem_of_list_to_set.
    destruct (decide (x ∈ builtins)); [tauto|]. destruct (decide (x = "pth"%string)); [tauto|]. destruct (decide (x = "self"%string)); [tauto|].
    destruct (decide (x = name)); [tauto|]. destruct (decide (x ∈ primary_decorators)); tauto. }
  destruct strictly.
  - destruct (bool_decide (req = ∅)) eqn:E; [|done]. apply bool_decide_eq_true in E. rewrite E in Hreq. destruct Hreq; [set_solver|by left].
  - destruct (bool_decide (req ∖ island = ∅)) eqn:E; [|done]. apply bool_decide_eq_true in E. destruct Hreq as [Hr|Hr]; [|by left].
    right. split; [done|]. destruct (decide (x ∈ island)); [done|]. exfalso. apply (not_elem_of_empty (C := gset string) x). rewrite <- E. by apply elem_of_difference.
Qed.
Lemma complete_check_accepts builtins strictly island name s :
  (forall x, x ∈ a_global s ∪ a_unclassified s -> allowed builtins name x) -> complete_check builtins strictly island name s = Ok true.
Proof.
  intros H. unfold complete_check, names_set. set (req := _ ∖ {["self"%string]}).
  assert (Hr : req = ∅).
  { apply set_eq. intros x. split; [|set_solver]. subst req. rewrite !elem_of_difference, !elem_of_singleton, elem_of_list_to_set. unfold allowed in H. intros ?. exfalso.
    destruct (H x) as [?|[?|[?|[?|?]]]]; tauto. }
  rewrite Hr. destruct strictly.
  - rewrite bool_decide_eq_true_2 by done. done.
  - rewrite bool_decide_eq_true_2 by set_solver. cbn [passert rbind]. rewrite bool_decide_eq_true_2; [done|]. f_equal. set_solver.
Qed.

(** * C32 *)
(** Every name looked up outside of the function is reported, unless that name has a scope of its own somewhere inside (a loop
    variable of a comprehension, a name bound in a class body, ...: Spec/Scoping.v, leaky). *)
Theorem C32_outside_names_reported_partial : forall f s, wf (Node LModule [[f]]) = true -> stores_ok f = true -> analyze (Node LModule [[f]]) = Ok s ->
  forall x, x ∈ outside_names f -> x ∈ a_unclassified s ∪ a_global s ∪ a_nonlocal s \/ x ∈ leaky f.
Proof.
  intros f s Hw Hso H x Hx. destruct (analyze_form _ _ Hw H) as (name & args & body & decos & returns & E & Hf & -> & _). injection E as ->.
  pose proof (fn_reported name args body decos returns Hf Hso x Hx) as Hr. rewrite visit_def in Hr. apply elem_of_union in Hr. exact Hr.
Qed.
Print Assumptions C32_outside_names_reported_partial.
(** So if the checks at decoration and at completion pass, such a name is one of those that are allowed. *)
Theorem C32_passing_means_autonomous_partial : forall builtins strictly island f name fs s b,
  f = Node (LFunctionDef false name) fs -> wf (Node LModule [[f]]) = true -> stores_ok f = true ->
  analyze (Node LModule [[f]]) = Ok s -> begin_check s = Ok tt -> complete_check builtins strictly island name s = Ok b ->
  forall x, x ∈ outside_names f -> x ∉ leaky f ->
    x ∈ builtins \/ x = "pth"%string \/ x = "self"%string \/ x = name \/ x ∈ all_decorators \/ (strictly = false /\ x ∈ island).
Proof.
  intros builtins strictly island f name fs s b Ef Hw Hso Ha Hb Hc x Hx Hl. apply begin_check_ok in Hb as [Hb _].
  destruct (C32_outside_names_reported_partial f s Hw Hso Ha x Hx) as [Hr|Hr]; [|done].
  assert (Hp : x ∈ primary_decorators -> x ∈ all_decorators) by (unfold primary_decorators, all_decorators; set_solver).
  apply elem_of_union in Hr as [Hr|Hr]; [|apply Hb in Hr; tauto].
  assert (Hg : x ∈ a_global s ∪ a_unclassified s) by set_solver. destruct (complete_check_ok _ _ _ _ _ _ Hc x Hg) as [Hal|Hal]; [|tauto].
  unfold allowed in Hal. tauto.
Qed.
Print Assumptions C32_passing_means_autonomous_partial.

(** for the examples *)
Lemma runs (p : ana -> bool) f : match analyze (Node LModule [[f]]) with Ok s => p s | Err _ => false end = true -> exists s, analyze (Node LModule [[f]]) = Ok s /\ p s = true.
Proof. destruct (analyze _) as [s|]; [eauto|done]. Qed.
Definition begins (s : ana) : bool := match begin_check s with Ok _ => true | Err _ => false end.
Lemma begins_ok s : begins s = true -> begin_check s = Ok tt.
Proof. unfold begins. destruct (begin_check s) as [[]|]; done. Qed.
Definition completes (builtins : gset string) (strictly : bool) (island : gset string) (name : string) (out : bool) (s : ana) : bool :=
  match complete_check builtins strictly island name s with Ok b => Bool.eqb b out | Err _ => false end.
Lemma completes_ok builtins strictly island name out s : completes builtins strictly island name out s = true -> complete_check builtins strictly island name s = Ok out.
Proof. unfold completes. destruct (complete_check _ _ _ _ _) as [b|]; [|done]. intros H. by apply Bool.eqb_prop in H as ->. Qed.
Ltac setq := eapply bool_decide_eq_true_1; vm_compute; reflexivity.
Ltac bq := vm_compute; reflexivity.

Definition sassign (x : string) (e : node) : node := Node (LOther "Assign") [[sname x Store]; [e]].
Definition sload (x : string) : node := sname x Load.
Definition scall (f : node) (args : list node) : node := Node LCall [[f]; args; []].
Definition sconst : node := Node (LConst "1") [].
Definition scomp (elt : node) (x : string) (iter : node) : node := Node (LComp "ListComp") [[elt]; [Node LGen [[sname x Store]; [iter]; []]]].
(** def f(a):
      def g(b): return a + b + helper(b)
      return g(len(a)) *)
Definition ex_nested : node :=
  sfun "f" [("a", [])]%string
    [sfun "g" [("b", [])]%string [sret (Node (LOther "BinOp") [[sload "a"]; [sload "b"]; [scall (sload "helper") [sload "b"]]])] [] [];
     sret (scall (sload "g") [scall (sload "len") [sload "a"]])] [] [].
(** The theorem applies: helper and len are looked up outside, nothing is excepted, and the function is accepted when helper is
    in its island. *)
Example C32_example :
  wf (Node LModule [[ex_nested]]) = true /\ stores_ok ex_nested = true /\ outside_names ex_nested = {["helper"; "len"]}%string /\ leaky ex_nested = ∅ /\
  exists s, analyze (Node LModule [[ex_nested]]) = Ok s /\ begin_check s = Ok tt /\ complete_check {["len"%string]} false {["helper"%string]} "f" s = Ok false /\
    (forall b, complete_check {["len"%string]} true {["helper"%string]} "f" s <> Ok b).
Proof.
  split; [bq|]. split; [bq|]. split; [setq|]. split; [setq|].
  destruct (runs (fun s => begins s && completes {["len"%string]} false {["helper"%string]} "f" false s && bool_decide ("helper"%string ∈ a_unclassified s)) ex_nested) as (s & Hs & H); [bq|].
  rewrite !andb_true_iff, bool_decide_eq_true in H. destruct H as [[H1 H2] H3]. exists s. split; [done|]. split; [by apply begins_ok|]. split; [by apply completes_ok|].
  intros b Hb. destruct (complete_check_ok _ _ _ _ _ _ Hb "helper"%string) as [Hal|[? _]]; [by apply elem_of_union_r| |done].
  unfold allowed, primary_decorators in Hal. rewrite !elem_of_cons, elem_of_nil, elem_of_singleton in Hal. clear -Hal. naive_solver.
Qed.

(** The function passes both checks as strictly autonomous, even if there were no built-ins, but looks [x] up outside. *)
Definition missed (x : string) (f : node) : Prop :=
  wf (Node LModule [[f]]) = true /\ stores_ok f = true /\ x ∈ outside_names f /\ x ∉ ["pth"; "self"; "f"; "ordinary"; "autonomous"; "strictly_autonomous"; "pure"]%string /\
  exists s, analyze (Node LModule [[f]]) = Ok s /\ begin_check s = Ok tt /\ complete_check ∅ true ∅ "f" s = Ok true.
(** def f(): y = [x for x in 1]; return x *)
Definition bad_comp : node := sfun "f" [] [sassign "y" (scomp (sload "x") "x" sconst); sret (sload "x")] [] [].
(** def f(): return [x for x in x] *)
Definition bad_comp_self : node := sfun "f" [] [sret (scomp (sload "x") "x" (sload "x"))] [] [].
(** def f():
      def g(x=x): return x
      return 1 *)
Definition bad_default : node :=
  sfun "f" [] [Node (LFunctionDef false "g") [[Node LArguments [[]; [Node (LArg "x") [[]]]; []; []; []; []; [sload "x"]]]; [sret (sload "x")]; []; []]; sret sconst] [] [].
(** def f(x=x): return x *)
Definition bad_own_default : node :=
  Node (LFunctionDef false "f") [[Node LArguments [[]; [Node (LArg "x") [[]]]; []; []; []; []; [sload "x"]]]; [sret (sload "x")]; []; []].
(** def f():
      class A: x = 1
      return x *)
Definition bad_class : node := sfun "f" [] [Node (LClassDef "A") [[]; []; [sassign "x" sconst]; []]; sret (sload "x")] [] [].
(** def f():
      @x
      def g(x): return x
      return 1 *)
Definition bad_decorator : node := sfun "f" [] [sfun "g" [("x", [])]%string [sret (sload "x")] [sload "x"] []; sret sconst] [] [].
(** def f():
      async def g(): x = 1
      return x *)
Definition bad_async : node := sfun "f" [] [Node (LFunctionDef true "g") [[sargs []]; [sassign "x" sconst]; []; []]; sret (sload "x")] [] [].
(** def f(): y = lambda: (x := 1); return x *)
Definition bad_lambda : node :=
  sfun "f" [] [sassign "y" (Node LLambda [[sargs []]; [Node LNamedExpr [[sname "x" Store]; [sconst]]]]); sret (sload "x")] [] [].
Theorem C32_misses_refuted : Forall (missed "x") [bad_comp; bad_comp_self; bad_default; bad_own_default; bad_class; bad_decorator; bad_async; bad_lambda].
Proof.
  repeat apply Forall_cons_2; [..|apply Forall_nil_2]; (split; [bq|split; [bq|split; [setq|split; [setq|]]]]);
    match goal with |- exists s, analyze (Node LModule [[?f]]) = _ /\ _ => destruct (runs (fun s => begins s && completes ∅ true ∅ "f" true s) f) as (s & Hs & H); [bq|] end;
    apply andb_true_iff in H as [H1 H2]; exists s; (split; [done|]); (split; [by apply begins_ok|by apply completes_ok]).
Qed.
Print Assumptions C32_misses_refuted.

(** * C33 *)
(** What is reported, exactly: the names whose first occurrence is a read. *)
Theorem C33_reported_names_partial : forall f s, wf (Node LModule [[f]]) = true -> analyze (Node LModule [[f]]) = Ok s ->
  forall x, match first_event_inside x f with
            | Some Read => x ∈ a_unclassified s
            | Some Outer => x ∈ a_nonlocal s
            | Some Bound | None => x ∉ a_unclassified s /\ x ∉ a_nonlocal s
            end.
Proof.
  intros f s Hw H x. destruct (analyze_form _ _ Hw H) as (name & args & body & decos & returns & E & Hf & -> & Hr). injection E as ->.
  pose proof (wf_node _ _ Hf) as (_ & _ & Hc).
  pose proof (inside_step x name [args; body; decos; returns] Hf) as Hi. destruct (first_event_inside x _) as [[]|]; apply Hi; intros g c Hg Hcc Hnl;
    (apply visit_steps; [eauto|by eapply rel_child|done]).
Qed.
Print Assumptions C33_reported_names_partial.
(** A function is accepted as strictly autonomous, whatever it contains, if every name it reads first is allowed, every name it
    declares nonlocal in a nested function is bound first, and it declares no global name that is not allowed. *)
Theorem C33_accepted_partial : forall builtins strictly island f name fs,
  f = Node (LFunctionDef false name) fs -> wf (Node LModule [[f]]) = true -> relative_import f = false -> has_own_yield f = false ->
  (forall x, x ∈ global_names f -> allowed builtins name x) -> (forall x, x ∈ nonlocal_names f -> first_event_inside x f = Some Bound) ->
  (forall x, first_event_inside x f = Some Read -> allowed builtins name x) ->
  exists s, analyze (Node LModule [[f]]) = Ok s /\ begin_check s = Ok tt /\ complete_check builtins strictly island name s = Ok true.
Proof.
  intros builtins strictly island f name fs -> Hw Hr Hy Hg Hn Hrd.
  pose proof (wf_node _ _ Hw) as (_ & _ & Hc). pose proof (Hc _ _ (elem_of_list_here _ _) (elem_of_list_here _ _)) as Hf. clear Hc.
  pose proof (wf_node _ _ Hf) as (Ha & _ & Hc).
  exists (inside name fs).
  assert (Han : analyze (Node LModule [[Node (LFunctionDef false name) fs]]) = Ok (inside name fs)).
  { unfold analyze. change (visit (Node LModule [[Node (LFunctionDef false name) fs]]) fresh) with (inside name fs).
    pose proof (visit_no_crash _ Hf Hr fresh eq_refl) as H. rewrite visit_def in H. cbn [a_level fresh Nat.eqb] in H. change (leave_function _) with (inside name fs) in H. by rewrite H. }
  split; [done|].
  assert (Hnl : a_nonlocal (inside name fs) ⊆ nonlocal_names (Node (LFunctionDef false name) fs)).
  { pose proof (visit_nonlocals_bound _ Hf (nonlocal_names (Node (LFunctionDef false name) fs)) fresh) as H. rewrite visit_def in H. apply H; [done|cbn; set_solver]. }
  assert (Hgl : a_global (inside name fs) ⊆ global_names (Node (LFunctionDef false name) fs)).
  { pose proof (visit_globals_bound _ Hf (global_names (Node (LFunctionDef false name) fs)) fresh) as H. rewrite visit_def in H. apply H; [done|cbn; set_solver]. }
  assert (Hno : forall x, x ∉ a_nonlocal (inside name fs)).
  { intros x Hx. pose proof (Hn x (Hnl x Hx)) as He. pose proof (C33_reported_names_partial _ _ Hw Han x) as H. rewrite He in H. by destruct H. }
  split.
  - apply begin_check_ok. split; [intros x Hx; by apply Hno in Hx|].
    unfold inside. cbn [leave_function a_yields].
    pose proof (generic_pres (fun s => 1 <= a_level s /\ a_yields s = 0) fs (enter_function name fs fresh)) as Hp. apply Hp; [|cbn; lia].
    intros g c s Hgg Hcc [L Y]. pose proof (visit_yields c (Hc g c Hgg Hcc) s L) as H. cbn [has_own_yield] in Hy. rewrite exists_fields_false in Hy. rewrite (Hy g c Hgg Hcc) in H.
    split; [|congruence]. rewrite (g_level _ _ (visit_grows c s (Hc g c Hgg Hcc))). done.
  - apply complete_check_accepts. intros x Hx. apply elem_of_union in Hx as [Hx|Hx]; [by apply Hg, Hgl|].
    pose proof (C33_reported_names_partial _ _ Hw Han x) as H. destruct (first_event_inside x _) as [[]|] eqn:He; [by apply Hrd|by destruct H|by apply Hno in H|by destruct H].
Qed.
Print Assumptions C33_accepted_partial.
(** def f(a):
      import m
      n = 0
      def g(b):
        nonlocal n
        n = b
        return m.h(a, b)
      for i in a: g(i)
      return [g(j) for j in a] *)
Definition ex_contained : node :=
  sfun "f" [("a", [])]%string
    [Node (LImport [("m", None)]%string) [];
     sassign "n" sconst;
     sfun "g" [("b", [])]%string [Node (LNonlocal ["n"%string]) []; sassign "n" (sload "b"); sret (scall (Node (LAttribute "h") [[sload "m"]]) [sload "a"; sload "b"])] [] [];
     Node (LFor false) [[sname "i" Store]; [sload "a"]; [Node LExpr [[scall (sload "g") [sload "i"]]]]; []];
     sret (scomp (scall (sload "g") [sload "j"]) "j" (sload "a"))] [] [].
Example C33_example : wf (Node LModule [[ex_contained]]) = true /\ outside_names ex_contained = ∅ /\
  exists s, analyze (Node LModule [[ex_contained]]) = Ok s /\ begin_check s = Ok tt /\ complete_check ∅ true ∅ "f" s = Ok true.
Proof.
  split; [bq|]. split; [setq|].
  eapply (C33_accepted_partial ∅ true ∅ ex_contained "f"); [done|bq|bq|bq| | |].
  - intros x Hx. exfalso. assert (E : global_names ex_contained = ∅) by setq. rewrite E in Hx. by apply elem_of_empty in Hx.
  - intros x Hx. assert (E : nonlocal_names ex_contained = {["n"%string]}) by setq. rewrite E in Hx. apply elem_of_singleton in Hx as ->. bq.
  - intros x Hx. exfalso.
    destruct (runs (fun s => bool_decide (a_unclassified s = ∅)) ex_contained) as (s & Hs & E); [bq|]. apply bool_decide_eq_true in E.
    pose proof (C33_reported_names_partial ex_contained s ltac:(bq) Hs x) as H. rewrite Hx, E in H. by apply elem_of_empty in H.
Qed.

(** The function looks nothing up outside, but is rejected whenever [x] is not a built-in name. *)
Definition wrongly_rejected (x : string) (f : node) : Prop :=
  wf (Node LModule [[f]]) = true /\ outside_names f = ∅ /\
  ((exists e, analyze (Node LModule [[f]]) = Err e) \/
   exists s, analyze (Node LModule [[f]]) = Ok s /\ forall builtins strictly island, x ∉ builtins -> x ∉ island -> forall b, complete_check builtins strictly island "f" s <> Ok b).
Lemma rejected_name x f s : analyze (Node LModule [[f]]) = Ok s -> x ∈ a_unclassified s -> x ∉ ["pth"; "self"; "f"; "autonomous"; "strictly_autonomous"; "pure"]%string ->
  forall builtins strictly island, x ∉ builtins -> x ∉ island -> forall b, complete_check builtins strictly island "f" s <> Ok b.
Proof.
  intros Ha Hx Hn builtins strictly island Hb Hi b H. pose proof (complete_check_ok _ _ _ _ _ _ H x ltac:(set_solver)) as [Hal|[_ Hal]]; [|done].
  unfold allowed in Hal. rewrite !elem_of_cons in Hn. unfold primary_decorators in Hal. rewrite !elem_of_cons in Hal. tauto.
Qed.
(** class x: pass  / return x() *)
Definition rej_class : node := sfun "f" [] [Node (LClassDef "x") [[]; []; [Node LPass []]; []]; sret (scall (sload "x") [])] [] [].
(** def x(n): return x(n)  / return x *)
Definition rej_recursive : node := sfun "f" [] [sfun "x" [("n", [])]%string [sret (scall (sload "x") [sload "n"])] [] []; sret (sload "x")] [] [].
(** def g(): return x() / def x(): return 1 / return g() *)
Definition rej_later : node :=
  sfun "f" [] [sfun "g" [] [sret (scall (sload "x") [])] [] []; sfun "x" [] [sret sconst] [] []; sret (scall (sload "g") [])] [] [].
(** return lambda x: x *)
Definition rej_lambda : node := sfun "f" [] [sret (Node LLambda [[sargs [("x", [])]%string]; [sload "x"]])] [] [].
(** a keyword-only parameter x: return x *)
Definition rej_kwonly : node := Node (LFunctionDef false "f") [[Node LArguments [[]; []; []; [Node (LArg "x") [[]]]; []; []; []]]; [sret (sload "x")]; []; []].
(** def f(x, /): return x *)
Definition rej_posonly : node := Node (LFunctionDef false "f") [[Node LArguments [[Node (LArg "x") [[]]]; []; []; []; []; []; []]]; [sret (sload "x")]; []; []].
(** import x.y / return x *)
Definition rej_import : node := sfun "f" [] [Node (LImport [("x.y", None)]%string) []; sret (sload "x")] [] [].
(** match 1: case x: return x *)
Definition rej_match : node := sfun "f" [] [Node (LOther "Match") [[sconst]; [Node (LOther "match_case") [[Node (LCapture "x") [[]]]; []; [sret (sload "x")]]]]] [] [].
(** from . import x / return x : the analyzer itself fails *)
Definition rej_relative : node := sfun "f" [] [Node (LImportFrom None [("x", None)]%string) []; sret (sload "x")] [] [].
Theorem C33_rejects_refuted : Forall (wrongly_rejected "x") [rej_class; rej_recursive; rej_later; rej_lambda; rej_kwonly; rej_posonly; rej_import; rej_match; rej_relative].
Proof.
  repeat apply Forall_cons_2; [..|apply Forall_nil_2]; (split; [bq|split; [setq|]]).
  9: left; eexists; vm_compute; reflexivity.
  all: right; match goal with |- exists s, analyze (Node LModule [[?f]]) = _ /\ _ => destruct (runs (fun s => bool_decide ("x"%string ∈ a_unclassified s)) f) as (s & Hs & H); [bq|] end;
    apply bool_decide_eq_true in H; exists s; (split; [done|]); eapply rejected_name; [done|done|setq].
Qed.
Print Assumptions C33_rejects_refuted.

(** * C34 *)
Theorem C34_yield_rejected : forall f s, wf (Node LModule [[f]]) = true -> analyze (Node LModule [[f]]) = Ok s ->
  (has_own_yield f = true <-> a_yields s <> 0) /\ (has_own_yield f = true -> begin_check s = Err AssertionError).
Proof.
  intros f s Hw H. destruct (analyze_form _ _ Hw H) as (name & args & body & decos & returns & E & Hf & -> & Hr). injection E as ->.
  set (fs := [args; body; decos; returns]) in *. pose proof (wf_node _ _ Hf) as (_ & _ & Hc).
  assert (Hiff : has_own_yield (Node (LFunctionDef false name) fs) = true <-> a_yields (inside name fs) <> 0).
  { cbn [has_own_yield]. unfold inside. cbn [leave_function a_yields]. split.
    - intros Hy. apply exists_fields in Hy as (g & c & Hg & Hcc & Hy).
      apply (generic_hit (fun s => a_yields s <> 0) fs (enter_function name fs fresh) g c Hg Hcc); [| |done].
      + intros s' G. pose proof (visit_yields c (Hc g c Hg Hcc) s') as HH. rewrite Hy in HH. pose proof (g_level _ _ G) as GL. cbn in GL. lia.
      + intros s1 s2 G ?. pose proof (g_yields _ _ G). lia.
    - intros Hn. destruct (existsb _ fs) eqn:Hy; [done|]. exfalso. apply Hn.
      pose proof (generic_pres (fun s => 1 <= a_level s /\ a_yields s = 0) fs (enter_function name fs fresh)) as Hp. apply Hp; [|cbn; lia].
      intros g c s Hgg Hcc [L Y]. pose proof (visit_yields c (Hc g c Hgg Hcc) s L) as HH. rewrite exists_fields_false in Hy. rewrite (Hy g c Hgg Hcc) in HH.
      split; [|congruence]. rewrite (g_level _ _ (visit_grows c s (Hc g c Hgg Hcc))). done. }
  split; [done|]. intros Hy. apply Hiff in Hy. unfold begin_check. destruct (bool_decide _); [|done]. cbn [passert rbind].
  destruct (a_yields (inside name fs) =? 0) eqn:Ez; [by apply Nat.eqb_eq in Ez|done].
Qed.
Print Assumptions C34_yield_rejected.
Lemma declared_own n : declared false n ⊆ own_nonlocals n.
Proof.
  induction n as [l fs IH] using node_ind'. assert (Hd : deep (declared false) fs ⊆ deep own_nonlocals fs).
  { intros x Hx. apply elem_deep in Hx as (f & c & Hf & Hc & Hx). apply elem_deep. exists f, c. split_and!; [done|done|]. by apply (IH f c Hf Hc). }
  destruct l; try done; cbn [declared own_nonlocals]; intros x Hx; by apply elem_of_empty in Hx.
Qed.
(** A function with a nested function (at any depth, or itself) that declares a name nonlocal is rejected, if the name occurs
    nowhere else in the function and is not the name of one of the package's decorators. *)
Theorem C34_unbound_nonlocal_rejected : forall f s g y args body decos returns x,
  wf (Node LModule [[f]]) = true -> analyze (Node LModule [[f]]) = Ok s ->
  only_in x g f -> g = Node (LFunctionDef false y) [args; body; decos; returns] -> x ∈ declared_all false body -> x <> y -> x ∉ all_decorators ->
  begin_check s = Err AssertionError.
Proof.
  intros f s g y args body decos returns x Hw Ha Ho Eg Hx Hy Hd. destruct (analyze_form _ _ Hw Ha) as (name & fa & fb & fd & fr & E & Hf & Es & _).
  assert (Hg : first_event x g = Some Outer).
  { subst g. cbn [first_event]. rewrite decide_True; [done|]. apply elem_unions in Hx as (c & Hc & Hx). apply elem_unions. exists c. split; [|by apply declared_own].
    apply elem_of_list_In, in_concat. exists body. split; [right; by left|by apply elem_of_list_In]. }
  assert (He : first_event x f = Some Outer).
  { apply (only_event x g); [done| |by subst|done|injection E as ->; done]. subst g. cbn. by rewrite bool_decide_eq_false_2. }
  assert (Hi : first_event_inside x f = Some Outer).
  { injection E as ->. change (first_event x (Node (LFunctionDef false name) [fa; fb; fd; fr])) with
      (match first_event_inside x (Node (LFunctionDef false name) [fa; fb; fd; fr]) with Some Read => Some Read | Some Outer => Some Outer | _ => when (bool_decide (x = name)) Bound end) in He.
    destruct (first_event_inside x _) as [[]|]; try done; by destruct (bool_decide _). }
  pose proof (C33_reported_names_partial f s Hw Ha x) as H. rewrite Hi in H. unfold begin_check. rewrite bool_decide_eq_false_2; [done|].
  intros Ez. assert (Hin : x ∈ a_nonlocal s ∖ names_set all_decorators); [|rewrite Ez in Hin; set_solver]. unfold names_set. rewrite elem_of_difference, elem_of_list_to_set. done.
Qed.
Print Assumptions C34_unbound_nonlocal_rejected.
(** def f():
      def g():
        nonlocal n
        n = 1
      return g *)
Definition ex_nonlocal_g : node := sfun "g" [] [Node (LNonlocal ["n"%string]) []; sassign "n" sconst] [] [].
Definition ex_nonlocal : node := sfun "f" [] [ex_nonlocal_g; sret (sload "g")] [] [].
Example C34_example : exists s, analyze (Node LModule [[ex_nonlocal]]) = Ok s /\ begin_check s = Err AssertionError /\ has_own_yield ex_nonlocal = false.
Proof.
  destruct (runs (fun s => true) ex_nonlocal) as (s & Hs & _); [bq|]. exists s. split; [done|]. split; [|bq].
  refine (C34_unbound_nonlocal_rejected ex_nonlocal _ ex_nonlocal_g "g" _ _ _ _ "n" _ Hs _ eq_refl _ _ _); [bq| |setq|done|setq].
  apply (only_sub "n" ex_nonlocal_g (LFunctionDef false "f") [[sargs []]] [] ex_nonlocal_g [sret (sload "g")] [[]; []]); [done| |constructor].
  intros f d Hf Hd. cbn [app] in Hf. rewrite !elem_of_cons in Hf. destruct Hf as [->|[->|[->|[->|[->|Hf]]]]]; try (by inversion Hd); [| |by inversion Hf];
    apply elem_of_list_singleton in Hd as ->; bq.
Qed.
(** yield in the header of a nested function belongs to the outer function, but is not seen; a nonlocal name equal to that of a
    decorator is ignored. *)
Definition gen_header : node :=
  sfun "f" [] [Node (LFunctionDef false "g") [[Node LArguments [[]; [Node (LArg "a") [[]]]; []; []; []; []; [Node LYield [[sconst]]]]]; [sret (sload "a")]; []; []]; sret (sload "g")] [] [].
Definition nonlocal_pure : node := sfun "f" [] [sfun "g" [] [Node (LNonlocal ["pure"%string]) []; sassign "pure" sconst] [] []; sret (sload "g")] [] [].
Theorem C34_missed_refuted : Forall (fun f => wf (Node LModule [[f]]) = true /\ exists s, analyze (Node LModule [[f]]) = Ok s /\ begin_check s = Ok tt /\ complete_check ∅ true ∅ "f" s = Ok true) [gen_header; nonlocal_pure].
Proof. repeat apply Forall_cons_2; [..|apply Forall_nil_2]; (split; [bq|]);
    match goal with |- exists s, analyze (Node LModule [[?f]]) = _ /\ _ => destruct (runs (fun s => begins s && completes ∅ true ∅ "f" true s) f) as (s & Hs & H); [bq|] end;
    apply andb_true_iff in H as [H1 H2]; exists s; (split; [done|]); (split; [by apply begins_ok|by apply completes_ok]). Qed.
Print Assumptions C34_missed_refuted.
