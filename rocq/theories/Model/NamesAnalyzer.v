(** Model of _060_autonomous_functions/names_usage_analyzer.py and of the decisions autonomous_core_classes.py takes on its
    results.  Definitions only.

    Not modelled: imported_packages_deep (not used by the checks).  [visit_Try] also puts None among the names when a handler
    has no name; no node can ask for None, so it is left out.  An exception while visiting (the module of "from . import y" is
    None) sets [crashed], and the analysis then fails as a whole. *)
From Coq Require Import String.
From stdpp Require Import gmap.
From Verif Require Import Lib.Py Model.PyAst Model.Normalizer.
Local Open Scope nat_scope.

(** names_usage_analyzer.py:7-15 NamesUsedInFunction and 24-28 NamesUsageAnalyzer.__init__ *)
Record ana := Ana {
  a_function : option string;
  a_global : gset string;        (* explicitly_global_unbound_deep *)
  a_nonlocal : gset string;      (* explicitly_nonlocal_unbound_deep *)
  a_local : gset string;
  a_imported : gset string;
  a_unclassified : gset string;  (* unclassified_deep *)
  a_accessible : gset string;
  a_level : nat;                 (* func_nesting_level *)
  a_yields : nat;                (* n_yelds *)
  a_crashed : bool
}.
Definition fresh : ana := Ana None ∅ ∅ ∅ ∅ ∅ ∅ 0 0 false.

Definition arg_name (n : node) : string := match label_of n with LArg x => x | _ => EmptyString end.
(** lines 34-40: args, vararg and kwarg - not the positional-only and keyword-only arguments *)
Definition analyzer_params (fs : list (list node)) : list string :=
  match fs with
  | [Node LArguments [_; args; vararg; _; _; kwarg; _]] :: _ => map arg_name (args ++ vararg ++ kwarg)
  | _ => []
  end.
(** lines 32-41, visit_FunctionDef: entering a function *)
Definition enter_function (name : string) (fs : list (list node)) (s : ana) : ana :=
  let local := a_local s ∪ list_to_set (analyzer_params fs) in
  Ana (Some name) (a_global s) (a_nonlocal s) local (a_imported s) (a_unclassified s) (a_accessible s ∪ local) (S (a_level s)) (a_yields s) (a_crashed s).
(** line 42 *)
Definition leave_function (s : ana) : ana :=
  Ana (a_function s) (a_global s) (a_nonlocal s) (a_local s) (a_imported s) (a_unclassified s) (a_accessible s) (a_level s - 1) (a_yields s) (a_crashed s).
(** lines 44-53, visit_FunctionDef: a nested function *)
Definition merge_nested (name : string) (nested s : ana) : ana :=
  Ana (a_function s) (a_global s ∪ a_global nested) (a_nonlocal s ∪ (a_nonlocal nested ∖ a_accessible s))
    (a_local s ∪ {[name]}) (a_imported s) (a_unclassified s ∪ (a_unclassified nested ∖ a_accessible s)) (a_accessible s ∪ {[name]})
    (a_level s) (a_yields s) (a_crashed s || a_crashed nested).
(** lines 57-66 visit_Name *)
Definition load_name (x : string) (s : ana) : ana :=
  if decide (x ∈ a_accessible s) then s
  else Ana (a_function s) (a_global s) (a_nonlocal s) (a_local s) (a_imported s) (a_unclassified s ∪ {[x]}) (a_accessible s ∪ {[x]}) (a_level s) (a_yields s) (a_crashed s).
Definition store_name (x : string) (s : ana) : ana :=
  if decide (x ∈ a_accessible s) then s
  else Ana (a_function s) (a_global s) (a_nonlocal s) (a_local s ∪ {[x]}) (a_imported s) (a_unclassified s) (a_accessible s ∪ {[x]}) (a_level s) (a_yields s) (a_crashed s).
Definition count_yield (s : ana) : ana :=
  Ana (a_function s) (a_global s) (a_nonlocal s) (a_local s) (a_imported s) (a_unclassified s) (a_accessible s) (a_level s) (S (a_yields s)) (a_crashed s).
(** lines 79-83 visit_Try *)
Definition handler_names (hs : list node) : list string :=
  flat_map (fun h => match label_of h with LHandler (Some x) => [x] | _ => [] end) hs.
Definition add_local (xs : list string) (s : ana) : ana :=
  Ana (a_function s) (a_global s) (a_nonlocal s) (a_local s ∪ list_to_set xs) (a_imported s) (a_unclassified s) (a_accessible s ∪ list_to_set xs) (a_level s) (a_yields s) (a_crashed s).
(** lines 85-98 visit_comprehension, visit_For: only names that stand directly in the target, or in the outermost tuple or list of it *)
Definition direct_targets (target : list node) : list string :=
  let elts := match target with [Node (LSeq _) [elts]] => elts | _ => target end in
  flat_map (fun t => match label_of t with LName x _ => [x] | _ => [] end) elts.
Definition comprehension_targets (xs : list string) (s : ana) : ana :=
  let local := a_local s ∪ (list_to_set xs ∖ a_accessible s) in
  Ana (a_function s) (a_global s) (a_nonlocal s) local (a_imported s) (a_unclassified s) (a_accessible s ∪ local) (a_level s) (a_yields s) (a_crashed s).
(** lines 120-134: alias.asname if alias.asname else alias.name *)
Definition alias_name (a : string * option string) : string := match snd a with Some x => x | None => fst a end.
Definition import_names (xs : list string) (s : ana) : ana :=
  let imported := a_imported s ∪ list_to_set xs in
  Ana (a_function s) (a_global s) (a_nonlocal s) (a_local s) imported (a_unclassified s) (a_accessible s ∪ imported) (a_level s) (a_yields s) (a_crashed s).
Definition crash (s : ana) : ana :=
  Ana (a_function s) (a_global s) (a_nonlocal s) (a_local s) (a_imported s) (a_unclassified s) (a_accessible s) (a_level s) (a_yields s) true.
(** lines 136-146 visit_Nonlocal, visit_Global *)
Definition declare_nonlocal (xs : list string) (s : ana) : ana :=
  Ana (a_function s) (a_global s) (a_nonlocal s ∪ list_to_set xs) (a_local s) (a_imported s) (a_unclassified s) (a_accessible s ∪ list_to_set xs) (a_level s) (a_yields s) (a_crashed s).
Definition declare_global (xs : list string) (s : ana) : ana :=
  Ana (a_function s) (a_global s ∪ list_to_set xs) (a_nonlocal s) (a_local s) (a_imported s) (a_unclassified s) (a_accessible s ∪ list_to_set xs) (a_level s) (a_yields s) (a_crashed s).

(** lines 30-146, with ast.NodeVisitor.generic_visit (all fields in order) for classes without a method of their own *)
Fixpoint visit (n : node) (s : ana) : ana :=
  match n with
  | Node l fs =>
      let generic (s : ana) := fold_left (fun s f => fold_left (fun s c => visit c s) f s) fs s in
      match l with
      | LFunctionDef false name =>
          if a_level s =? 0 then leave_function (generic (enter_function name fs s))
          else merge_nested name (leave_function (generic (enter_function name fs fresh))) s
      | LName x Load => generic (load_name x s)
      | LName x Store => generic (store_name x s)
      | LYield | LYieldFrom => generic (count_yield s)
      | LTry false => generic (match fs with [_; hs; _; _] => add_local (handler_names hs) s | _ => s end)
      | LGen | LFor false => generic (match fs with target :: _ => comprehension_targets (direct_targets target) s | _ => s end)
      | LComp _ => generic (match fs with [_; gens] => fold_left (fun s c => visit c s) gens s | _ => s end)
      | LImport aliases => generic (import_names (map alias_name aliases) s)
      | LImportFrom (Some _) aliases => generic (import_names (map alias_name aliases) s)
      | LImportFrom None _ => crash s
      | LNonlocal xs => generic (declare_nonlocal xs s)
      | LGlobal xs => generic (declare_global xs s)
      | _ => generic s
      end
  end.
(** lines 148-183 analyze_names_in_function, on the tree of the normalised source *)
Definition analyze (tree : node) : res ana :=
  match tree with
  | Node LModule [[Node (LFunctionDef false _) _]] => let s := visit tree fresh in if a_crashed s then Err AttributeError else Ok s
  | _ => Err AssertionError
  end.

Section Checks.
  Variable builtins : gset string.   (* dir(builtins) *)
  Definition names_set (l : list string) : gset string := list_to_set l.
  (** autonomous_core_classes.py:174-184 *)
  Definition begin_check (s : ana) : res unit :=
    let? _ := passert (bool_decide (a_nonlocal s ∖ names_set all_decorators = ∅)) in
    passert (a_yields s =? 0).
  (** autonomous_core_classes.py:251-274; the result is the new value of strictly_autonomous *)
  Definition complete_check (strictly : bool) (island : gset string) (fn_name : string) (s : ana) : res bool :=
    let required := (a_global s ∪ a_unclassified s) ∖ names_set primary_decorators ∖ builtins ∖ {["pth"%string]} ∖ {[fn_name]} ∖ {["self"%string]} in
    let '(required', strictly') :=
      if strictly then (required, true)
      else let r := required ∖ island in (r, bool_decide (size r = size required)) in
    let? _ := passert (bool_decide (required' = ∅)) in
    Ok strictly'.
End Checks.
