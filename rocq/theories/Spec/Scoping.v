(** Python's rules for where a name is looked up (Language Reference 4.2), for the syntax of Model/PyAst.v. *)
From Coq Require Import String Ascii.
From stdpp Require Import gmap.
From Verif Require Import Lib.Py Model.PyAst.
Local Open Scope nat_scope.

Definition unions (l : list (gset string)) : gset string := ⋃ l.
Definition set_of (l : list string) : gset string := list_to_set l.
(** parameters of a function or lambda, of every kind *)
Definition arg_names (l : list node) : list string := flat_map (fun n => match label_of n with LArg x => [x] | _ => [] end) l.
Definition all_params (args : list node) : gset string :=
  match args with
  | [Node LArguments [po; a; va; ko; _; ka; _]] => set_of (arg_names (po ++ a ++ va ++ ko ++ ka))
  | _ => ∅
  end.
(** "import a.b" binds a *)
Fixpoint before_dot (s : string) : string :=
  match s with EmptyString => EmptyString | String c s' => if decide (c = "."%char) then EmptyString else String c (before_dot s') end.
Definition import_binds (aliases : list (string * option string)) : list string :=
  map (fun a => match snd a with Some x => x | None => before_dot (fst a) end) aliases.
Definition import_from_binds (aliases : list (string * option string)) : list string :=
  map (fun a => match snd a with Some x => x | None => fst a end) aliases.

(** Names bound in the scope to which [n] belongs, by [n]: assignments, deletions, loops, imports, function and class
    definitions, handlers, patterns, walrus targets (also inside comprehensions).  Bodies of functions, classes and lambdas,
    and the loop variables of comprehensions, belong to scopes of their own. *)
Fixpoint binds (n : node) : gset string :=
  match n with
  | Node l fs =>
      let all := unions (map (fun f => unions (map binds f)) fs) in
      match l, fs with
      | LFunctionDef _ x, [args; _; decos; returns] => {[x]} ∪ unions (map binds args) ∪ unions (map binds decos) ∪ unions (map binds returns)
      | LClassDef x, [bases; keywords; _; decos] => {[x]} ∪ unions (map binds bases) ∪ unions (map binds keywords) ∪ unions (map binds decos)
      | LLambda, [args; _] => unions (map binds args)
      | LGen, [_; iter; ifs] => unions (map binds iter) ∪ unions (map binds ifs)
      | LName x Load, _ => ∅
      | LName x _, _ => {[x]}
      | LHandler (Some x), _ => {[x]} ∪ all
      | LCapture x, _ => {[x]} ∪ all
      | LImport aliases, _ => set_of (import_binds aliases)
      | LImportFrom _ aliases, _ => set_of (import_from_binds aliases)
      | _, _ => all
      end
  end.
Definition binds_all (l : list node) : gset string := unions (map binds l).
(** Names declared global (nonlocal) in the scope to which [n] belongs. *)
Fixpoint declared (glob : bool) (n : node) : gset string :=
  match n with
  | Node l fs =>
      match l with
      | LGlobal xs => if glob then set_of xs else ∅
      | LNonlocal xs => if glob then ∅ else set_of xs
      | LFunctionDef _ _ | LClassDef _ | LLambda => ∅
      | _ => unions (map (fun f => unions (map (declared glob) f)) fs)
      end
  end.
Definition declared_all (glob : bool) (l : list node) : gset string := unions (map (declared glob) l).

(** An environment says of each name whether it is looked up at module level (or among the built-ins). *)
Definition env := string -> bool.
(** The scope of a function with these parameters and body, inside functions where names are looked up as [outer] says. *)
Definition function_env (params : gset string) (body : list node) (outer : env) : env := fun x =>
  if decide (x ∈ declared_all true body) then true
  else if decide (x ∈ declared_all false body) then outer x
  else if decide (x ∈ params ∪ binds_all body) then false
  else outer x.
(** Loop variables of a comprehension. *)
Definition gen_targets (gens : list node) : gset string :=
  unions (map (fun g => match g with Node LGen (target :: _) => binds_all target | _ => ∅ end) gens).
Definition comp_env (gens : list node) (outer : env) : env := fun x => if decide (x ∈ gen_targets gens) then false else outer x.

(** The names that [n] refers to and Python looks up outside the whole function.  [cur]: the scope [n] is in; [fn]: the
    innermost scope visible to functions defined here (class scopes are not).  Parameter defaults, decorators, base classes and
    annotations are evaluated in the surrounding scope, as is the first iterable of a comprehension. *)
Fixpoint outside (cur fn : env) (n : node) : gset string :=
  match n with
  | Node l fs =>
      let ref x := if cur x then {[x]} else ∅ : gset string in
      let all := unions (map (fun f => unions (map (outside cur fn) f)) fs) in
      match l, fs with
      | LFunctionDef _ x, [args; body; decos; returns] =>
          let e := function_env (all_params args) body fn in
          ref x ∪ unions (map (outside cur fn) args) ∪ unions (map (outside cur fn) decos) ∪ unions (map (outside cur fn) returns) ∪ unions (map (outside e e) body)
      | LClassDef x, [bases; keywords; body; decos] =>
          let e := function_env ∅ body fn in
          ref x ∪ unions (map (outside cur fn) bases) ∪ unions (map (outside cur fn) keywords) ∪ unions (map (outside cur fn) decos) ∪ unions (map (outside e fn) body)
      | LLambda, [args; body] =>
          let e := function_env (all_params args) body fn in
          unions (map (outside cur fn) args) ∪ unions (map (outside e e) body)
      | LComp _, [elts; gens] =>
          let e := comp_env gens fn in
          unions (map (outside e e) elts) ∪
          match gens with
          | [] => ∅
          | Node lg fg :: rest =>
              match fg with
              | [target; iter; ifs] => unions (map (outside e e) target) ∪ unions (map (outside cur fn) iter) ∪ unions (map (outside e e) ifs)
              | _ => ∅
              end ∪ unions (map (outside e e) rest)
          end
      | LName x _, _ => ref x
      | LHandler (Some x), _ => ref x ∪ all
      | LCapture x, _ => ref x ∪ all
      | LImport aliases, _ => unions (map ref (import_binds aliases))
      | LImportFrom _ aliases, _ => unions (map ref (import_from_binds aliases))
      | _, _ => all
      end
  end.
(** For a function defined at module level: the names its header and its body look up outside of it. *)
Definition outside_header (cur fn : env) (args decos returns : list node) : gset string :=
  unions (map (outside cur fn) args) ∪ unions (map (outside cur fn) decos) ∪ unions (map (outside cur fn) returns).
Definition module_env : env := fun _ => true.
Definition outside_names (f : node) : gset string :=
  match f with
  | Node (LFunctionDef _ _) [args; body; decos; returns] =>
      let e := function_env (all_params args) body module_env in
      outside_header module_env module_env args decos returns ∪ unions (map (outside e e) body)
  | _ => ∅
  end.

(** Loop targets are marked as stores (as ast.parse does). *)
Definition is_load (n : node) : bool := match n with Node (LName _ Load) _ => true | _ => false end.
Fixpoint stores_ok (n : node) : bool :=
  match n with
  | Node l fs =>
      match l, fs with
      | (LGen | LFor _), target :: _ => forallb (fun t => negb (is_load t)) match target with [Node (LSeq _) [elts]] => elts | _ => target end
      | _, _ => true
      end && forallb (forallb stores_ok) fs
  end.

(** The names declared global in a function or anywhere inside it. *)
Fixpoint global_names (n : node) : gset string :=
  match n with
  | Node l fs => match l with LGlobal xs => set_of xs | _ => unions (map (fun f => unions (map global_names f)) fs) end
  end.

(** Names that have a scope of their own inside a function which is not that of a (synchronous) nested function: loop variables
    of comprehensions, names bound in class bodies, async functions and lambdas; and local names of a nested function that its own
    header (decorators, defaults, annotations) mentions, or that its header assigns with ":=".  ("import a.b" adds the impossible name "a.b".) *)
Fixpoint leaky (n : node) : gset string :=
  match n with
  | Node l fs =>
      let sub := unions (map (fun f => unions (map leaky f)) fs) in
      match l, fs with
      | LFunctionDef false _, [args; body; decos; returns] =>
          ((all_params args ∪ binds_all body) ∩ outside_header module_env module_env args decos returns) ∪ binds_all (args ++ decos ++ returns) ∪ sub
      | LFunctionDef true _, [_; body; _; _] => binds_all body ∪ sub
      | LClassDef _, [_; _; body; _] => binds_all body ∪ sub
      | LLambda, [_; body] => binds_all body ∪ sub
      | LGen, target :: _ => binds_all target ∪ sub
      | LImport aliases, _ => set_of (flat_map (fun a => match snd a with Some _ => [] | None => if decide (before_dot (fst a) = fst a) then [] else [fst a] end) aliases) ∪ sub
      | _, _ => sub
      end
  end.

(** * What happens first to a name, reading the function from its beginning (fields of each node in the order of ast's
    _fields, the "for" parts of a comprehension before its elements) *)
Inductive event := Read | Bound | Outer.   (* Outer: declared nonlocal *)
Definition first_of (a b : option event) : option event := match a with None => b | Some _ => a end.
Definition when (b : bool) (e : event) : option event := if b then Some e else None.
Definition known_params (args : list node) : list string :=     (* keyword-only and positional-only parameters are not looked at *)
  match args with [Node LArguments [_; a; va; _; _; ka; _]] => arg_names (a ++ va ++ ka) | _ => [] end.
Definition simple_targets (target : list node) : list string :=
  flat_map (fun t => match label_of t with LName y _ => [y] | _ => [] end) match target with [Node (LSeq _) [elts]] => elts | _ => target end.
(** names declared nonlocal, searching everything but nested functions *)
Fixpoint own_nonlocals (n : node) : gset string :=
  match n with
  | Node l fs => match l with LNonlocal xs => set_of xs | LFunctionDef false _ => ∅ | _ => unions (map (fun f => unions (map own_nonlocals f)) fs) end
  end.
Fixpoint first_event (x : string) (n : node) : option event :=
  match n with
  | Node l fs =>
      let list_event (f : list node) := fold_right (fun c a => first_of (first_event x c) a) None f in
      let all := fold_right (fun f a => first_of (list_event f) a) None fs in
      match l with
      | LFunctionDef false y =>
          match (if decide (x ∈ unions (map own_nonlocals (concat fs))) then Some Outer
                 else first_of (when (bool_decide (x ∈ match fs with args :: _ => known_params args | [] => [] end)) Bound) all) with
          | Some Read => Some Read
          | Some Outer => Some Outer
          | _ => when (bool_decide (x = y)) Bound
          end
      | LName y Load => when (bool_decide (x = y)) Read
      | LName y Store => when (bool_decide (x = y)) Bound
      | LTry false => first_of (match fs with [_; hs; _; _] => when (bool_decide (x ∈ flat_map (fun h => match label_of h with LHandler (Some y) => [y] | _ => [] end) hs)) Bound | _ => None end) all
      | LGen | LFor false => first_of (match fs with target :: _ => when (bool_decide (x ∈ simple_targets target)) Bound | [] => None end) all
      | LComp _ => first_of (match fs with [_; gens] => list_event gens | _ => None end) all
      | LImport aliases | LImportFrom _ aliases => when (bool_decide (x ∈ import_from_binds aliases)) Bound
      | LGlobal ys => when (bool_decide (x ∈ ys)) Bound
      | LNonlocal _ => None
      | _ => all
      end
  end.
(** inside a function *)
Definition first_event_inside (x : string) (f : node) : option event :=
  match f with
  | Node _ fs =>
      if decide (x ∈ unions (map own_nonlocals (concat fs))) then Some Outer
      else first_of (when (bool_decide (x ∈ match fs with args :: _ => known_params args | [] => [] end)) Bound)
             (fold_right (fun f a => first_of (fold_right (fun c a => first_of (first_event x c) a) None f) a) None fs)
  end.
(** The names declared nonlocal anywhere inside. *)
Fixpoint nonlocal_names (n : node) : gset string :=
  match n with Node l fs => match l with LNonlocal xs => set_of xs | _ => unions (map (fun f => unions (map nonlocal_names f)) fs) end end.
(** "from . import x" occurs inside *)
Fixpoint relative_import (n : node) : bool :=
  match n with Node l fs => match l with LImportFrom None _ => true | _ => existsb (existsb relative_import) fs end end.
(** yield in the function's own body; nested functions (and what stands in their headers) are not searched, other nested scopes are. *)
Fixpoint own_yield (n : node) : bool :=
  match n with Node l fs => match l with LYield | LYieldFrom => true | LFunctionDef false _ => false | _ => existsb (existsb own_yield) fs end end.
Definition has_own_yield (f : node) : bool := match f with Node _ fs => existsb (existsb own_yield) fs end.

(** [x] occurs in [n] only inside the part [g] of it. *)
Definition label_mentions (x : string) (l : label) : bool :=
  match l with
  | LFunctionDef _ y | LClassDef y | LArg y | LName y _ | LHandler (Some y) | LCapture y => bool_decide (x = y)
  | LImport aliases | LImportFrom _ aliases => bool_decide (x ∈ import_from_binds aliases)
  | LGlobal ys | LNonlocal ys => bool_decide (x ∈ ys)
  | _ => false
  end.
Fixpoint mentions (x : string) (n : node) : bool := match n with Node l fs => label_mentions x l || existsb (existsb (mentions x)) fs end.
Inductive only_in (x : string) (g : node) : node -> Prop :=
  | only_here : only_in x g g
  | only_sub l fs1 f1 c f2 fs2 :
      label_mentions x l = false -> (forall f d, f ∈ fs1 ++ f1 :: f2 :: fs2 -> d ∈ f -> mentions x d = false) ->
      only_in x g c -> only_in x g (Node l (fs1 ++ (f1 ++ c :: f2) :: fs2)).
