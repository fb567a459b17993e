(** What a function does with a name, in the order of its text (fields of each node in the order of ast's _fields, the "for"
    parts of a comprehension before its elements and then once more): an account of when the function asks the outside for it. *)
From Coq Require Import String.
From stdpp Require Import gmap.
From Verif Require Import Lib.Py Model.PyAst Spec.Scoping.
Local Open Scope nat_scope.

(** [Own]: by the function itself.  [Nested]: by a function defined in it, which itself asks its outside for the name. *)
Inductive use := Own (e : event) | Nested (e : event).
(** The name is asked for by reading it: it is read, by the function or by one nested in it, before the function has done
    anything with it. *)
Fixpoint reads_outside (us : list use) : bool :=
  match us with
  | [] => false
  | Own Read :: _ | Nested Read :: _ => true
  | Own _ :: _ => false
  | Nested _ :: us => reads_outside us
  end.
(** It is asked for as a nonlocal variable: the function declares it nonlocal, or a nested one does before the function has
    done anything with it. *)
Fixpoint nested_outer (us : list use) : bool :=
  match us with
  | [] => false
  | Nested Outer :: _ => true
  | Own _ :: _ => false
  | Nested _ :: us => nested_outer us
  end.
Definition is_own_outer (u : use) : bool := match u with Own Outer => true | _ => false end.
Definition nonlocal_outside (us : list use) : bool := existsb is_own_outer us || nested_outer us.

Definition if_use (b : bool) (u : use) : list use := if b then [u] else [].
(** Of a whole function, for the function around it: what it asks for, and its own name becomes known. *)
Definition nested_uses (x name : string) (us : list use) : list use :=
  if_use (reads_outside us) (Nested Read) ++ if_use (nonlocal_outside us) (Nested Outer) ++ if_use (bool_decide (x = name)) (Own Bound).
Fixpoint uses (x : string) (n : node) : list use :=
  match n with
  | Node l fs =>
      let all := flat_map (flat_map (uses x)) fs in
      match l with
      | LFunctionDef false name =>
          nested_uses x name (if_use (bool_decide (x ∈ match fs with args :: _ => known_params args | [] => [] end)) (Own Bound) ++ all)
      | LName y Load => if_use (bool_decide (x = y)) (Own Read)
      | LName y Store => if_use (bool_decide (x = y)) (Own Bound)
      | LTry false => if_use (match fs with [_; hs; _; _] => bool_decide (x ∈ flat_map (fun h => match label_of h with LHandler (Some y) => [y] | _ => [] end) hs) | _ => false end) (Own Bound) ++ all
      | LGen | LFor false => if_use (match fs with target :: _ => bool_decide (x ∈ simple_targets target) | [] => false end) (Own Bound) ++ all
      | LComp _ => match fs with [_; gens] => flat_map (uses x) gens | _ => [] end ++ all
      | LImport aliases => if_use (bool_decide (x ∈ import_from_binds aliases)) (Own Bound)
      | LImportFrom (Some _) aliases => if_use (bool_decide (x ∈ import_from_binds aliases)) (Own Bound)
      | LImportFrom None _ => []
      | LGlobal ys => if_use (bool_decide (x ∈ ys)) (Own Bound)
      | LNonlocal ys => if_use (bool_decide (x ∈ ys)) (Own Outer)
      | _ => all
      end
  end.
(** inside a function *)
Definition uses_inside (x : string) (f : node) : list use :=
  match f with
  | Node _ fs => if_use (bool_decide (x ∈ match fs with args :: _ => known_params args | [] => [] end)) (Own Bound) ++ flat_map (flat_map (uses x)) fs
  end.
