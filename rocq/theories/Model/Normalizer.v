(** Model of _040_ordinary_functions/code_normalizer_implementation.py (with drop_pth_decorators=True, the only use) on
    syntax trees.  ast.parse, ast.unparse and autopep8.fix_code are parameters. *)
From Coq Require Import String.
From Verif Require Import Lib.Py Model.PyAst Model.SourceText.
Local Open Scope nat_scope.

(** pythagoras/__init__.py:52-62 *)
Definition primary_decorators : list string := ["autonomous"; "strictly_autonomous"; "pure"]%string.
Definition all_decorators : list string := ["ordinary"; "autonomous"; "strictly_autonomous"; "pure"]%string.

(** lines 80-101: the one decorator must be a call (of something with the attribute func) of a name or attribute in the list *)
Definition decorator_check (d : node) : res unit :=
  match d with
  | Node LCall ([Node f _] :: _) =>
      match f with
      | LName id _ => passert (bool_decide (id ∈ all_decorators))
      | LAttribute a => passert (bool_decide (a ∈ all_decorators))
      | _ => Err AssertionError
      end
  | _ => Err AttributeError                       (* decorator_list[0].func *)
  end.

(** lines 125-132: an Expr statement holding a str *)
Definition is_doc (n : node) : bool := match n with Node LExpr [[Node (LStr _) _]] => true | _ => false end.
(** lines 133-135 *)
Definition strip_doc (body : list node) : list node :=
  match body with
  | s :: rest => if is_doc s then match rest with [] => [Node LPass []] | _ => rest end else body
  | [] => []
  end.
(** lines 103-136: the effect of the loop over ast.walk on each node.  (Simplification: the loop looks at body[0] before
    the children are changed; the changes below do not turn a node into or out of a docstring.) *)
Fixpoint norm (n : node) : node :=
  match n with
  | Node l fs =>
      let fs' := map (map norm) fs in
      match l, fs' with
      | LAnnAssign, [t; _; v] => Node l [t; []; v]
      | LArg _, [_] => Node l [[]]
      | LFunctionDef _ _, [a; b; d; _] => Node l [a; strip_doc b; d; []]
      | LClassDef _, [x; k; b; d] => Node l [x; k; strip_doc b; d]
      | LModule, [b] => Node l [strip_doc b]
      | _, _ => Node l fs'
      end
  end.
(** ast.unparse fails on an AnnAssign whose annotation is None: traverse(None) has no _fields *)
Fixpoint has_ann_assign (n : node) : bool :=
  match n with Node l fs => (match l with LAnnAssign => true | _ => false end) || existsb (existsb has_ann_assign) fs end.
(** lines 73-136 and the failure of line 138 *)
Definition normalise_ast (m : node) : res node :=
  match m with
  | Node LModule [Node (LFunctionDef false f) [a; b; decos; r] :: others] =>
      let? _ := match decos with
                | [] => Ok tt
                | [d] => decorator_check d
                | _ => Err AssertionError
                end in
      let result := norm (Node LModule [Node (LFunctionDef false f) [a; b; []; r] :: others]) in
      if has_ann_assign result then Err AttributeError else Ok result
  | _ => Err AssertionError                        (* lines 75-77; IndexError for an empty module *)
  end.

Section Texts.
  Variable parse : text -> res node.               (* ast.parse *)
  Variable print : node -> text.                   (* autopep8.fix_code(ast.unparse(...)) *)
  (** lines 27-141 for a source string; a string must also have a line from which the name is read (71-72) *)
  Definition normalized_source (code : text) : res text :=
    let? clean := clean_source code in
    let? _ := get_function_name_from_source clean in
    let? m := parse clean in
    let? r := normalise_ast m in
    Ok (print r).
End Texts.
