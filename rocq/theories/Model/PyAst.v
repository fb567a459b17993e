(** Python abstract syntax trees (module ast of the standard library), as read by the code normalizer and the names
    analyzer.  A node is a label (its class with the fields that are not nodes) and its other fields, in the order of
    ast's _fields, each as a list of nodes (an optional field is a list of length 0 or 1).

    Classes without a label of their own are [LOther]: none of the modelled code looks at them.  [LCapture] stands for
    MatchAs, MatchStar and MatchMapping (a name bound by a pattern). *)
From Coq Require Import String.
From Verif Require Import Lib.Py.
Local Open Scope nat_scope.

Inductive ctx := Load | Store | Del.
Inductive label :=
  | LModule                                         (* body *)
  | LFunctionDef (is_async : bool) (name : string)  (* args (1), body, decorator_list, returns *)
  | LClassDef (name : string)                       (* bases, keywords, body, decorator_list *)
  | LLambda                                         (* args (1), body (1) *)
  | LArguments                                      (* posonlyargs, args, vararg, kwonlyargs, kw_defaults, kwarg, defaults *)
  | LArg (name : string)                            (* annotation *)
  | LName (id : string) (c : ctx)
  | LStr (s : string)                               (* Constant holding a str *)
  | LConst (tag : string)                           (* other Constant *)
  | LAttribute (attr : string)                      (* value *)
  | LCall                                           (* func (1), args, keywords *)
  | LExpr                                           (* value (1) *)
  | LPass
  | LAnnAssign                                      (* target (1), annotation, value *)
  | LFor (is_async : bool)                          (* target (1), iter (1), body, orelse *)
  | LComp (tag : string)                            (* ListComp, SetComp, GeneratorExp, DictComp: element fields, generators *)
  | LGen                                            (* comprehension: target (1), iter (1), ifs *)
  | LNamedExpr                                      (* target (1), value (1) *)
  | LSeq (tag : string)                             (* Tuple, List: elts *)
  | LYield | LYieldFrom                             (* value *)
  | LTry (is_star : bool)                           (* body, handlers, orelse, finalbody *)
  | LHandler (name : option string)                 (* type, body *)
  | LImport (aliases : list (string * option string))                       (* names, asnames *)
  | LImportFrom (module : option string) (aliases : list (string * option string))
  | LGlobal (names : list string)
  | LNonlocal (names : list string)
  | LCapture (name : string)                        (* sub-patterns *)
  | LOther (tag : string).                          (* any other class: its fields *)
Inductive node := Node (l : label) (fields : list (list node)).

Global Instance ctx_eq_dec : EqDecision ctx.
Proof. solve_decision. Defined.
Global Instance label_eq_dec : EqDecision label.
Proof. solve_decision. Defined.

Definition label_of (n : node) : label := match n with Node l _ => l end.
Definition fields_of (n : node) : list (list node) := match n with Node _ fs => fs end.
Definition children (n : node) : list node := concat (fields_of n).

(** The fields a node of each class has. *)
Definition arity_ok (l : label) (fs : list (list node)) : bool :=
  match l, fs with
  | LModule, [_] => true
  | LFunctionDef _ _, [[_]; _ :: _; _; _] => true
  | LClassDef _, [_; _; _ :: _; _] => true
  | LLambda, [[_]; [_]] => true
  | LArguments, [_; _; _; _; _; _; _] => true
  | LArg _, [_] => true
  | (LName _ _ | LStr _ | LConst _ | LPass | LImport _ | LImportFrom _ _ | LGlobal _ | LNonlocal _), [] => true
  | LAttribute _, [[_]] => true
  | LCall, [[_]; _; _] => true
  | LExpr, [[_]] => true
  | LAnnAssign, [[_]; _; _] => true
  | LFor _, [[_]; [_]; _; _] => true
  | LComp _, [_; _] => true
  | LGen, [[_]; [_]; _] => true
  | LNamedExpr, [[_]; [_]] => true
  | LSeq _, [_] => true
  | (LYield | LYieldFrom), [_] => true
  | LTry _, [_; _; _; _] => true
  | LHandler _, [_; _] => true
  | LCapture _, [_] => true
  | LOther _, _ => true
  | _, _ => false
  end.
(** what kinds of nodes stand in arguments *)
Definition is_arg (n : node) : bool := match label_of n with LArg _ => true | _ => false end.
Definition is_gen (n : node) : bool := match label_of n with LGen => true | _ => false end.
Definition is_handler (n : node) : bool := match label_of n with LHandler _ => true | _ => false end.
Definition is_arguments (n : node) : bool := match label_of n with LArguments => true | _ => false end.
Definition sorts_ok (l : label) (fs : list (list node)) : bool :=
  match l, fs with
  | LFunctionDef _ _, [[a]; _; _; _] => is_arguments a
  | LLambda, [[a]; _] => is_arguments a
  | LArguments, [po; a; va; ko; _; ka; _] => forallb is_arg (po ++ a ++ va ++ ko ++ ka)
  | LComp _, [_; gens] => forallb is_gen gens
  | LTry _, [_; hs; _; _] => forallb is_handler hs
  | _, _ => true
  end.
(** well-formed trees: what ast.parse returns *)
Fixpoint wf (n : node) : bool :=
  match n with Node l fs => arity_ok l fs && sorts_ok l fs && forallb (forallb wf) fs end.
