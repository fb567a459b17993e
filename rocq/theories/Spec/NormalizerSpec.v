(** When two pieces of Python syntax are the same code, documentation and annotations apart. *)
From Coq Require Import String.
From Verif Require Import Lib.Py Model.PyAst Model.SourceText.
Local Open Scope nat_scope.

(** A docstring statement. *)
Definition docstring (n : node) : Prop := exists s fs, n = Node LExpr [[Node (LStr s) fs]].
(** [code_of body code]: [code] is what [body] does, its docstring left out ([pass] if nothing else is there). *)
Inductive code_of : list node -> list node -> Prop :=
  | code_nodoc body : (forall d rest, body = d :: rest -> ~ docstring d) -> code_of body body
  | code_doc d s rest : docstring d -> code_of (d :: s :: rest) (s :: rest)
  | code_onlydoc d : docstring d -> code_of [d] [Node LPass []].
(** Labels of nodes that carry documentation or annotations. *)
Definition documented (l : label) : Prop :=
  match l with LModule | LFunctionDef _ _ | LClassDef _ | LArg _ | LAnnAssign => True | _ => False end.
Inductive same_code : node -> node -> Prop :=
  | same_module b1 b2 c1 c2 : code_of b1 c1 -> code_of b2 c2 -> Forall2 same_code c1 c2 ->
      same_code (Node LModule [b1]) (Node LModule [b2])
  | same_fun y n a1 a2 b1 b2 c1 c2 d1 d2 r1 r2 : Forall2 same_code a1 a2 -> code_of b1 c1 -> code_of b2 c2 -> Forall2 same_code c1 c2 ->
      Forall2 same_code d1 d2 -> same_code (Node (LFunctionDef y n) [a1; b1; d1; r1]) (Node (LFunctionDef y n) [a2; b2; d2; r2])
  | same_class n x1 x2 k1 k2 b1 b2 c1 c2 d1 d2 : Forall2 same_code x1 x2 -> Forall2 same_code k1 k2 -> code_of b1 c1 -> code_of b2 c2 ->
      Forall2 same_code c1 c2 -> Forall2 same_code d1 d2 -> same_code (Node (LClassDef n) [x1; k1; b1; d1]) (Node (LClassDef n) [x2; k2; b2; d2])
  | same_arg n x1 x2 : same_code (Node (LArg n) [x1]) (Node (LArg n) [x2])        (* argument annotations *)
  | same_ann t1 t2 x1 x2 v1 v2 : Forall2 same_code t1 t2 -> Forall2 same_code v1 v2 ->
      same_code (Node LAnnAssign [t1; x1; v1]) (Node LAnnAssign [t2; x2; v2])     (* variable annotations *)
  | same_other l fs1 fs2 : ~ documented l -> Forall2 (Forall2 same_code) fs1 fs2 -> same_code (Node l fs1) (Node l fs2).
(** A module whose first statement is a function, with that function's decorators taken off. *)
Definition undecorated (m m' : node) : Prop :=
  exists y f a b d r rest, m = Node LModule [Node (LFunctionDef y f) [a; b; d; r] :: rest] /\
    m' = Node LModule [Node (LFunctionDef y f) [a; b; []; r] :: rest].
(** no body begins with two strings *)
Definition double_doc (b : list node) : Prop := exists d1 d2 rest, b = d1 :: d2 :: rest /\ docstring d1 /\ docstring d2.
Inductive within : node -> node -> Prop :=
  | within_here n : within n n
  | within_sub n l fs f c : f ∈ fs -> c ∈ f -> within n c -> within n (Node l fs).
Definition body_of (n : node) : list node :=
  match n with Node (LFunctionDef _ _) [_; b; _; _] => b | Node (LClassDef _) [_; _; b; _] => b | Node LModule [b] => b | _ => [] end.
Definition single_docs (m : node) : Prop := forall n, within n m -> ~ double_doc (body_of n).
(** no annotated variable, "x: int = 1" *)
Definition annotates_variable (m : node) : Prop := exists fs, within (Node LAnnAssign fs) m.
(** Printing [a] and reading the result back gives [a]: what ast.unparse, autopep8, ast.parse and the text cleaning must do. *)
Definition reads_back (parse : text -> res node) (print : node -> text) (a : node) : Prop :=
  exists c name, clean_source (print a) = Ok c /\ get_function_name_from_source c = Ok name /\ parse c = Ok a.
