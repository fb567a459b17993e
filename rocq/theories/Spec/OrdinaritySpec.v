(** What the documentation calls an ordinary function, and what a keyword call should do. *)
From Coq Require Import String.
From Verif Require Import Lib.Py Model.PyAst Model.Ordinarity.

(** "not a method, a lambda, a closure, an async function", no *args *)
Definition plain_function (f : fn_object) : Prop :=
  f_closure f = false /\ f_name f <> "<lambda>"%string /\ f_coroutine f = false /\
  forall p, p ∈ f_params f -> p_kind p <> VarPos.
(** the source is a module that begins with a plain 'def' *)
Definition begins_with_def (m : node) : Prop :=
  exists name fields others, m = Node LModule [Node (LFunctionDef false name) fields :: others].
(** ... and contains nothing else *)
Definition only_def (m : node) : Prop := exists d, m = Node LModule [[d]].

(** Python does not allow two parameters of one name *)
Definition good_params (ps : list param) : Prop := NoDup (map p_name ps).
Definition no_positional_only (ps : list param) : Prop := forall p, p ∈ ps -> p_kind p <> PosOnly.
Definition no_varkw (ps : list param) : Prop := forall p, p ∈ ps -> p_kind p <> VarKw.
(** p can be passed as p=... *)
Definition keyword_param (p : param) : Prop := p_kind p = PosOrKw \/ p_kind p = KwOnly.
(** p must be passed *)
Definition required (p : param) : Prop := p_default p = false /\ p_kind p <> VarPos /\ p_kind p <> VarKw.
(** the names in kwargs are distinct (a dict) *)
Definition kwargs_ok {V} (kw : list (string * V)) : Prop := NoDup (map fst kw).
