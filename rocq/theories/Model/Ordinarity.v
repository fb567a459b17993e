(** Model of what may become a Pythagoras function and how it may be called: _040_ordinary_functions/assert_ordinarity.py,
    check_n_positional_args.py, ordinary_core_classes.py:72-84 (constructor) and 128-132 (__call__), and Python's rules
    for f( **kwargs) (ordinary_core_classes.py:117-119 calls the function that way). *)
From Coq Require Import String.
From Verif Require Import Lib.Py Model.PyAst Model.SourceText Model.Normalizer Model.PureAddr.
Local Open Scope nat_scope.

(** inspect.Parameter: name, kind, whether there is a default *)
Inductive pkind := PosOnly | PosOrKw | VarPos | KwOnly | VarKw.
Record param := Param { p_name : string; p_kind : pkind; p_default : bool }.
Global Instance pkind_eq_dec : EqDecision pkind.
Proof. solve_decision. Defined.

(** What can be asked about a function object (inspect.isfunction is true for it).  f_source is what inspect.getsource
    returns.  f_in_class: the function was taken from a class (C.method, C.static_method); nothing asks. *)
Record fn_object := FnObject { f_name : string; f_params : list param; f_closure : bool; f_coroutine : bool;
                               f_in_class : bool; f_source : text }.
(** Anything that may be passed: a function object, another callable (bound method, class, built-in, partial, instance
    with __call__), a string, something else.  (OrdinaryFn objects take another path, ordinary_core_classes.py:78-79.) *)
Inductive py_object := PyFunction (f : fn_object) | PyCallable | PyText (s : text) | PyOther.

(** check_n_positional_args.py:19-23 *)
Definition accepts_unlimited_positional_args (f : fn_object) : bool :=
  existsb (fun p => bool_decide (p_kind p = VarPos)) (f_params f).

(** assert_ordinarity.py:24-57 *)
Definition assert_ordinarity (o : py_object) : res unit :=
  let? _ := passert (match o with PyFunction _ | PyCallable => true | _ => false end) in  (* callable *)
  match o with
  | PyFunction f =>                                                  (* inspect.isfunction; never a MethodType *)
      let? _ := passert (negb (f_closure f)) in
      let? _ := passert (negb (bool_decide (f_name f = "<lambda>"%string))) in
      let? _ := passert (negb (accepts_unlimited_positional_args f)) in
      passert (negb (f_coroutine f))
  | _ => Err AssertionError
  end.

Section Decorate.
  Variable parse : text -> res node.               (* ast.parse *)
  Variable print : node -> text.                   (* autopep8.fix_code(ast.unparse(...)) *)
  (** ordinary_core_classes.py:72-84 with code_normalizer_implementation.py:42-49: the normalised source of the new
      OrdinaryFn.  For a function object the name in error messages is not read from the text (lines 44, 71-72). *)
  Definition decorate (o : py_object) : res text :=
    match o with
    | PyFunction f =>
        let? _ := assert_ordinarity o in
        let? clean := clean_source (f_source f) in
        let? m := parse clean in
        let? r := normalise_ast m in
        let? _ := get_function_name_from_source (print r) in         (* line 84 *)
        Ok (print r)
    | PyText s =>
        let? t := normalized_source parse print s in
        let? _ := get_function_name_from_source t in
        Ok t
    | PyCallable => let? _ := assert_ordinarity o in Err AssertionError
    | PyOther => Err AssertionError
    end.
End Decorate.

(** ** f( **kwargs) *)
Section Binding.
  Context {V : Type}.
  (** what a parameter gets: a given value, its default, the empty tuple (for *args), the remaining keywords (for **kw) *)
  Inductive slot := Given (v : V) | Default | EmptyTuple | Rest (l : list (string * V)).
  Definition by_keyword (p : param) : bool := match p_kind p with PosOrKw | KwOnly => true | _ => false end.
  Definition keyword_names (ps : list param) : list string := map p_name (List.filter by_keyword ps).
  Definition has_varkw (ps : list param) : bool := existsb (fun p => bool_decide (p_kind p = VarKw)) ps.
  Definition unclaimed (ps : list param) (kw : list (string * V)) : list (string * V) :=
    List.filter (fun kv => negb (bool_decide (fst kv ∈ keyword_names ps))) kw.
  Definition or_default (p : param) (x : option slot) : res slot :=
    match x with Some s => Ok s | None => if p_default p then Ok Default else Err TypeError end.
  (** Python language reference 6.3.4 (calls), for a call without positional arguments *)
  Definition bind_one (rest kw : list (string * V)) (p : param) : res slot :=
    match p_kind p with
    | PosOnly => or_default p None
    | PosOrKw | KwOnly => or_default p (Given <$> dict_get (p_name p) kw)
    | VarPos => Ok EmptyTuple
    | VarKw => Ok (Rest rest)
    end.
  Fixpoint bind_all (rest kw : list (string * V)) (ps : list param) : res (list (string * slot)) :=
    match ps with
    | [] => Ok []
    | p :: ps' => let? s := bind_one rest kw p in let? r := bind_all rest kw ps' in Ok ((p_name p, s) :: r)
    end.
  Definition bind (ps : list param) (kw : list (string * V)) : res (list (string * slot)) :=
    let rest := unclaimed ps kw in
    if bool_decide (rest = []) || has_varkw ps then bind_all rest kw ps else Err TypeError.

  (** ordinary_core_classes.py:128-132, 175-181: __call__ and execute of an ordinary, safe or autonomous function; the
      first component lists the runs of the body with the arguments it saw *)
  Definition ordinary_call (ps : list param) (body : list (string * slot) -> res V) (args : list V) (kw : list (string * V))
    : list (list (string * slot)) * res V :=
    match args with
    | _ :: _ => ([], Err AssertionError)
    | [] => match bind ps kw with
            | Ok b => ([b], body b)
            | Err e => ([], Err e)
            end
    end.
  (** pure_core_classes.py:412-413, 428-431: a pure function that is executed sorts its keyword arguments first (packing
      and unpacking the values is C24 and left out here) *)
  Definition pure_call (ps : list param) (body : list (string * slot) -> res V) (args : list V) (kw : list (string * V))
    : list (list (string * slot)) * res V :=
    match args with
    | _ :: _ => ([], Err AssertionError)
    | [] => ordinary_call ps body [] (sort_keys kw)
    end.
End Binding.
Arguments slot : clear implicits.
