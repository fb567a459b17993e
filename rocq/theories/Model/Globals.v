(** Global variables of running functions: which dictionary a name is looked up in, and what happens to it after the call.
    Models ordinary_core_classes.py:128-134 (OrdinaryFn._available_names), 165-175 (the exec in OrdinaryFn.execute) and
    autonomous_core_classes.py:288-293 (AutonomousFn._available_names). *)
From Coq Require Import String.
From stdpp Require Import gmap.
From Verif Require Import Lib.Py.
Local Open Scope nat_scope.
Local Open Scope string_scope.

(** What a global name can be bound to: a number, a function object, pythagoras itself, or some other object of the library or
    of Python.  Simplified: data are numbers (mutable data have their own model, Model/Aliasing.v). *)
Inductive val := VNum (z : Z) | VFn (f : string) | VPkg | VObj (x : string).
Inductive outcome := Done (z : Z) | Failed (e : string).

(** The memory of the process: all dictionaries that serve as global variables of some code - number 0 is that of the module
    ordinary_core_classes, number 1 that of the user's script, the others were made by calls - and the attributes that have
    been set on objects that live longer than a call (function objects, modules).
    Simplified: the attributes of the library's modules are kept apart from dictionary 0. *)
Record memory := Memory { dicts : list (gmap string val); attrs : gmap (string * string) Z }.
Definition dict_at (m : memory) (l : nat) : gmap string val := default ∅ (dicts m !! l).
Definition set_at (m : memory) (l : nat) (d : gmap string val) : memory := Memory (<[l := d]> (dicts m)) (attrs m).
Definition object_key (v : val) : string := match v with VNum _ => "int" | VFn f => "function " ++ f | VPkg => "pythagoras" | VObj x => "object " ++ x end.

(** What the body of a function does with names it does not bind itself, and with names it declares global.  Everything else
    it does (local variables, arithmetic, control flow) is in the continuations. *)
Inductive body :=
| Return (z : Z)
| Raise (e : string)
| Load (x : string) (k : val -> body)                     (* x *)
| Store (x : string) (v : val) (k : body)                 (* global x; x = v *)
| Delete (x : string) (k : body)                          (* global x; del x *)
| GetAttr (o : val) (a : string) (k : option Z -> body)   (* getattr(o, a, None) *)
| SetAttr (o : val) (a : string) (z : Z) (k : body)       (* o.a = z *)
| Call (f : val) (arg : Z) (k : outcome -> body).         (* try: k(f(x=arg)) except Exception as e: k(e) *)
(** A function of the island: its dependencies (itself included; none for ordinary and safe functions) and its body. *)
Record fn := Fn { deps : list string; code : Z -> body }.

Section run.
  Context (builtins : gmap string val) (fs : gmap string fn).

  (** Running a body whose global variables are dictionary number [l]: Python's LOAD_GLOBAL, STORE_GLOBAL, DELETE_GLOBAL.
      [None]: it does not end. *)
  Fixpoint run (call : memory -> string -> Z -> option (memory * outcome)) (l : nat) (m : memory) (b : body) : option (memory * outcome) :=
    match b with
    | Return z => Some (m, Done z)
    | Raise e => Some (m, Failed e)
    | Load x k =>
        match dict_at m l !! x with
        | Some v => run call l m (k v)
        | None => match builtins !! x with Some v => run call l m (k v) | None => Some (m, Failed "NameError") end
        end
    | Store x v k => run call l (set_at m l (<[x := v]> (dict_at m l))) k
    | Delete x k => match dict_at m l !! x with Some _ => run call l (set_at m l (delete x (dict_at m l))) k | None => Some (m, Failed "NameError") end
    | GetAttr o a k => run call l m (k (attrs m !! (object_key o, a)))
    | SetAttr o a z k => run call l (Memory (dicts m) (<[(object_key o, a) := z]> (attrs m))) k
    | Call f arg k => match f with
                      | VFn g => match call m g arg with Some (m', o) => run call l m' (k o) | None => None end
                      | _ => run call l m (k (Failed "TypeError"))
                      end
    end.

  (** _available_names: a copy of the module's globals, then the function under its own name, self and pth, then the helpers. *)
  Definition available_names (m : memory) (f : string) (helpers : list string) : gmap string val :=
    foldr (fun n d => <[n := VFn n]> d) (<["pth" := VPkg]> (<["self" := VFn f]> (<[f := VFn f]> (dict_at m 0)))) helpers.

  (** execute: exec(bytecode, names_dict, names_dict) with a new dictionary.  Simplified: the three generated names of
      execute (the keyword arguments, the renamed definition, the result) are left out of the dictionary; calling a function that
      is not there is a KeyError. *)
  Fixpoint exec (n : nat) (m : memory) (f : string) (arg : Z) : option (memory * outcome) :=
    match n with
    | 0 => None
    | S n => match fs !! f with
             | None => Some (m, Failed "KeyError")
             | Some F => run (exec n) (length (dicts m)) (Memory (dicts m ++ [available_names m f (deps F)]) (attrs m)) (code F arg)
             end
    end.

  (** The same functions without decorators: global variables of all of them are those of the script. *)
  Fixpoint python (n : nat) (m : memory) (f : string) (arg : Z) : option (memory * outcome) :=
    match n with
    | 0 => None
    | S n => match fs !! f with
             | None => Some (m, Failed "KeyError")
             | Some F => run (python n) 1 m (code F arg)
             end
    end.

  (** What a script does: assign its own global variables and call functions.  Returns the memory, if every call ends. *)
  Inductive step := Assign (x : string) (v : val) | CallFn (f : string) (arg : Z).
  Fixpoint script (n : nat) (m : memory) (ops : list step) : option memory :=
    match ops with
    | [] => Some m
    | Assign x v :: ops => script n (set_at m 1 (<[x := v]> (dict_at m 1))) ops
    | CallFn f arg :: ops => match exec n m f arg with Some (m', _) => script n m' ops | None => None end
    end.
End run.
