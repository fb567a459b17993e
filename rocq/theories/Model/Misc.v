(** Models of _070_pure_functions/astkeywords_dict_convertors.py and
    _800_persidict_extensions/overlapping_multi_dict.py:23-38. *)
From Verif.Lib Require Import Py.

(** ** Keywords <-> dictionaries *)
Section Keywords.
  Context {C : Type} `{EqDecision C}.   (* constants: str, bytes, int, float, bool, None *)

  (** Python values made of constants, tuples, lists and dictionaries *)
  Inductive pyval := VConst (c : C) | VTuple (l : list pyval) | VList (l : list pyval).
  (** the expressions ast.literal_eval looks at; [EOther]: any other expression (names, calls, operators ...).
      Simplified: no signs, complex numbers, sets and dictionary displays. *)
  Inductive expr := EConstant (c : C) | ETuple (l : list expr) | EList (l : list expr) | EOther.

  (** ast.literal_eval (standard library) *)
  Fixpoint literal_eval (e : expr) : res pyval :=
    let fix all l := match l with
                     | [] => Ok []
                     | e :: l => let? v := literal_eval e in let? vs := all l in Ok (v :: vs)
                     end in
    match e with
    | EConstant c => Ok (VConst c)
    | ETuple l => let? vs := all l in Ok (VTuple vs)
    | EList l => let? vs := all l in Ok (VList vs)
    | EOther => Err ValueError
    end.

  (** astkeywords_dict_convertors.py:3-19; a keyword is a pair (arg, value) *)
  Fixpoint convert_astkeywords (kws : list (string * expr)) (result : dict string pyval) : res (dict string pyval) :=
    match kws with
    | [] => Ok result
    | (key, e) :: kws' => let? v := literal_eval e in convert_astkeywords kws' (dict_set key v result)
    end.
  Definition convert_astkeywords_to_dict (kws : list (string * expr)) : res (dict string pyval) := convert_astkeywords kws [].

  (** lines 21-35: the values are wrapped by ast.Str(value), which builds a Constant *)
  Definition convert_dict_to_astkeywords (d : dict string C) : list (string * expr) :=
    map (fun '(k, c) => (k, EConstant c)) d.
End Keywords.
Arguments pyval : clear implicits.
Arguments expr : clear implicits.

(** ** OverlappingMultiDict *)
Section Overlapping.
  Context {V : Type}.   (* parameter values *)
  (** lines 34-37: {**shared, **individual, "file_type": name} *)
  Definition subdict_params (name_as_value : string -> V) (shared individual : dict string V) (name : string) : dict string V :=
    dict_set "file_type"%string (name_as_value name) (dict_update (dict_update [] shared) individual).
  (** lines 23-38: the parameters with which each part is created, by attribute name *)
  Definition overlapping_multi_dict (name_as_value : string -> V) (shared : dict string V)
      (individual : dict string (dict string V)) : dict string (dict string V) :=
    map (fun '(name, params) => (name, subdict_params name_as_value shared params name)) individual.
End Overlapping.
