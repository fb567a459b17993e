(** Model of _800_persidict_extensions/first_entry_dict.py (FirstEntryDict). *)
From Verif.Lib Require Import Py.
From Coq Require Import QArith.
Local Open Scope nat_scope.

Section FirstEntry.
  Context {K V : Type} `{EqDecision K}.
  (** [same a b] iff [len(DeepDiff(a, b)) == 0] (line 59; external library) *)
  Variable same : V -> V -> bool.

  (** The wrapped PersiDict (immutable items) and the fields of lines 28-31 *)
  Record fed := FED {
    wrapped : dict K V;
    p_checks : option Q;     (* _p_consistency_checks *)
    total_checks : nat;             (* _total_checks_count *)
    successful_checks : nat         (* _successful_checks_count *)
  }.

  (** A write to the backend may meet a transient error before or after taking effect.  (persidict raises
      KeyError when an immutable item is written twice; lines 42-51 never do that sequentially.) *)
  Inductive fault := NoFault | FailBefore | FailAfter.

  (** [self._wrapped_dict[key] = value] *)
  Definition wrapped_set (k : K) (v : V) (f : fault) (d : dict K V) : dict K V * res unit :=
    if dict_mem k d then (d, Err KeyError)
    else match f with
         | NoFault => (dict_set k v d, Ok tt)
         | FailBefore => (d, Err (UserExn 0))
         | FailAfter => (dict_set k v d, Err (UserExn 0))
         end.

  (** lines 42-45 (and again 48-51): returns the new dictionary and check_needed *)
  Definition try_store (k : K) (v : V) (f : fault) (d : dict K V) : dict K V * res bool :=
    if dict_mem k d then (d, Ok true)
    else let '(d', r) := wrapped_set k v f d in
         (d', match r with Ok _ => Ok false | Err e => Err e end).

  (** One assignment with everything that is not under its control: the random draw of line 58 (a number
      in [0,1)) and the transient faults of the two write attempts. *)
  Record assignment := Assign { a_key : K; a_value : V; a_draw : Q; a_fault1 : fault; a_fault2 : fault }.

  (** lines 33-70  __setitem__ (the sleep of line 47 is not modelled) *)
  Definition set_item (s : fed) (a : assignment) : fed * res unit :=
    let k := a_key a in let v := a_value a in
    let '(d1, r1) := try_store k v (a_fault1 a) (wrapped s) in
    let '(d2, r2) := match r1 with
                     | Ok b => (d1, Ok b)
                     | Err _ => try_store k v (a_fault2 a) d1
                     end in
    let s2 := FED d2 (p_checks s) (total_checks s) (successful_checks s) in
    match r2 with
    | Err e => (s2, Err e)
    | Ok check_needed =>
        match dict_get k d2 with
        | None => (s2, Err AssertionError)                        (* line 53 *)
        | Some old =>
            match p_checks s with
            | Some p =>
                if check_needed && negb (Qle_bool p 0) && negb (Qle_bool p (a_draw a)) then
                  if same old v
                  then (FED d2 (p_checks s) (S (total_checks s)) (S (successful_checks s)), Ok tt)
                  else (FED d2 (p_checks s) (S (total_checks s)) (successful_checks s), Err AssertionError)
                else (s2, Ok tt)
            | None => (s2, Ok tt)
            end
        end
    end.

  (** A whole sequence of assignments, collecting the outcomes; a raised exception ends only its own
      assignment (the caller catches it). *)
  Fixpoint set_items (s : fed) (l : list assignment) : fed * list (res unit) :=
    match l with
    | [] => (s, [])
    | a :: l' => let '(s1, r) := set_item s a in let '(s2, rs) := set_items s1 l' in (s2, r :: rs)
    end.

  (** lines 72-79  __contains__, __getitem__, __len__ *)
  Definition contains (s : fed) (k : K) : bool := dict_mem k (wrapped s).
  Definition get_item (s : fed) (k : K) : res V :=
    match dict_get k (wrapped s) with Some v => Ok v | None => Err KeyError end.
  Definition len (s : fed) : nat := length (wrapped s).

  (** lines 18-31  __init__ over an empty wrapped dictionary *)
  Definition new_fed (p : option Q) : fed := FED [] p 0 0.
End FirstEntry.
Arguments fed : clear implicits.
Arguments assignment : clear implicits.
