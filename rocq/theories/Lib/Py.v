(** Shared vocabulary: Python outcomes (value or exception) and insertion-ordered dictionaries.
    Nothing here models a particular file of /repo. *)
From stdpp Require Export base tactics list strings.
From Coq Require Export ZArith Lia.

(** Python exceptions that the modelled code can raise.  [UserExn n] is an arbitrary exception raised by
    user code (function bodies, guards).  [OutOfFuel] is not a Python exception: it marks an exhausted
    fuel argument of the model and every theorem either excludes or disproves it. *)
Inductive exn : Type :=
| AssertionError
| KeyError
| ValueError
| TypeError
| IndexError
| AttributeError
| SyntaxError
| TimeoutError
| NotAllowedError
| RecursionError
| UserExn (n : nat)
| OutOfFuel.

Global Instance exn_eq_dec : EqDecision exn.
Proof. solve_decision. Defined.

(** Outcome of a Python computation. *)
Inductive res (A : Type) : Type :=
| Ok (a : A)
| Err (e : exn).
Arguments Ok {A} a.
Arguments Err {A} e.

Global Instance res_eq_dec {A} `{EqDecision A} : EqDecision (res A).
Proof. solve_decision. Defined.

Definition rbind {A B} (r : res A) (k : A -> res B) : res B :=
  match r with Ok a => k a | Err e => Err e end.

Notation "'let?' x := r 'in' k" := (rbind r (fun x => k))
  (at level 200, x pattern, r at level 100, k at level 200, right associativity).

Definition is_ok {A} (r : res A) : bool := match r with Ok _ => true | Err _ => false end.

(** [assert c] *)
Definition passert (c : bool) : res unit := if c then Ok tt else Err AssertionError.

(** ** Insertion-ordered dictionaries (Python [dict]) *)
Section Dict.
  Context {K V : Type} `{EqDecision K}.

  Definition dict := list (K * V).

  (** [d.get(k)] / [k in d] *)
  Fixpoint dict_get (k : K) (d : dict) : option V :=
    match d with
    | [] => None
    | (k', v) :: d' => if decide (k = k') then Some v else dict_get k d'
    end.

  (** [d[k] = v]: an existing key keeps its position, a new key goes last. *)
  Fixpoint dict_set (k : K) (v : V) (d : dict) : dict :=
    match d with
    | [] => [(k, v)]
    | (k', v') :: d' => if decide (k = k') then (k, v) :: d' else (k', v') :: dict_set k v d'
    end.

  (** [del d[k]] (no effect when absent; callers check) *)
  Fixpoint dict_del (k : K) (d : dict) : dict :=
    match d with
    | [] => []
    | (k', v') :: d' => if decide (k = k') then d' else (k', v') :: dict_del k d'
    end.

  Definition dict_mem (k : K) (d : dict) : bool :=
    match dict_get k d with Some _ => true | None => false end.

  Definition dict_keys (d : dict) : list K := map fst d.
  Definition dict_values (d : dict) : list V := map snd d.

  (** [d.update(d2)] *)
  Definition dict_update (d d2 : dict) : dict :=
    fold_left (fun acc '(k, v) => dict_set k v acc) d2 d.
End Dict.
Arguments dict : clear implicits.

Global Open Scope nat_scope.
Global Open Scope list_scope.
