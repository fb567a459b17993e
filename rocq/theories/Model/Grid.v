(** Model of the grid variants of calls: _070_pure_functions/pure_core_classes.py:475-494 (swarm_grid, run_grid) over
    sklearn.model_selection.ParameterGrid (imported at line 16), which is not part of /repo: its documented behaviour for
    one dictionary is written down here as it is used ([sorted(p.items())], then [itertools.product]).
    Simplified: one dictionary (the annotated type; ParameterGrid also takes a list of them); arrays with more than one
    dimension, which ParameterGrid refuses, are not distinguished from other refused values. *)
From Verif.Lib Require Import Py.
From Verif.Model Require Import PureAddr PureExec.

(** The values given for one parameter: a list, tuple or 1-dimensional array; or something else (a string, a number, a
    set, a generator), which ParameterGrid.__init__ refuses with TypeError. *)
Inductive gvalues (X : Type) := GSeq (l : list X) | GOther.
Arguments GSeq {X} l.
Arguments GOther {X}.

(** itertools.product: the last factor moves fastest *)
Fixpoint product {X} (ls : list (list X)) : list (list X) :=
  match ls with
  | [] => [[]]
  | l :: ls' => concat (map (fun x => map (cons x) (product ls')) l)
  end.

(** ParameterGrid.__init__: every value list is a sequence and not empty *)
Fixpoint check_grid {X} (g : list (string * gvalues X)) : res (list (string * list X)) :=
  match g with
  | [] => Ok []
  | (_, GOther) :: _ => Err TypeError
  | (_, GSeq []) :: _ => Err ValueError
  | (k, GSeq l) :: g' => let? g2 := check_grid g' in Ok ((k, l) :: g2)
  end.
(** list(ParameterGrid(g)): ParameterGrid.__iter__ ([if not items: yield dict()] is the product of no factors) *)
Definition parameter_grid {X} (g : list (string * gvalues X)) : res (list (list (string * X))) :=
  let? items := check_grid g in
  let items := sort_keys items in
  Ok (map (zip (map fst items)) (product (map snd items))).

Section Grid.
  Context {D : Type} (data_prefix : D -> string) (hash_of : value D -> string).
  Context (body : fn_state -> list (string * arg D) -> prog (D := D)) (guards_of : fn_state -> list (guard_fn (D := D))).
  Notation grid := (list (string * gvalues (arg D))).

  (** lines 475-482  swarm_grid *)
  Definition swarm_grid (ses : session) (shuffle1 : shuffle) (p : nat) (f : fn_state) (g : grid) : M (list (addr * list (string * arg D))) :=
    pbind (mres (parameter_grid g)) (fun param_list => swarm_list data_prefix hash_of ses shuffle1 p f param_list).
  (** lines 484-491  run_grid *)
  Definition run_grid (ses : session) (shuffle1 shuffle2 : shuffle) (fuel p : nat) (f : fn_state) (g : grid) : M (list (addr * list (string * arg D))) :=
    pbind (mres (parameter_grid g)) (fun param_list => run_list data_prefix hash_of body guards_of ses shuffle1 shuffle2 fuel p f param_list).
End Grid.
