(** Model of the part of AutonomousCodePortal.describe that speaks about functions.  Definitions only.
    A data frame is the list of its rows (property, value); the "type" column and pandas are not modelled. *)
From Coq Require Import String.
From stdpp Require Import gmap.
From Verif Require Import Lib.Py Model.Registry.
Local Open Scope nat_scope.

(** known_functions of portal [p] (autonomous_core_classes.py:50-51): Registry.v keeps those of all portals in one dictionary *)
Fixpoint known_functions {V} (p : nat) (d : dict (nat * string) V) : dict string V :=
  match d with
  | [] => []
  | ((q, i), v) :: d' => if decide (q = p) then (i, v) :: known_functions p d' else known_functions p d'
  end.

Inductive cell := Num (n : nat) | Txt (t : string).
Definition row : Type := string * cell.
(** ", ".join(names) *)
Fixpoint join (l : list string) : string :=
  match l with
  | [] => ""
  | [x] => x
  | x :: l' => x +:+ ", " +:+ join l'
  end%string.

(** autonomous_core_classes.py:73-79: the rows of one island *)
Definition island_rows (island_name : string) (island : dict string nat) : list row :=
  let n_functions := List.length island in
  ("Functions in <" +:+ island_name +:+ ">", Num n_functions)
  :: (if decide (0 < n_functions) then [("Functions in <" +:+ island_name +:+ ">", Txt (join (dict_keys island)))] else []).
(** autonomous_core_classes.py:59-83 describe, without the rows of the base classes *)
Definition describe_functions (default_island : nat -> string) (p : nat) (s : st) : list row :=
  let known := known_functions p (known s) in
  [("Islands"%string, Num (List.length known));
   ("Default island"%string, Txt (default_island p));
   ("All islands"%string, Txt (join (dict_keys known)))]
  ++ List.concat (map (fun '(island_name, island) => island_rows island_name island) known).
