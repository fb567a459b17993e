(** What a grid of parameters means, without products: a combination picks one position in the value list of every
    parameter; combinations are ordered like the entries of a dictionary, the alphabetically first parameter being the
    most significant. *)
From Verif.Lib Require Import Py.
From Verif.Model Require Import PureAddr.
From stdpp Require Import sorting.

(** the grid's parameters in alphabetical order *)
Definition alphabetical {X} (items sorted : list (string * X)) : Prop :=
  sorted ≡ₚ items /\ StronglySorted (fun x y => str_le (fst x) (fst y) = true) sorted.

(** one position for every parameter *)
Definition positions {X} (items : list (string * list X)) (is : list nat) : Prop :=
  Forall2 (fun i '(_, l) => i < length l) is items.
(** the arguments picked by these positions *)
Definition picks {X} (items : list (string * list X)) (is : list nat) (kw : list (string * X)) : Prop :=
  Forall2 (fun '(i, (k, l)) '(k', x) => k' = k /\ l !! i = Some x) (zip is items) kw.

Fixpoint before (is js : list nat) : Prop :=
  match is, js with
  | i :: is', j :: js' => i < j \/ (i = j /\ before is' js')
  | _, _ => False
  end.

(** [kws] lists all combinations once, in order *)
Definition all_combinations {X} (items : list (string * list X)) (kws : list (list (string * X))) : Prop :=
  exists iss, StronglySorted before iss /\ (forall is, is ∈ iss <-> positions items is) /\ Forall2 (picks items) iss kws.

(** every parameter has a non-empty sequence of values *)
Definition how_many {X} (items : list (string * list X)) : nat := foldr Nat.mul 1 (map (fun x => length (snd x)) items).

(** the same for one combination: every parameter gets one of its values *)
Definition combination {X} (items : list (string * list X)) (kw : list (string * X)) : Prop :=
  map fst kw ≡ₚ map fst items /\ forall k x, (k, x) ∈ kw -> exists l, (k, l) ∈ items /\ x ∈ l.
