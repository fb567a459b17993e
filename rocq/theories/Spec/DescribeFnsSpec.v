(** What the description of a portal should say: a listing of islands with the names of their functions. *)
From Coq Require Import String.
From stdpp Require Import gmap.
From Verif Require Import Lib.Py Model.Registry Model.DescribeFns.
From Verif.Spec Require Import RegistrySpec.
Local Open Scope nat_scope.

Definition listing : Type := list (string * list string).
(** the rows that show a listing *)
Definition rows_of (default : string) (L : listing) : list row :=
  [("Islands"%string, Num (List.length L)); ("Default island"%string, Txt default); ("All islands"%string, Txt (String.concat ", " (map fst L)))]
  ++ List.concat (map (fun e => ("Functions in <" +:+ fst e +:+ ">", Num (List.length (snd e)))
       :: match snd e with [] => [] | _ => [("Functions in <" +:+ fst e +:+ ">", Txt (String.concat ", " (snd e)))] end)%string L).
(** the listing is right: no island and no function twice, the default island first, and the functions are the registered ones *)
Definition truthful (s : st) (p : nat) (default : string) (L : listing) : Prop :=
  NoDup (map fst L) /\ (exists names L', L = (default, names) :: L')
  /\ (forall i names, (i, names) ∈ L -> NoDup names /\ forall n, n ∈ names <-> definition_of s (p, i) n <> None)
  /\ (forall i n, definition_of s (p, i) n <> None -> i ∈ map fst L).
(** nothing is lost or reordered: islands and functions are only added at the end *)
Inductive longer : listing -> listing -> Prop :=
| longer_end more : longer [] more
| longer_cons i names more L L' : longer L L' -> longer ((i, names) :: L) ((i, names ++ more) :: L').
(** function [n] added to island [i]: at the end of its names, or as the only one of a new last island *)
Fixpoint with_function (i n : string) (L : listing) : listing :=
  match L with
  | [] => [(i, [n])]
  | (i', names) :: L' => if decide (i = i') then (i', names ++ [n]) :: L' else (i', names) :: with_function i n L'
  end.
(** the listing a portal shows (C105_describe_rows: its description is [rows_of] of this) *)
Definition listing_of (s : st) (p : nat) : listing := map (fun e => (fst e, dict_keys (snd e))) (known_functions p (known s)).
