(** The reference graph between the functions of a list, in plain words. *)
From Verif.Lib Require Import Py.
From Verif.Model Require Import CallGraph.
From stdpp Require Import gmap.

(** the last definition of a name in the list *)
Fixpoint last_def (n : string) (fs : list fn_names) : option fn_names :=
  match fs with
  | [] => None
  | f :: fs' => match last_def n fs' with
                | Some g => Some g
                | None => if decide (n_function f = n) then Some f else None
                end
  end.

(** [f] mentions the outside name [n] *)
Definition mentions (f : fn_names) (n : string) : Prop :=
  n ∈ n_global_unbound_deep f \/ n ∈ n_nonlocal_unbound_deep f \/ n ∈ n_unclassified_deep f.

(** [a] (its last definition) references the function [b] of the list *)
Definition references (fs : list fn_names) (a b : string) : Prop :=
  exists f, last_def a fs = Some f /\ mentions f b /\ b ∈ map n_function fs.
