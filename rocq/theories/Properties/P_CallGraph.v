(** C35, C36: call graph exploration, for every list of functions and every set iteration order. *)
From Verif.Lib Require Import Py.
From Verif.Model Require Import CallGraph.
From Verif.Spec Require Import CallGraphSpec.
From Verif.Proofs Require Import CallGraphP.
From stdpp Require Import gmap relations.

(** C36: the shallow exploration succeeds; its keys are the names of the functions; each function's set consists of
    itself and of the functions of the list that its last definition mentions. *)
Theorem C36_direct_dependencies_exact : forall ord : nat -> gset string -> list string,
  (forall t X, ord t X ≡ₚ elements X) -> forall fs,
  exists d, explore_call_graph_shallow ord fs = Ok d
    /\ (forall n, n ∈ dict_keys d <-> n ∈ map n_function fs)
    /\ forall n f, last_def n fs = Some f ->
         exists S, dict_get n d = Some S /\ forall m, m ∈ S <-> m = n \/ references fs n m.
Proof. exact shallow_exact. Qed.
Print Assumptions C36_direct_dependencies_exact.

(** C35: the deep exploration terminates without error (in particular its inner loop needs no more rounds than
    there are functions) and gives exactly the reflexive-transitive closure of the reference relation. *)
Theorem C35_dependencies_are_closure : forall ord : nat -> gset string -> list string,
  (forall t X, ord t X ≡ₚ elements X) -> forall fs,
  exists d, explore_call_graph_deep ord fs = Ok d
    /\ (forall n, n ∈ dict_keys d <-> n ∈ map n_function fs)
    /\ forall n, n ∈ map n_function fs ->
         exists S, dict_get n d = Some S /\ forall m, m ∈ S <-> rtc (references fs) n m.
Proof. exact deep_exact. Qed.
Print Assumptions C35_dependencies_are_closure.

(** A cycle f -> g -> h -> f, a function k outside the cycle, a name "print" outside the list, and g defined twice. *)
Example C35_example :
  let fs := [FnNames "f" ∅ ∅ {["g"; "print"]}; FnNames "g" ∅ ∅ {["k"]}; FnNames "h" ∅ ∅ {["f"]};
             FnNames "k" ∅ ∅ ∅; FnNames "g" {["h"]} ∅ ∅] in
  match explore_call_graph_shallow (fun _ => elements) fs, explore_call_graph_deep (fun _ => elements) fs with
  | Ok d1, Ok d2 =>
      map (fun '(n, s) => (n, bool_decide (s = ({["f"; "g"]} : gset string)))) d1 = [("f", true); ("g", false); ("h", false); ("k", false)]
      /\ bool_decide (dict_get "g" d1 = Some ({["g"; "h"]} : gset string)) = true
      /\ bool_decide (dict_get "f" d2 = Some ({["f"; "g"; "h"]} : gset string)) = true
      /\ bool_decide (dict_get "h" d2 = Some ({["f"; "g"; "h"]} : gset string)) = true
      /\ bool_decide (dict_get "k" d2 = Some ({["k"]} : gset string)) = true
  | _, _ => False
  end.
Proof. vm_compute. auto. Qed.
