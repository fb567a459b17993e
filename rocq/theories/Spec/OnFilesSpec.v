(** What it means that a directory tree holds the stores of the abstract model. *)
From Coq Require Import String.
From stdpp Require Import gmap.
From Verif Require Import Lib.Py Model.PureAddr Model.PureExec Model.Layout Model.OnFiles Spec.LayoutSpec.
Local Open Scope nat_scope.

(** Different locations have separate directories (and every root dictionary is that of a portal). *)
Definition good_roots (root_of : nat -> settings) : Prop :=
  (forall l, digest_len (root_of l) = 0) /\ forall l l', l <> l' -> LayoutSpec.separate (base_dir (root_of l)) (base_dir (root_of l')).
(** The files hold exactly the stores: *)
Definition holds {D} (digest : nat -> string -> string) (root_of : nat -> settings) (run_text : nat -> string)
    (f : gmap path (content (D := D))) (σ : state (D := D)) : Prop :=
  forall l,
    (* a value file for each stored value, *)
    (forall b, f !! val_file digest root_of l b = CValue <$> (vals (σ l) !! b)) /\
    (* a file with the address of the value for each result, *)
    (forall a, f !! res_file digest root_of l a = CAddress <$> (ress (σ l) !! a)) /\
    (* a file for each request, *)
    (forall a, f !! req_file digest root_of l a = if decide (a ∈ reqs (σ l)) then Some CTrue else None) /\
    (* and a file for each record of the run history. *)
    (forall h, h ∈ hist (σ l) -> is_Some (f !! hist_file digest root_of run_text l h)) /\
    (forall h, f !! hist_file digest root_of run_text l h = Some (hist_content h) -> h ∈ hist (σ l)).
