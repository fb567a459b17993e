(** What can be said of concurrent histories of arbitrary functions. *)
From Verif.Lib Require Import Py.
From Verif.Model Require Import PureAddr PureExec.
From Verif.Spec Require Import PureAddrSpec PureExecSpec.
From Coq Require Import QArith.
From stdpp Require Import gmap.
Local Open Scope nat_scope.

Section Spec.
  Context {D : Type} (data_prefix : D -> string) (hash_of : value D -> string).
  Notation state := (@state D).
  (** every stored result points to a stored value, or is an address that a run of this call returned (its record is in the
      run history) *)
  Definition results_explained (σ : state) : Prop :=
    forall l a b, ress (σ l) !! a = Some b -> (exists v, vals (σ l) !! b = Some v) \/ exists r, HResult a r b ∈ hist (σ l).
  (** a run of the call with address a, in some portal, is on record as having returned the address b (or the value with the
      address b) *)
  Definition recorded (σ : state) (a b : addr) : Prop := exists l r, HResult a r b ∈ hist (σ l).
  Definition results_recorded (σ : state) : Prop := forall l a b, ress (σ l) !! a = Some b -> recorded σ a b.
  Definition consistent (σ : state) : Prop :=
    values_correct data_prefix hash_of σ /\ requests_callable data_prefix hash_of σ /\ results_explained σ /\ results_recorded σ.
  (** what a finished operation has achieved *)
  Definition achieved (j : job (D := D)) (σ : state) (out : list (arg D)) : Prop :=
    let l := loc (j_ses j) (j_portal j) in let adr f kw := call_addr data_prefix hash_of f kw in
    match j_op j with
    | OCall f kw => is_Some (ress (σ l) !! adr f kw) /\
        exists x, out = [x] /\ recorded σ (adr f kw) (addr_of_arg data_prefix hash_of x)
    | OSwarm f kw => out = [AResult (adr f kw)]
    | ORun f kw => out = [AResult (adr f kw)] /\ is_Some (ress (σ l) !! adr f kw)
    | OSwarmList _ f kws => out = map (fun kw => AResult (adr f kw)) kws
    | ORunList _ _ f kws => out = map (fun kw => AResult (adr f kw)) kws /\ forall kw, kw ∈ kws -> is_Some (ress (σ l) !! adr f kw)
    | OWorker _ => out = []
    end.
End Spec.
