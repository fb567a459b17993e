(** Who owns a node's runtime record after a history of portal creations, clears and process exits. *)
From Verif.Lib Require Import Py.
From Verif.Model Require Import Swarming.

Section Spec.
  Context {Loc Node Rid : Type} `{EqDecision Loc} `{EqDecision Node}.
  (** portals created by a history, in order: process, location, node, runtime id *)
  Fixpoint created (h : list (revent Loc Node Rid)) : list (nat * Loc * Node * Rid) :=
    match h with
    | [] => []
    | RNew pr l n given draw :: h' => (pr, l, n, match given with Some r => r | None => draw end) :: created h'
    | _ :: h' => created h'
    end.
  (** an event that, after [before], writes or deletes the record of (l, n) *)
  Definition deletes (before : list (revent Loc Node Rid)) (e : revent Loc Node Rid) (l : Loc) (n : Node) : Prop :=
    match e with
    | RNew _ _ _ _ _ => False
    | RClear i => exists pr r, created before !! i = Some (pr, l, n, r)
    | RProcessExit pr n' => n' = n /\ exists i m r, created before !! i = Some (pr, l, m, r) /\ RClear i ∉ before
    end.
  Definition claims (e : revent Loc Node Rid) (l : Loc) (n : Node) : Prop :=
    exists pr draw, e = RNew pr l n None draw.
End Spec.
