(** Vocabulary of C132. *)
From Verif.Lib Require Import Py.
From Verif.Model Require Import Sharing.
Local Open Scope nat_scope.

Section Spec.
  Context {A V : Type} `{EqDecision A}.
  Variable text_of : V -> A.
  Variable body : nat -> list nat -> list V -> (nat -> V) * V.
  Definition collision_free : Prop := forall v w, text_of v = text_of w -> v = w.
  (** what a function answers to separate objects with contents vs *)
  Definition answer (f : nat) (vs : list V) : V := snd (body f (seq 0 (length vs)) vs).
  (** objects that occur first at the positions p can have the contents vs *)
  Definition fits (p : list nat) (vs : list V) : Prop :=
    length p = length vs /\ forall i j v w, p !! i = p !! j -> vs !! i = Some v -> vs !! j = Some w -> v = w.
  (** a function whose answer does not depend on which arguments are the same object *)
  Definition indifferent (f : nat) : Prop := forall p vs, fits p vs -> snd (body f p vs) = answer f vs.
  Definition has_contents (s : state (A := A) (V := V)) (args : list (arg (V := V))) (vs : list V) : Prop :=
    length args = length vs /\ forall i x v, args !! i = Some x -> vs !! i = Some v ->
      match x with Obj o => heap s !! o = Some v | Addr w => w = v end.
  (** no object is given for two parameters *)
  Definition separate (args : list (arg (V := V))) : Prop := forall i j o, args !! i = Some (Obj o) -> args !! j = Some (Obj o) -> i = j.
  (** each call of the program gets separate objects, or calls an indifferent function *)
  Definition tidy (e : op (V := V)) : Prop := match e with Call f args => separate args \/ indifferent f | _ => True end.
End Spec.
