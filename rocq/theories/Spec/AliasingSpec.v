(** Vocabulary of C129 and C130: objects, snapshots and careful programs. *)
From Verif.Lib Require Import Py.
From Verif.Model Require Import Aliasing.
Local Open Scope nat_scope.

Section Spec.
  Context {A V : Type} `{EqDecision A}.
  Variable text_of : V -> A.
  Variable body : nat -> V -> V * option V.
  Variable nportals : nat.
  Notation state := (state (A := A) (V := V)).
  Notation op := (op (V := V)).

  Definition collision_free : Prop := forall v w, text_of v = text_of w -> v = w.
  (** what a function answers to an argument with contents v *)
  Definition answer (f : nat) (v : V) : V := match snd (body f v) with Some w => w | None => fst (body f v) end.
  Definition does_not_change_its_argument (f : nat) : Prop := forall v, fst (body f v) = v.
  (** the contents that an argument stands for *)
  Definition stands_for (s : state) (x : arg) (v : V) : Prop :=
    match x with Obj o => heap s !! o = Some v | Addr i => exists a, vaddrs s !! i = Some a /\ text_of v = va_text a end.
  (** there is a result of f(v) in no portal, or in one, that a call in portal p looks into *)
  Definition no_result (s : state) (f : nat) (v : V) (p : nat) : Prop := forall q, q = p \/ q < nportals -> results s q (f, text_of v) = None.
  Definition some_result (s : state) (f : nat) (v : V) (p : nat) : Prop := exists q t, (q = p \/ q < nportals) /\ results s q (f, text_of v) = Some t.
  (** the object that an address keeps, if any, still has the contents that the address stands for *)
  Definition pristine (s : state) (i : nat) : Prop :=
    forall a o, vaddrs s !! i = Some a -> va_value a = Some o -> exists v, heap s !! o = Some v /\ text_of v = va_text a.
  (** A careful program does not take an address to another portal after the object that it keeps was changed. *)
  Definition careful_step (s : state) (e : op) : Prop :=
    match e with
    | Readdress i p | Call _ (Addr i) p | GetAddress _ (Addr i) p | Run _ (Addr i) p =>
        forall a, vaddrs s !! i = Some a -> va_portal a <> p -> pristine s i
    | _ => True
    end.
  Fixpoint careful (s : state) (h : list op) : Prop :=
    match h with [] => True | e :: h' => careful_step s e /\ careful (fst (step text_of body nportals s e)) h' end.
  (** what happens when a careful program runs *)
  Definition reachable (s : state) : Prop := exists h, careful start h /\ s = steps text_of body nportals start h.
  (** no object that exists changes; there may be new ones *)
  Definition objects_unchanged (s s' : state) : Prop := exists l, heap s' = heap s ++ l.
End Spec.
