(** What users see of value stores: which portal holds which value. *)
From Verif.Lib Require Import Py.
From Verif.Model Require Import ValueAddr.

Section Spec.
  Context {A V : Type} `{EqDecision A} (text_of : V -> A).
  (** no two values have the same address *)
  Definition collision_free : Prop := forall v v', text_of v = text_of v' -> v = v'.
  (** portal p (an existing one) holds value v under address a *)
  Definition holds (w : world A V) (p : nat) (a : A) (v : V) : Prop :=
    p < length (places w) /\ dict_get a (stores w (nth p (places w) 0)) = Some v.
  (** worlds that arise from correct stores (possibly already filled) by any history *)
  Definition correct_store (d : dict A V) : Prop := forall a v, dict_get a d = Some v -> text_of v = a.
  Definition reachable (w : world A V) : Prop :=
    exists st h, (forall l, correct_store (st l)) /\ w = run text_of (init_world st) h.
  (** address object number i exists, points to address a and is bound to portal p *)
  Definition bound_to (w : world A V) (i : nat) (a : A) (p : nat) : Prop :=
    exists r c, objs w !! i = Some (VAddr a (Some p) r c).
  (** everything except the stores and the address objects is the same *)
  Definition same_session (w w' : world A V) : Prop := open w' = open w /\ places w' = places w.
  (** w' has the same stored values as w except that location l also has v under a *)
  Definition adds_only (l : nat) (a : A) (v : V) (w w' : world A V) : Prop :=
    dict_get a (stores w l) = None /\
    forall l' a', dict_get a' (stores w' l') = if decide (l' = l /\ a' = a) then Some v else dict_get a' (stores w l').
  (** histories in which ValueAddr(address) is only used on addresses whose portal holds the value (or that are bound
      to no portal) *)
  Definition good_op (w : world A V) (o : op A V) : Prop :=
    match o with
    | OAddr j _ => forall a p r c, objs w !! j = Some (VAddr a (Some p) r c) -> exists v, holds w p a v
    | _ => True
    end.
  Fixpoint good_history (w : world A V) (h : list (op A V)) : Prop :=
    match h with [] => True | o :: h' => good_op w o /\ good_history (step text_of w o) h' end.
End Spec.
