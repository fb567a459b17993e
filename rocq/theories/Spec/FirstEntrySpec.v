(** Independent description of "the first value wins". *)
From Verif.Lib Require Import Py.
From Verif.Model Require Import FirstEntry.
From Coq Require Import QArith.

Section Spec.
  Context {K V : Type} `{EqDecision K}.

  (** value of the first assignment to [k] in the history *)
  Fixpoint first_assigned (k : K) (l : list (assignment K V)) : option V :=
    match l with
    | [] => None
    | a :: l' => if decide (a_key a = k) then Some (a_value a) else first_assigned k l'
    end.

  (** at most one transient backend error per assignment *)
  Definition one_fault (a : assignment K V) : Prop := a_fault1 a = NoFault \/ a_fault2 a = NoFault.
  Definition no_fault (a : assignment K V) : Prop := a_fault1 a = NoFault /\ a_fault2 a = NoFault.

  (** a check is drawn *)
  Definition check_drawn (p : option Q) (u : Q) : bool :=
    match p with Some p => negb (Qle_bool p 0) && negb (Qle_bool p u) | None => false end.
End Spec.
