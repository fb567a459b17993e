(** Keyword arguments as callers see them. *)
From Verif.Lib Require Import Py.
From Verif.Model Require Import PureAddr.

Section Spec.
  Context {D : Type}.
  (** names are distinct, as Python guarantees; nobody passes a SortedKwArgs object as an argument *)
  Definition acceptable (l : list (string * arg D)) : Prop := NoDup (map fst l) /\ forall k m, (k, AVal (VArgs m)) ∉ l.
  (** all arguments are ordinary values *)
  Definition plain (l : list (string * arg D)) : Prop := forall k x, (k, x) ∈ l -> exists v, x = AVal v.
  (** different values have different addresses *)
  Definition collision_free (data_prefix : D -> string) (hash_of : value D -> string) : Prop :=
    forall v v', text_of data_prefix hash_of v = text_of data_prefix hash_of v' -> v = v'.
  (** names in strictly increasing order *)
  Definition in_name_order {X} (l : list (string * X)) : Prop :=
    forall i j p q, l !! i = Some p -> l !! j = Some q -> i < j -> str_le (fst p) (fst q) = true /\ fst p <> fst q.
  (** same arguments, some of them given as the addresses of the values *)
  Inductive same_args (data_prefix : D -> string) (hash_of : value D -> string) : list (string * arg D) -> list (string * arg D) -> Prop :=
  | SameNil : same_args data_prefix hash_of [] []
  | SameVal k x l l' : same_args data_prefix hash_of l l' -> same_args data_prefix hash_of ((k, x) :: l) ((k, x) :: l')
  | SameAddr k v l l' : same_args data_prefix hash_of l l' ->
      same_args data_prefix hash_of ((k, AVal v) :: l) ((k, AAddr (text_of data_prefix hash_of v)) :: l').
End Spec.
