(** Vocabulary of C133. *)
From Coq Require Import String.
From stdpp Require Import gmap.
From Verif Require Import Lib.Py Model.Globals.
Local Open Scope nat_scope.

(** A body that sets no attributes. *)
Inductive sealed : body -> Prop :=
| sealed_return z : sealed (Return z)
| sealed_raise e : sealed (Raise e)
| sealed_load x k : (forall v, sealed (k v)) -> sealed (Load x k)
| sealed_store x v k : sealed k -> sealed (Store x v k)
| sealed_delete x k : sealed k -> sealed (Delete x k)
| sealed_get o a k : (forall z, sealed (k z)) -> sealed (GetAttr o a k)
| sealed_call f arg k : (forall o, sealed (k o)) -> sealed (Call f arg k).
Definition all_sealed (fs : gmap string fn) : Prop := forall f F arg, fs !! f = Some F -> sealed (code F arg).

(** A body that assigns no global variable, uses no attributes, and looks up only names with property [P]. *)
Inductive modest (P : string -> Prop) : body -> Prop :=
| modest_return z : modest P (Return z)
| modest_raise e : modest P (Raise e)
| modest_load x k : P x -> (forall v, modest P (k v)) -> modest P (Load x k)
| modest_call f arg k : (forall o, modest P (k o)) -> modest P (Call f arg k).

(** The answer of a call, if it ends. *)
Definition answer (r : option (memory * outcome)) : option outcome := option_map snd r.

(** The assignments in a script, in order. *)
Definition assigned (ops : list step) (d : gmap string val) : gmap string val :=
  fold_left (fun d op => match op with Assign x v => <[x := v]> d | CallFn _ _ => d end) ops d.
