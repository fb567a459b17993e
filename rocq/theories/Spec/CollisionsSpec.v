(** Vocabulary of C134. *)
From stdpp Require Import gmap.
From Verif Require Import Lib.Py Model.Collisions.
Local Open Scope nat_scope.

(** All comparisons of stored with new values are drawn (which is certain with p_consistency_checks = 1); recorded answers
    may be checked by executing again, or not. *)
Definition compares (d : draws) : Prop := d_arg d = true /\ d_fn d = true /\ d_sig d = true /\ d_res d = true.
Definition step_compares {A V F} (s : step A V F) : Prop :=
  match s with StoreValue c _ => c = true | Ask d _ _ => compares d | CallFn d _ _ => compares d | Work d _ => compares d end.
Definition checked {A V F} (ops : list (step A V F)) : Prop := Forall step_compares ops.
(** No comparison is made: the default, p_consistency_checks = 0. *)
Definition no_checks : draws := Draws false false false false false.
Definition all_checks : draws := Draws true true true true true.

(** The text of a call. *)
Definition text_of_call {A V F} (text_of : item A V F -> A) (f : F) (v : V) : A := text_of (Signature (text_of (Func f)) (text_of (Data v))).
(** Something else is stored under the text of this item. *)
Definition taken {A V F} (text_of : item A V F -> A) (w : world A V F) (i : item A V F) : Prop := exists j, values w (text_of i) = Some j /\ j <> i.
(** Two different items - stored ones or those of the list - have the same text. *)
Definition clash {A V F} (text_of : item A V F -> A) (w : world A V F) (l : list (item A V F)) : Prop :=
  exists i j, i ∈ l /\ j <> i /\ text_of j = text_of i /\ (j ∈ l \/ values w (text_of i) = Some j).
