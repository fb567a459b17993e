(** What users expect of result addresses, in terms of what is stored where. *)
From Verif.Lib Require Import Py.
From Verif.Model Require Import ResultCache.

Section Spec.
  Context {A V : Type} `{EqDecision A}.
  (** portal p (an existing one) holds result v of the call with address a *)
  Definition holds (w : world A V) (p : nat) (a : A) (v : V) : Prop :=
    p < length (places (fst w)) /\ dict_get a (ress (fst w) (nth p (places (fst w)) 0)) = Some v.
  (** stores as the library fills them: results come with their signatures *)
  Definition proper_stores (sg : nat -> list A) (st : nat -> dict A V) : Prop :=
    forall l a v, dict_get a (st l) = Some v -> a ∈ sg l.
  Definition reachable (w : world A V) : Prop :=
    exists sg st h, proper_stores sg st /\ w = run (init_world sg st) h.
  (** address object i has text a and belongs to portal p *)
  Definition bound_to (w : world A V) (i : nat) (a : A) (p : nat) : Prop :=
    exists r v c, snd w !! i = Some (RAddr a (Some p) r v c).
  Definition is_current (w : world A V) (p : nat) : Prop := current (fst w) = Some p.

  (** Deterministic functions: every body that runs, here or elsewhere, gives the value the call has ([den]). *)
  Section Det.
    Variable den : A -> V.
    Definition store_agrees (st : nat -> dict A V) : Prop := forall l a v, dict_get a (st l) = Some v -> v = den a.
    Definition calls_agree (mid : list (nat * A * V)) : Prop := forall l a v, (l, a, v) ∈ mid -> v = den a.
    (** [w] tells which call object i belongs to *)
    Definition op_agrees (w : world A V) (x : op A V) : Prop :=
      match x with
      | OExecute i outcome mid => calls_agree mid /\
          forall o v, snd w !! i = Some o -> outcome = Ok v -> v = den (ra_text o)
      | OStore l a v => v = den a
      | _ => True
      end.
    Fixpoint history_agrees (w : world A V) (h : list (op A V)) : Prop :=
      match h with [] => True | x :: h' => op_agrees w x /\ history_agrees (fst (step w x)) h' end.
  End Det.

  (** the same session with, in some of the address objects, the caches dropped *)
  Definition same_but_caches (w w' : world A V) : Prop :=
    fst w' = fst w /\ Forall2 (fun o o' => o' = o \/ o' = invalidated o) (snd w) (snd w').
End Spec.
