(** Vocabulary of C128: computers that take part in swarming. *)
From Coq Require Import String Ascii.
From stdpp Require Import base list.
From Verif.Lib Require Import Py.
From Verif.Model Require Import NodeId Swarming.
Local Open Scope nat_scope.

(** Different texts never get the same signature. *)
Definition collision_free (digest : string -> string) : Prop :=
  forall c d, get_node_signature digest c = get_node_signature digest d -> id_string c = id_string d.
(** Every text has a signature. *)
Definition has_signatures (digest : string -> string) : Prop := forall c, exists s, get_node_signature digest c = Ok s.
(** Names of operating systems (Linux, Darwin, Windows, Java) begin with something that is not a digit. *)
Definition is_digit10 (c : ascii) : bool := (48 <=? nat_of_ascii c) && (nat_of_ascii c <=? 57).
Definition begins_without_digit (s : string) : Prop := match s with EmptyString => False | String c _ => is_digit10 c = false end.
(** the facts that identify a computer; [one_difference c d]: they differ in exactly one of them *)
Definition differences (c d : computer) : list bool :=
  [bool_decide (mac c <> mac d); bool_decide (system c <> system d); bool_decide (release c <> release d); bool_decide (version c <> version d);
   bool_decide (machine c <> machine d); bool_decide (processor c <> processor d); bool_decide (user c <> user d)].
Definition one_difference (c d : computer) : Prop := length (List.filter (fun b => b) (differences c d)) = 1.

(** [by_node n s e]: the event [e] happens on the node with signature [n]: a portal is created there, a portal created there is
    cleared, or a process ends there. *)
Definition by_node {Loc Rid : Type} (n : string) (s : rstate Loc string Rid) (e : revent Loc string Rid) : Prop :=
  match e with
  | RNew _ _ m _ _ => m = n
  | RClear i => match portals s !! i with Some (_, p) => sp_node p = n | None => True end
  | RProcessExit _ m => m = n
  end.
Fixpoint all_by_node {Loc Rid : Type} `{EqDecision Loc} (n : string) (s : rstate Loc string Rid) (h : list (revent Loc string Rid)) : Prop :=
  match h with [] => True | e :: h' => by_node n s e /\ all_by_node n (rstep s e) h' end.
