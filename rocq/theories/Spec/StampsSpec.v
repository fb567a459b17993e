(** Vocabulary of C123 and C124. *)
From Coq Require Import String Ascii.
From stdpp Require Import list.
From Verif Require Import Model.Stamps.
Local Open Scope nat_scope.

(** the Gregorian calendar *)
Definition leap_year (y : nat) : Prop := (Nat.divide 4 y /\ ~ Nat.divide 100 y) \/ Nat.divide 400 y.
Definition last_day (y m d : nat) : Prop :=
  (In m [1; 3; 5; 7; 8; 10; 12] /\ d = 31) \/ (In m [4; 6; 9; 11] /\ d = 30) \/
  (m = 2 /\ ((leap_year y /\ d = 29) \/ (~ leap_year y /\ d = 28))).
(** d is a date of the calendar *)
Definition valid (d : date) : Prop := exists l, last_day (year d) (month d) l /\ 1 <= day d <= l.
(** d comes before e in the calendar *)
Definition before (d e : date) : Prop :=
  year d < year e \/ (year d = year e /\ (month d < month e \/ (month d = month e /\ day d < day e))).
(** the text s sorts before t, character by character (the order of directory listings) *)
Definition sorts_before (s t : string) : Prop := String.compare s t = Lt.
Fixpoint has_underscore (s : string) : bool :=
  match s with EmptyString => false | String c s' => Ascii.eqb c "_" || has_underscore s' end.
(** the island of a function has no underscore in its name *)
Definition plain_island (w : logger) : Prop :=
  match w with ByAutonomous _ i | ByPure _ i => has_underscore i = false | _ => True end.
(** both are ordinary, both autonomous, or both pure functions *)
Definition same_kind (w w' : logger) : Prop :=
  match w, w' with
  | ByPortal, ByPortal | ByOrdinary _, ByOrdinary _ | ByAutonomous _ _, ByAutonomous _ _ | ByPure _ _, ByPure _ _ => True
  | _, _ => False
  end.
