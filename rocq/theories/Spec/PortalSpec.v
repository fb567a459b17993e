(** What a user expects of portals: a plain stack of open 'with's (innermost first) and the list of known
    portals in creation order.  Only the data types [op], [output], [prog] of the model are used. *)
From Verif.Lib Require Import Py.
From Verif.Model Require Import Portals.

Record view := View { open : list nat; known : list nat }.

Definition current (v : view) : option nat := head (open v).

(** Effect of one API call on the user's view, given what the call showed. *)
Definition view_step (v : view) (o : op) (x : output) : view :=
  let v1 := match created x with Some i => View (open v) (known v ++ [i]) | None => v end in
  match o with
  | OEnter p => View (p :: open v1) (known v1)
  | OExit p => if decide (head (open v1) = Some p) then View (tail (open v1)) (known v1) else v1
  | OExitAll => View [] (known v1)
  | OClearAll _ => View [] []
  | _ => v1
  end.

Fixpoint view_from (v : view) (ops : list op) (xs : list output) : view :=
  match ops, xs with
  | o :: ops', x :: xs' => view_from (view_step v o x) ops' xs'
  | _, _ => v
  end.
Definition view_of := view_from (View [] []).

(** [history ops s v]: starting from a fresh interpreter, the calls [ops] lead to state [s], seen as [v]. *)
Definition history (ops : list op) (s : pstate) (v : view) : Prop :=
  exists xs, run init_state ops = (s, xs) /\ v = view_of ops xs.

(** elements in order of first occurrence, without repetition *)
Fixpoint first_occurrences (l : list nat) : list nat :=
  match l with
  | [] => []
  | x :: l' => x :: filter (fun y => y <> x) (first_occurrences l')
  end.

Definition noncurrent (v : view) : list nat := filter (fun p => Some p <> current v) (known v).

(** Outcome of a program when 'with portal' blocks are invisible. *)
Fixpoint plain_outcome (pr : prog) : option exn :=
  match pr with
  | PSkip | PNew _ | PBest _ => None
  | PRaise e => Some e
  | PSeq p q => match plain_outcome p with None => plain_outcome q | Some e => Some e end
  | PTry p h => match plain_outcome p with None => None | Some _ => plain_outcome h end
  | PWith _ b | PWithNew _ b | PWithBest _ b => plain_outcome b
  end.

(** All resets in a history go through DefaultLocalPortal. *)
Definition resets_through_default (ops : list op) : Prop :=
  forall cls, OClearAll cls ∈ ops -> cls = DefaultLocalPortal.
