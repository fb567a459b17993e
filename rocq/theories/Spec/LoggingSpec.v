(** Reading the logs. *)
From Verif.Lib Require Import Py.
From Verif.Model Require Import Logging.

Section Spec.
  Context {V : Type} (place : nat -> nat).
  Notation lstate := (lstate (V := V)).

  (** [section = None]: the "__CATCH_ALL__" section (of any day); [Some f]: the section of function f *)
  Definition in_section (section : option string) (pre : xprefix) : bool :=
    match section, pre with
    | None, CatchAll _ => true
    | Some f, OfFn f' => String.eqb f f'
    | _, _ => false
    end.
  (** how many records of exception e the crash history of portal q has in a section *)
  Definition records (s : lstate) (e q : nat) (section : option string) : nat :=
    length (List.filter (fun c => (c_exn c =? e) && (c_place c =? place q) && in_section section (c_prefix c)) (crashes s)).
  (** how many entries the event log of portal q has under (day, id), and with which data *)
  Definition event_records (s : lstate) (q day : nat) (i : evid) : list (event_rec V) :=
    map e_rec (List.filter (fun v => (e_place v =? place q) && (e_day v =? day) && bool_decide (e_id v = i)) (events s)).

  (** no two portals share their files *)
  Definition separate : Prop := forall p q, place p = place q -> p = q.

  (** the random part of an exception id *)
  Definition sig_of (i : xid) : nat := match i with Random _ n => n | InFrame _ n _ => n end.
  (** What holds of the logs at any time: signatures and exception objects are older than the next ones; an exception with
      a record is marked; nothing is recorded twice. *)
  Definition log_ok (s : lstate) : Prop :=
    (forall c, c ∈ crashes s -> sig_of (c_id c) < next_sig s) /\
    (forall c, c ∈ crashes s -> c_exn c ∈ marked s) /\
    (forall e, e ∈ marked s -> e < next_exn s) /\
    (forall e q section, records s e q section <= 1) /\
    (forall v n, v ∈ events s -> e_id v = Drawn n -> n < next_sig s).
  (** A report: what one exception leaves in the crash histories.  [r_function]: the function it left first, if any, else
      None (it left a 'with' block first); [r_portals]: the portals that have it. *)
  Record report := Report { r_exn : nat; r_day : nat; r_function : option string; r_id : xid; r_portals : list nat }.
  (** the records a report consists of: one per portal and section *)
  Definition written (r : report) : list crash :=
    match r_function r with
    | Some f => map (fun p => Crash (place p) (OfFn f) (r_id r) (r_exn r)) (r_portals r)
    | None => []
    end ++ map (fun p => Crash (place p) (CatchAll (r_day r)) (r_id r) (r_exn r)) (r_portals r).
  (** the entry it has in a run history: only if the body of a pure function raised it; in the innermost portal *)
  Definition written_run (r : report) : list (nat * nat * nat) :=
    match r_id r, r_portals r with
    | InFrame _ session _, p :: _ => [(place p, session, r_exn r)]
    | _, _ => []
    end.
  (** the logs of s' are those of s plus the given reports *)
  Definition reported (s s' : lstate) (rs : list report) : Prop :=
    crashes s' = crashes s ++ concat (map written rs) /\ run_crashes s' = run_crashes s ++ concat (map written_run rs) /\
    NoDup (map r_exn rs) /\ NoDup (map (fun r => sig_of (r_id r)) rs) /\
    (forall r, r ∈ rs -> r_exn r ∉ marked s /\ r_exn r ∈ marked s' /\ r_exn r < next_exn s' /\ today s <= r_day r <= today s' /\
       r_portals r <> [] /\ NoDup (r_portals r) /\ (forall c, c ∈ crashes s -> sig_of (c_id c) <> sig_of (r_id r)) /\
       match r_id r with InFrame f _ k => r_function r = Some f /\ k = 0 | Random _ _ => True end).

  (** a new application *)
  Definition fresh_logs : lstate := LState [] [] 0 0 0 [] [] [].

  (** with p1: with p2: ... body *)
  Fixpoint nest (ps : list nat) (body : prog (V := V)) : prog :=
    match ps with [] => body | p :: ps' => PWith p (nest ps' body) end.
  (** no try/except *)
  Fixpoint no_try (pr : prog (V := V)) : Prop :=
    match pr with
    | PTry _ _ => False
    | PSeq p q => no_try p /\ no_try q
    | PWith _ b | POrdinary _ b | PAutonomous _ _ b => no_try b
    | PPure _ _ g b k => no_try g /\ no_try b /\ no_try k
    | PSkip | PRaise | PReraise | PLog _ _ _ _ | PTick => True
    end.
End Spec.
