(** What a user expects of constructing and clearing portals.  Uses only the data types of Model/Construct.v. *)
From Verif.Lib Require Import Py.
From Verif.Model Require Import Portals Construct.
From Coq Require Import QArith.
Local Open Scope nat_scope.

(** The arguments that make sense for a class. *)
Definition sensible (c : pclass) (a : args) : Prop :=
  (rank DataPortal <= rank c -> forall p, a_p a = Some p -> (0 <= p)%Q /\ (p <= 1)%Q) /\
  (rank AutonomousCodePortal <= rank c -> a_island a <> ""%string) /\
  (rank SwarmingPortal <= rank c -> exists n, a_workers a = Some n /\ (0 <= n)%Z).

(** An object with everything its class promises (stores, node id, runtime id, ...), not cleared. *)
Definition complete (o : cobj) : Prop :=
  o_cleared o = false /\ forall st, rank (stage_class st) <= rank (o_class o) -> st ∈ o_has o.

(** What the portals of each class have: the documentation's list, class by class. *)
Definition promised (c : pclass) : list stage :=
  match c with
  | BasicPortal => [SRoot]
  | LoggingPortal => [SRoot; SLogs]
  | DataPortal | OrdinaryCodePortal | SafeCodePortal => [SRoot; SLogs; SData]
  | AutonomousCodePortal => [SRoot; SLogs; SData; SIslands]
  | PureCodePortal => [SRoot; SLogs; SData; SIslands; SPure]
  | SwarmingPortal | DefaultLocalPortal => [SRoot; SLogs; SData; SIslands; SPure; SNodes; SNodeId; SRid; SEnv; SLaunch]
  end.

(** Nothing that later calls could notice distinguishes [s'] from [s]: an object nobody can reach may have been
    allocated. *)
Definition no_trace (s s' : cstate) : Prop :=
  known s' = known s /\ opened s' = opened s /\ records s' = records s /\ launched s' = launched s /\
  dflt s' = dflt s /\ dflt_calls s' = dflt_calls s /\ exists extra, heap s' = heap s ++ extra.

(** A known swarming portal that cannot be cleared (any more): never finished, or cleared already. *)
Definition broken (s : cstate) : Prop :=
  exists i o, i ∈ known s /\ heap s !! i = Some o /\ rank SwarmingPortal <= rank (o_class o) /\
    (SNodeId ∉ o_has o \/ o_cleared o = true).

(** Calls that construct a portal, whatever else they do. *)
Definition constructs (o : cop) : bool :=
  match o with CNew _ _ _ | CDefault _ | CInitialize _ _ | CConnect _ _ _ | CConnectDefault _ => true | _ => false end.
(** No construction of the history failed. *)
Definition constructions_succeed (ops : list cop) (es : list (option exn)) : Prop :=
  Forall2 (fun o e => constructs o = true -> e = None) ops es.

Definition new_process : cstate := fresh_process [] 0.
