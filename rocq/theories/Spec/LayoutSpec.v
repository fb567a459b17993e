(** What is promised about the stores of a portal. *)
From Coq Require Import QArith.
From stdpp Require Import gmap.
From Verif Require Import Lib.Py Model.Portals Model.Layout.
Local Open Scope nat_scope.

(** The directory of each store inside the portal's root directory *)
Definition directory (st : store) : string :=
  match st with
  | CrashHistory => "crash_history" | EventLog => "event_log" | ValueStore => "value_store"
  | ExecutionResults => "execution_results" | ExecutionRequests => "execution_requests"
  | HistoryJson | HistoryPy | HistoryTxt | HistoryPkl => "run_history"
  | NodesJson | NodesPkl => "compute_nodes"
  end.
(** The kind of its files *)
Definition kind (st : store) : string :=
  match st with
  | CrashHistory | EventLog | HistoryJson | NodesJson => "json"
  | ValueStore | ExecutionResults | ExecutionRequests | HistoryPkl | NodesPkl => "pkl"
  | HistoryPy => "py" | HistoryTxt => "txt"
  end.
(** Stores whose items are never changed and never deleted *)
Definition write_once (st : store) : Prop :=
  match st with
  | CrashHistory | EventLog | ValueStore | ExecutionResults | HistoryJson | HistoryTxt | HistoryPkl => True
  | ExecutionRequests | HistoryPy | NodesJson | NodesPkl => False
  end.
(** Stores that hold texts only *)
Definition texts_only (st : store) : Prop := match st with HistoryPy | HistoryTxt => True | _ => False end.
Global Instance write_once_dec st : Decision (write_once st). Proof. destruct st; apply _. Defined.
Global Instance texts_only_dec st : Decision (texts_only st). Proof. destruct st; apply _. Defined.
(** Directories none of which is inside the other *)
Definition separate (p q : path) : Prop := ~ p `prefix_of` q /\ ~ q `prefix_of` p.

Inductive by_portals {V} (digest : nat -> string -> string) (belongs : V -> string -> bool) (ok : settings -> Prop) :
  gmap path V -> gmap path V -> Prop :=
| no_more f : by_portals digest belongs ok f f
| one_more f f' r o : by_portals digest belongs ok f f' -> ok r -> by_portals digest belongs ok f (do_op digest belongs r o f').
(** keys of items: what SafeStrTuple accepts has at least one part *)
Definition op_key {V} (o : store_op (V := V)) : key := match o with SetItem _ k _ => k | DelItem _ k => k end.
Definition op_store {V} (o : store_op (V := V)) : store := match o with SetItem st _ _ => st | DelItem st _ => st end.
