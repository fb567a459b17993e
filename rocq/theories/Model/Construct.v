(** Model of the construction and the clearing of portals: the constructors of _010_basic_portals/foundation.py,
    _020_logging_portals/logging_portals.py, _030_data_portals/data_portals.py, AutonomousCodePortal, PureCodePortal,
    _090_swarming_portals/swarming_portals.py, _100_default_local_portals/default_local_portal.py, and of
    _110_top_level_API/top_level_API.py.

    A constructor is a sequence of stages; each checks its arguments, then creates stores (which may fail: [fault] names
    the stage whose storage access raises), then sets attributes of the object.  Simplified: one compute node; the stack of
    entered portals is the plain list of open 'with's (Portals.v, C05-C08); the exception hook is in Logging.v; tables made
    by describe() are left out, only which portals they describe is kept. *)
From Verif.Lib Require Import Py.
From Verif.Model Require Import Portals.
From Coq Require Import QArith.
Local Open Scope nat_scope.

(** Constructor arguments (swarming_portals.py:32-38; the other classes take fewer).  [a_loc]: where root_dict stores. *)
Record args := Args {
  a_loc : nat;
  a_p : option Q;             (* p_consistency_checks *)
  a_island : string;          (* default_island_name *)
  a_workers : option Z;       (* n_background_workers *)
  a_rid : option nat          (* runtime_id *)
}.

(** The stages, in order. *)
Inductive stage :=
| SRoot     (* foundation.py:54-64: root_dict; registers in all_portals *)
| SLogs     (* logging_portals.py:120-138: crash_history, event_log *)
| SData     (* data_portals.py:35-53: value_store *)
| SIslands  (* autonomous_core_classes.py:40-51: known_functions *)
| SPure     (* pure_core_classes.py:52-88: execution_results, execution_requests, run_history *)
| SNodes    (* swarming_portals.py:42-55: n_background_workers, compute_nodes *)
| SNodeId   (* swarming_portals.py:57 node_id *)
| SRid      (* swarming_portals.py:59-63: runtime_id and its record *)
| SEnv      (* swarming_portals.py:67-72: the record of the environment *)
| SLaunch.  (* swarming_portals.py:75-76: background workers *)
Global Instance stage_eq_dec : EqDecision stage. Proof. solve_decision. Defined.

Definition all_stages : list stage := [SRoot; SLogs; SData; SIslands; SPure; SNodes; SNodeId; SRid; SEnv; SLaunch].
(** the class whose constructor has the stage *)
Definition stage_class (st : stage) : pclass :=
  match st with
  | SRoot => BasicPortal | SLogs => LoggingPortal | SData => DataPortal | SIslands => AutonomousCodePortal
  | SPure => PureCodePortal | SNodes | SNodeId | SRid | SEnv | SLaunch => SwarmingPortal
  end.
Definition stages_of (c : pclass) : list stage := List.filter (fun st => instance_of c (stage_class st)) all_stages.

(** The checks of the arguments: data_portals.py:41, autonomous_core_classes.py:46-47, swarming_portals.py:42-43
    (int(None) raises TypeError). *)
Definition check (st : stage) (a : args) : option exn :=
  match st with
  | SData => match a_p a with
             | None => None
             | Some p => if Qle_bool 0 p && Qle_bool p 1 then None else Some AssertionError
             end
  | SIslands => if bool_decide (a_island a = ""%string) then Some AssertionError else None
  | SNodes => match a_workers a with
              | None => Some TypeError
              | Some n => if (0 <=? n)%Z then None else Some AssertionError
              end
  | _ => None
  end.

(** A portal object: which stages of its constructor have been completed; [o_cleared] after _clear(). *)
Record cobj := CObj { o_class : pclass; o_args : args; o_has : list stage; o_cleared : bool; o_rid : nat }.

Record cstate := CState {
  heap : list cobj;               (* portal objects; a portal is its index *)
  known : list nat;               (* BasicPortal.all_portals, in order *)
  opened : list nat;              (* open 'with's, innermost first *)
  records : dict nat nat;         (* compute_nodes.pkl[[node, "runtime_id"]] of every location *)
  launched : list args;           (* background workers started, with their parameters *)
  next_rid : nat;                 (* get_random_signature(): never repeats *)
  dflt : option nat;              (* DefaultLocalPortal._default_local_portal_instance *)
  dflt_calls : nat                (* DefaultLocalPortal._calls_counter *)
}.
Definition fresh_process (recs : dict nat nat) (rid : nat) : cstate := CState [] [] [] recs [] rid None 0.

Definition with_heap h s := CState h (known s) (opened s) (records s) (launched s) (next_rid s) (dflt s) (dflt_calls s).
Definition with_known k s := CState (heap s) k (opened s) (records s) (launched s) (next_rid s) (dflt s) (dflt_calls s).
Definition with_opened o s := CState (heap s) (known s) o (records s) (launched s) (next_rid s) (dflt s) (dflt_calls s).
Definition with_records r s := CState (heap s) (known s) (opened s) r (launched s) (next_rid s) (dflt s) (dflt_calls s).
Definition with_launched l s := CState (heap s) (known s) (opened s) (records s) l (next_rid s) (dflt s) (dflt_calls s).
Definition with_dflt d n s := CState (heap s) (known s) (opened s) (records s) (launched s) (next_rid s) d n.
Definition drawn s := CState (heap s) (known s) (opened s) (records s) (launched s) (S (next_rid s)) (dflt s) (dflt_calls s).
Definition set_obj (i : nat) (f : cobj -> cobj) (s : cstate) : cstate := with_heap (alter f i (heap s)) s.

(** swarming_portals.py:82-87 get_params and 121-128 _launch_background_worker: the parameters a worker is started with:
    those of the portal, no workers of its own, and the runtime id (whoever chose it). *)
Definition worker_args (a : args) (rid : nat) : args := Args (a_loc a) (a_p a) (a_island a) (Some 0%Z) (Some rid).

(** The effects of a stage on the object number [i].  (A portal given no p_consistency_checks keeps 0,
    data_portals.py:42-43, which makes no difference here.) *)
Definition apply_stage (st : stage) (i : nat) (a : args) (s : cstate) : cstate :=
  let done s := set_obj i (fun o => CObj (o_class o) (o_args o) (o_has o ++ [st]) (o_cleared o) (o_rid o)) s in
  match st with
  | SRoot => done (with_known (known s ++ [i]) s)
  | SRid =>
      match a_rid a with
      | Some r => done (set_obj i (fun o => CObj (o_class o) (o_args o) (o_has o) (o_cleared o) r) s)
      | None => let r := next_rid s in
                done (with_records (dict_set (a_loc a) r (records s))
                       (set_obj i (fun o => CObj (o_class o) (o_args o) (o_has o) (o_cleared o) r) (drawn s)))
      end
  | SLaunch =>
      match heap s !! i, a_workers a with
      | Some o, Some n => done (with_launched (launched s ++ replicate (Z.to_nat n) (worker_args a (o_rid o))) s)
      | _, _ => done s
      end
  | _ => done s
  end.

(** An error of the storage layer. *)
Definition storage_error : exn := UserExn 0.

Fixpoint init_stages (sts : list stage) (i : nat) (a : args) (fault : option stage) (s : cstate) : cstate * option exn :=
  match sts with
  | [] => (s, None)
  | st :: sts' =>
      match check st a with
      | Some e => (s, Some e)
      | None => if bool_decide (fault = Some st) then (s, Some storage_error)
                else init_stages sts' i a fault (apply_stage st i a s)
      end
  end.

Definition new_obj (c : pclass) (a : args) : cobj := CObj c a [] false 0.
(** SomePortal(...), for the classes other than DefaultLocalPortal *)
Definition construct (c : pclass) (a : args) (fault : option stage) (s : cstate) : cstate * res nat :=
  let i := length (heap s) in
  match init_stages (stages_of c) i a fault (with_heap (heap s ++ [new_obj c a]) s) with
  | (s', None) => (s', Ok i)
  | (s', Some e) => (s', Err e)
  end.

(** default_local_portal.py:17-38: [__new__], then [__init__], which counts the call before anything can fail *)
Definition default_args : args := Args 0 (Some 0%Q) "Samos" (Some 3%Z) None.
Definition default_portal (fault : option stage) (s : cstate) : cstate * res nat :=
  let '(s1, i) := match dflt s with
                  | Some i => (s, i)
                  | None => let i := length (heap s) in
                            (with_dflt (Some i) (dflt_calls s) (with_heap (heap s ++ [new_obj DefaultLocalPortal default_args]) s), i)
                  end in
  if decide (0 < dflt_calls s1) then (s1, Ok i)
  else match init_stages (stages_of DefaultLocalPortal) i default_args fault (with_dflt (dflt s1) (S (dflt_calls s1)) s1) with
       | (s2, None) => (s2, Ok i)
       | (s2, Some e) => (s2, Err e)
       end.

(** swarming_portals.py:131-135 _clear: needs node_id and compute_nodes, deletes the record; the _clear methods of the
    other classes (foundation.py:217-220, logging 141-145, data 100-104, autonomous 86-90, pure 106-110) only assign. *)
Definition clear_portal (i : nat) (s : cstate) : cstate * option exn :=
  match heap s !! i with
  | None => (s, None)
  | Some o =>
      let cleared s := set_obj i (fun o => CObj (o_class o) (o_args o) (o_has o) true (o_rid o)) s in
      if instance_of (o_class o) SwarmingPortal then
        if bool_decide (SNodeId ∈ o_has o) && negb (o_cleared o)
        then (cleared (with_records (dict_del (a_loc (o_args o)) (records s)) s), None)
        else (s, Some AttributeError)
      else (cleared s, None)
  end.
Fixpoint clear_portals (l : list nat) (s : cstate) : cstate * option exn :=
  match l with
  | [] => (s, None)
  | i :: l' => match clear_portal i s with (s1, None) => clear_portals l' s1 | r => r end
  end.
(** foundation.py:222-229 _clear_all; default_local_portal.py:40-45 *)
Definition clear_all (cls : pclass) (s : cstate) : cstate * res unit :=
  let s0 := match cls with DefaultLocalPortal => with_dflt None 0 s | _ => s end in
  match clear_portals (known s0) s0 with
  | (s1, None) => (with_opened [] (with_known [] s1), Ok tt)
  | (s1, Some e) => (s1, Err e)
  end.

(** foundation.py:160-172 get_best_portal_to_use(None), when some portal is entered or known *)
Definition best_known (s : cstate) : option nat :=
  match opened s with
  | p :: _ => Some p
  | [] => last (known s)
  end.

(** value_addresses.py:87-97 and pure_core_classes.py:606-622: looking something up in the other portals, in a store made by
    stage [st] of class [cls]; [found p]: portal p has it.  foundation.py:175-192: all of them must be of the class.
    A store that was never made raises AttributeError; `in None` (after _clear) raises TypeError. *)
Definition others (s : cstate) : list nat :=
  match opened s with [] => known s | c :: _ => List.filter (fun p => negb (p =? c)) (known s) end.
Fixpoint probe (st : stage) (found : nat -> bool) (l : list nat) (s : cstate) : res bool :=
  match l with
  | [] => Ok false
  | p :: l' =>
      match heap s !! p with
      | None => Err AttributeError
      | Some o => if bool_decide (st ∈ o_has o)
                  then if o_cleared o then Err TypeError else if found p then Ok true else probe st found l' s
                  else Err AttributeError
      end
  end.
Definition lookup_elsewhere (st : stage) (found : nat -> bool) (s : cstate) : res bool :=
  if forallb (fun p => match heap s !! p with Some o => instance_of (o_class o) (stage_class st) | None => false end) (others s)
  then probe st found (others s) s
  else Err AssertionError.

(** top_level_API.py:7-11 initialize, 13-17 connect_to_local_portal, 19-21 connect_to_default_portal.
    describe() of a portal reads all its stores (swarming_portals.py:89-98 and the classes below). *)
Definition describe_portal (i : nat) (s : cstate) : res nat :=
  match heap s !! i with
  | None => Err AttributeError
  | Some o =>
      if o_cleared o then Err AttributeError
      else if forallb (fun st => bool_decide (st ∈ o_has o))
                (List.filter (fun st => negb (bool_decide (st ∈ [SNodeId; SRid; SEnv; SLaunch]))) (stages_of (o_class o)))
      then Ok i else Err AttributeError
  end.
Definition swarming_args (loc : nat) (n : Z) : args := Args loc None "Samos" (Some n) None.
Definition initialize (loc : nat) (fault : option stage) (s : cstate) : cstate * res nat :=
  match clear_all BasicPortal s with
  | (s1, Err e) => (s1, Err e)
  | (s1, Ok _) =>
      match construct SwarmingPortal (swarming_args loc 3) fault s1 with
      | (s2, Err e) => (s2, Err e)
      | (s2, Ok i) => let s3 := with_opened (i :: opened s2) s2 in (s3, describe_portal i s3)
      end
  end.
Definition connect_local (loc : nat) (n : Z) (fault : option stage) (s : cstate) : cstate * res nat :=
  match construct SwarmingPortal (swarming_args loc n) fault s with
  | (s1, Err e) => (s1, Err e)
  | (s1, Ok i) => (s1, describe_portal i s1)
  end.
Definition connect_default (fault : option stage) (s : cstate) : cstate * res nat :=
  match default_portal fault s with
  | (s1, Err e) => (s1, Err e)
  | (s1, Ok i) => (s1, describe_portal i s1)
  end.
(** top_level_API.py:23-32 describe: the portals shown, in order; pandas.concat([]) raises ValueError *)
Fixpoint describe_each (l : list nat) (s : cstate) : res (list nat) :=
  match l with
  | [] => Ok []
  | i :: l' => let? x := describe_portal i s in let? xs := describe_each l' s in Ok (x :: xs)
  end.
Definition describe (s : cstate) : res (list nat) :=
  match known s with [] => Err ValueError | l => describe_each l s end.

(** ** Histories of calls in one process *)
Inductive cop :=
| CNew (c : pclass) (a : args) (fault : option stage)
| CDefault (fault : option stage)
| CEnter (p : nat)
| CExit (p : nat)
| CClearAll (cls : pclass)
| CInitialize (loc : nat) (fault : option stage)
| CConnect (loc : nat) (n : Z) (fault : option stage)
| CConnectDefault (fault : option stage).

(** DefaultLocalPortal's constructor takes no arguments: [CNew DefaultLocalPortal] raises TypeError. *)
Definition cstep (s : cstate) (o : cop) : cstate * option exn :=
  let ex {A} (r : cstate * res A) : cstate * option exn :=
    match r with (s', Ok _) => (s', None) | (s', Err e) => (s', Some e) end in
  match o with
  | CNew DefaultLocalPortal _ _ => (s, Some TypeError)
  | CNew c a f => ex (construct c a f s)
  | CDefault f => ex (default_portal f s)
  | CEnter p => if decide (p < length (heap s)) then (with_opened (p :: opened s) s, None) else (s, Some AttributeError)
  | CExit p => match opened s with
               | q :: l => if decide (q = p) then (with_opened l s, None) else (s, Some AssertionError)
               | [] => (s, Some IndexError)
               end
  | CClearAll cls => ex (clear_all cls s)
  | CInitialize l f => ex (initialize l f s)
  | CConnect l n f => ex (connect_local l n f s)
  | CConnectDefault f => ex (connect_default f s)
  end.
(** the state after a history, and the exceptions its calls raised *)
Fixpoint crun (s : cstate) (ops : list cop) : cstate * list (option exn) :=
  match ops with
  | [] => (s, [])
  | o :: ops' => let '(s1, e) := cstep s o in let '(s2, es) := crun s1 ops' in (s2, e :: es)
  end.
