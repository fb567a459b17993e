(** Model of the portal registry and portal stack: _010_basic_portals/foundation.py,
    portal_aware_classes.py, and the singleton of _100_default_local_portals/default_local_portal.py. *)
From Verif.Lib Require Import Py.

(** Portal classes; each class inherits from the previous one.
    foundation.py:30, logging_portals.py:92, data_portals.py:15, ordinary_core_classes.py (OrdinaryCodePortal),
    safe_core_classes.py, autonomous_core_classes.py, pure_core_classes.py, swarming_portals.py:29,
    default_local_portal.py:7.  (Multiple inheritance is not used between them.) *)
Inductive pclass :=
| BasicPortal | LoggingPortal | DataPortal | OrdinaryCodePortal | SafeCodePortal
| AutonomousCodePortal | PureCodePortal | SwarmingPortal | DefaultLocalPortal.

Definition rank (c : pclass) : nat :=
  match c with
  | BasicPortal => 0 | LoggingPortal => 1 | DataPortal => 2 | OrdinaryCodePortal => 3
  | SafeCodePortal => 4 | AutonomousCodePortal => 5 | PureCodePortal => 6
  | SwarmingPortal => 7 | DefaultLocalPortal => 8
  end.

(** isinstance(portal of class c, d) *)
Definition instance_of (c d : pclass) : bool := rank d <=? rank c.

(** A portal object: its class and whether [root_dict] is set (it is set to None by [_clear]). *)
Record portal := Portal { po_class : pclass; po_root : bool }.

(** The class-level state of foundation.py:48-50 and default_local_portal.py:14-15.
    [id(portal)] is a number; objects are never garbage collected in the model, so ids are unique.
    The Python lists grow at the end, here the last element is the head. *)
Record pstate := PState {
  objects : dict nat portal;          (* heap of portal objects ever created *)
  next_id : nat;                        (* next unused id *)
  all_portals : dict nat nat;         (* BasicPortal.all_portals: id -> object *)
  stack : list nat;                   (* entered_portals_stack, last element first *)
  counters : list nat;                (* entered_portals_counters_stack, last element first *)
  default_instance : option nat;      (* DefaultLocalPortal._default_local_portal_instance *)
  calls_counter : nat                 (* DefaultLocalPortal._calls_counter *)
}.

Definition init_state : pstate := PState [] 0 [] [] [] None 0.

(** Class of an object ([BasicPortal] for ids that were never allocated; theorems only use allocated ids). *)
Definition class_of (s : pstate) (p : nat) : pclass :=
  match dict_get p (objects s) with Some o => po_class o | None => BasicPortal end.

(** foundation.py:54-64  BasicPortal.__init__ (and the [__new__] before it): a new object is registered.
    The parts of the subclasses' constructors that create the stores are not modelled here. *)
Definition new_portal (c : pclass) (s : pstate) : pstate * nat :=
  let i := next_id s in
  (PState (dict_set i (Portal c true) (objects s)) (S i) (dict_set i i (all_portals s))
          (stack s) (counters s) (default_instance s) (calls_counter s), i).

(** foundation.py:104-109  get_most_recently_added_portal: last key of the dictionary *)
Definition most_recently_added (s : pstate) : option nat :=
  match last (all_portals s) with Some (_, p) => Some p | None => None end.

(** foundation.py:112-120  __enter__ *)
Definition enter (p : nat) (s : pstate) : pstate :=
  match stack s, counters s with
  | q :: _, c :: cs =>
      if decide (q = p)
      then PState (objects s) (next_id s) (all_portals s) (stack s) (S c :: cs) (default_instance s) (calls_counter s)
      else PState (objects s) (next_id s) (all_portals s) (p :: stack s) (1 :: counters s) (default_instance s) (calls_counter s)
  | _, _ => PState (objects s) (next_id s) (all_portals s) (p :: stack s) (1 :: counters s) (default_instance s) (calls_counter s)
  end.

(** foundation.py:122-132  __exit__.  Indexing an empty list raises IndexError. *)
Definition exit_portal (p : nat) (s : pstate) : pstate * res unit :=
  match stack s with
  | [] => (s, Err IndexError)
  | q :: st =>
      if decide (q = p) then
        match counters s with
        | [] => (s, Err IndexError)
        | c :: cs =>
            if decide (c = 1)
            then (PState (objects s) (next_id s) (all_portals s) st cs (default_instance s) (calls_counter s), Ok tt)
            else (PState (objects s) (next_id s) (all_portals s) (stack s) (c - 1 :: cs) (default_instance s) (calls_counter s), Ok tt)
        end
      else (s, Err AssertionError)
  end.

(** foundation.py:134-138  __exit_all__, the while loop, fuelled *)
Fixpoint exit_all_loop (fuel : nat) (s : pstate) : pstate * res unit :=
  match stack s with
  | [] => (s, Ok tt)
  | p :: _ =>
      match fuel with
      | 0 => (s, Err OutOfFuel)
      | S fuel' =>
          match exit_portal p s with
          | (s', Ok _) => exit_all_loop fuel' s'
          | (s', Err e) => (s', Err e)
          end
      end
  end.
Definition exit_all (s : pstate) : pstate * res unit :=
  exit_all_loop (list_sum (counters s)) s.

(** foundation.py:140-152  _most_recently_entered_portal *)
Definition most_recently_entered (expected_class : option pclass) (s : pstate) : res (option nat) :=
  match stack s with
  | p :: _ =>
      match expected_class with
      | Some c => if instance_of (class_of s p) c then Ok (Some p) else Err AssertionError
      | None => Ok (Some p)
      end
  | [] => Ok None
  end.

(** default_local_portal.py:17-38  DefaultLocalPortal(): [__new__] returns the instance if there is one,
    [__init__] does nothing when it ran before.  The second component tells whether a portal was registered. *)
Definition default_local_portal (s : pstate) : pstate * nat * bool :=
  match default_instance s with
  | Some i =>
      if decide (0 < calls_counter s) then (s, i, false)
      else (PState (dict_set i (Portal DefaultLocalPortal true) (objects s)) (next_id s)
              (dict_set i i (all_portals s)) (stack s) (counters s) (Some i) (S (calls_counter s)), i, true)
  | None =>
      let i := next_id s in
      if decide (0 < calls_counter s)
      then (PState (dict_set i (Portal DefaultLocalPortal false) (objects s)) (S i) (all_portals s)
              (stack s) (counters s) (Some i) (calls_counter s), i, false)
      else (PState (dict_set i (Portal DefaultLocalPortal true) (objects s)) (S i) (dict_set i i (all_portals s))
              (stack s) (counters s) (Some i) (S (calls_counter s)), i, true)
  end.

(** foundation.py:160-172  get_best_portal_to_use.  All subclasses call it on BasicPortal
    (logging_portals.py:165-168, data_portals.py:81-84, swarming_portals.py:143-146, ...), so the class
    check of line 166 is the trivial one. *)
Definition best_portal (suggested : option nat) (s : pstate) : pstate * nat * bool :=
  match suggested with
  | Some p => (s, p, false)
  | None =>
      match most_recently_entered (Some BasicPortal) s with
      | Ok (Some p) => (s, p, false)
      | _ =>
          match most_recently_added s with
          | Some p => (s, p, false)
          | None => default_local_portal s
          end
      end
  end.

(** foundation.py:175-192  _noncurrent_portals *)
Definition noncurrent_portals (expected_class : option pclass) (s : pstate) : res (list nat) :=
  let result :=
    match stack s with
    | [] => dict_values (all_portals s)
    | cur :: _ => dict_values (filter (fun kv => kv.1 <> cur) (all_portals s))
    end in
  match expected_class with
  | Some c => if forallb (fun p => instance_of (class_of s p) c) result then Ok result else Err AssertionError
  | None => Ok result
  end.

(** foundation.py:200-210  _entered_portals: a dictionary filled from the end of the stack *)
Definition entered_portals (expected_class : option pclass) (s : pstate) : res (list nat) :=
  let result := dict_values (fold_left (fun d p => dict_set p p d) (stack s) ([] : dict nat nat)) in
  match expected_class with
  | Some c =>
      if (length result =? 0) || forallb (fun p => instance_of (class_of s p) c) result
      then Ok result else Err AssertionError
  | None => Ok result
  end.

(** foundation.py:222-229  _clear_all, and default_local_portal.py:40-45 when called on that class.
    [_clear] (foundation.py:217-220) drops root_dict; the other stores of subclasses are not modelled here. *)
Definition clear_object (os : dict nat portal) (p : nat) : dict nat portal :=
  match dict_get p os with
  | Some o => dict_set p (Portal (po_class o) false) os
  | None => os
  end.
Definition clear_all (cls : pclass) (s : pstate) : pstate :=
  let '(di, cc) := match cls with
                   | DefaultLocalPortal => (None, 0)
                   | _ => (default_instance s, calls_counter s)
                   end in
  PState (fold_left clear_object (dict_values (all_portals s)) (objects s)) (next_id s) [] [] [] di cc.

(** ** Histories of API calls *)
Inductive op :=
| ONew (c : pclass)              (* SomePortal(...) *)
| OEnter (p : nat)               (* p.__enter__() *)
| OExit (p : nat)                (* p.__exit__(...) *)
| OExitAll                       (* __exit_all__() *)
| OBest (suggested : option nat) (* get_best_portal_to_use(suggested) *)
| ODefault                       (* DefaultLocalPortal() *)
| OClearAll (cls : pclass).      (* cls._clear_all() *)

(** What a call shows: the portal it registered, if any, and its result (a portal, None or an exception). *)
Record output := Out { created : option nat; outcome : res (option nat) }.

Definition step (s : pstate) (o : op) : pstate * output :=
  match o with
  | ONew c => let '(s', i) := new_portal c s in (s', Out (Some i) (Ok (Some i)))
  | OEnter p => (enter p s, Out None (Ok (Some p)))
  | OExit p => let '(s', r) := exit_portal p s in
               (s', Out None (match r with Ok _ => Ok None | Err e => Err e end))
  | OExitAll => let '(s', r) := exit_all s in
                (s', Out None (match r with Ok _ => Ok None | Err e => Err e end))
  | OBest sg => let '(s', p, b) := best_portal sg s in (s', Out (if b then Some p else None) (Ok (Some p)))
  | ODefault => let '(s', p, b) := default_local_portal s in (s', Out (if b then Some p else None) (Ok (Some p)))
  | OClearAll cls => (clear_all cls s, Out None (Ok None))
  end.

Fixpoint run (s : pstate) (ops : list op) : pstate * list output :=
  match ops with
  | [] => (s, [])
  | o :: ops' => let '(s1, x) := step s o in let '(s2, xs) := run s1 ops' in (s2, x :: xs)
  end.

(** ** Block-structured programs over portals.  [PWith p body] is [with p: body]; Python runs __exit__ in
    every case, an exception of __exit__ replaces the body's, and __exit__ returns a false value so the
    body's exception propagates (foundation.py:122-132; logging_portals.py:326-329 adds logging). *)
Inductive prog :=
| PSkip
| PRaise (e : exn)
| PSeq (p q : prog)
| PTry (p handler : prog)                       (* try: p  except: handler *)
| PWith (p : nat) (body : prog)
| PNew (c : pclass)
| PWithNew (c : pclass) (body : prog)            (* with SomePortal(...): body *)
| PBest (suggested : option nat)
| PWithBest (suggested : option nat) (body : prog). (* with get_best_portal_to_use(s): body *)

Definition run_with (p : nat) (body : pstate -> pstate * option exn) (s : pstate) : pstate * option exn :=
  let '(s1, r) := body (enter p s) in
  match exit_portal p s1 with
  | (s2, Ok _) => (s2, r)
  | (s2, Err e) => (s2, Some e)
  end.

Fixpoint exec (pr : prog) (s : pstate) : pstate * option exn :=
  match pr with
  | PSkip => (s, None)
  | PRaise e => (s, Some e)
  | PSeq p q => match exec p s with (s1, None) => exec q s1 | (s1, Some e) => (s1, Some e) end
  | PTry p h => match exec p s with (s1, None) => (s1, None) | (s1, Some _) => exec h s1 end
  | PWith p body => run_with p (exec body) s
  | PNew c => (fst (new_portal c s), None)
  | PWithNew c body => let '(s1, p) := new_portal c s in run_with p (exec body) s1
  | PBest sg => (fst (fst (best_portal sg s)), None)
  | PWithBest sg body => let '(s1, p, _) := best_portal sg s in run_with p (exec body) s1
  end.

(** ** Portal-aware objects (portal_aware_classes.py) *)
Record aware := Aware { aw_portal : option nat; aw_data : nat }.  (* _portal, and the rest of the state *)

(** portal_aware_classes.py:20-21  __init__ *)
Definition aware_new (suggested : option nat) (data : nat) (s : pstate) : pstate * aware :=
  let '(s', p, _) := best_portal suggested s in (s', Aware (Some p) data).

(** portal_aware_classes.py:31-37  capture_portal *)
Definition capture_portal (a : aware) (s : pstate) : res aware :=
  match aw_portal a with
  | Some _ => Err AssertionError
  | None => let? p := most_recently_entered None s in Ok (Aware p (aw_data a))
  end.

(** __getstate__ of the concrete classes (value_addresses.py:165-167, autonomous_core_classes.py, ...):
    everything except the portal. *)
Definition aware_getstate (a : aware) : nat := aw_data a.

(** __setstate__ of the concrete classes (value_addresses.py:169-172, pure_core_classes.py:298-299,...) *)
Definition aware_setstate (data : nat) (s : pstate) : res aware := capture_portal (Aware None data) s.

(** portal_aware_classes.py:24-28  the [portal] property: returns the portal and the updated object *)
Definition aware_portal (a : aware) (s : pstate) : res (option nat * aware) :=
  match aw_portal a with
  | Some p => Ok (Some p, a)
  | None => let? a' := capture_portal a s in Ok (aw_portal a', a')
  end.

(** value_addresses.py:72-74  ValueAddr overrides [portal] and never captures *)
Definition value_addr_portal (a : aware) (s : pstate) : res (option nat * aware) :=
  Ok (aw_portal a, a).

(** portal_aware_classes.py:60-63  __copy__ *)
Definition aware_copy (a : aware) (s : pstate) : res aware := aware_setstate (aware_getstate a) s.
