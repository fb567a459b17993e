(** Address texts of different values that coincide, and the consistency checks of the stores.
    Models value_addresses.py:48-66 (ValueAddr.__init__), first_entry_dict.py:33-70 (FirstEntryDict.__setitem__), and in
    pure_core_classes.py: PureFnCallSignature and PureFnExecutionResultAddr.__init__, 404-447 (PureFn.execute),
    PureFnExecutionResultAddr.get and .execute.
    Simplified: one store (one location) shared by all processes, steps one after the other (Model/FirstEntryConc.v has the
    interleavings), functions of one argument with deterministic bodies, no guards and no errors in bodies; DeepDiff finds a
    difference exactly between different values; result records are kept under the text of the call signature (in the code
    the name of the function is a part of the key as well). *)
From stdpp Require Import gmap.
From Verif Require Import Lib.Py.
Local Open Scope nat_scope.

Section collisions.
  (** [A]: address texts, [V]: values, [F]: functions *)
  Context {A V F : Type} `{EqDecision A, EqDecision V, EqDecision F}.
  (** What is kept in the value store: arguments and results, functions, call signatures (the texts of the function and of the argument). *)
  Inductive item := Data (v : V) | Func (f : F) | Signature (f v : A).
  Global Instance item_eq_dec : EqDecision item.
  Proof. solve_decision. Defined.
  (** [text_of]: prefix and hash signature of an item - any function, different items may have the same text. *)
  Context (text_of : item -> A) (run_body : F -> V -> V).

  Record world := World { values : A -> option item; records : A -> option A }.
  Definition empty : world := World (fun _ => None) (fun _ => None).
  Definition upd {X} (a : A) (x : X) (m : A -> option X) : A -> option X := fun b => if decide (b = a) then Some x else m b.

  (** portal.value_store[self] = data: the first entry stays; whether it is compared with the new value is drawn at random
      ([check]: random() < p_consistency_checks; never by default, as p is 0 then). *)
  Definition store (check : bool) (i : item) (w : world) : world * res A :=
    let t := text_of i in
    match values w t with
    | None => (World (upd t i (values w)) (records w), Ok t)
    | Some j => (w, if check then if decide (j = i) then Ok t else Err AssertionError else Ok t)
    end.
  (** portal.execution_results[output_address] = result_addr, compared if [check] *)
  Definition record (check : bool) (k r : A) (w : world) : world * res unit :=
    match records w k with
    | None => (World (values w) (upd k r (records w)), Ok tt)
    | Some r' => (w, if check then if decide (r' = r) then Ok tt else Err AssertionError else Ok tt)
    end.
  (** portal.value_store[addr] for an address of data *)
  Definition load (t : A) (w : world) : res V := match values w t with Some (Data v) => Ok v | Some _ => Err TypeError | None => Err KeyError end.
  (** PureFnExecutionResultAddr.get of a result that is ready *)
  Definition get (k : A) (w : world) : res V := match records w k with Some r => load r w | None => Err KeyError end.

  (** The random draws of one call: for the argument, the function, the signature and the result, and whether a recorded answer is
      checked by executing again. *)
  Record draws := Draws { d_arg : bool; d_fn : bool; d_sig : bool; d_res : bool; d_again : bool }.

  (** Storing what a call needs; returns the key of its result. *)
  Definition address (d : draws) (f : F) (v : V) (w : world) : world * res A :=
    let '(w1, r1) := store (d_arg d) (Data v) w in
    match r1 with Err e => (w1, Err e) | Ok va =>
    let '(w2, r2) := store (d_fn d) (Func f) w1 in
    match r2 with Err e => (w2, Err e) | Ok fa => store (d_sig d) (Signature fa va) w2 end end.

  (** PureFn.execute: the body gets the argument of this call. *)
  Definition call (d : draws) (f : F) (v : V) (w : world) : world * res V :=
    let '(w1, rk) := address d f v w in
    match rk with Err e => (w1, Err e) | Ok k =>
    match records w1 k with
    | Some _ => if d_again d then
        let r := run_body f v in
        let '(w2, ra) := store (d_res d) (Data r) w1 in
        match ra with Err e => (w2, Err e) | Ok a =>
        let '(w3, ru) := record true k a w2 in (w3, match ru with Ok _ => Ok r | Err e => Err e end) end
      else (w1, get k w1)
    | None =>
        let r := run_body f v in
        let '(w2, ra) := store (d_res d) (Data r) w1 in
        match ra with Err e => (w2, Err e) | Ok a =>
        let '(w3, ru) := record false k a w2 in (w3, match ru with Ok _ => Ok r | Err e => Err e end) end
    end end.

  (** A background worker that executes the request [k]: everything comes from the store. *)
  Definition work (d : draws) (k : A) (w : world) : world * res V :=
    match values w k with
    | Some (Signature fa va) =>
        match values w fa, values w va with
        | Some (Func f), Some (Data v) => call d f v w
        | Some _, Some _ => (w, Err TypeError)
        | _, _ => (w, Err KeyError)
        end
    | Some _ => (w, Err TypeError)
    | None => (w, Err KeyError)
    end.

  (** What the processes do, in any order. *)
  Inductive step := StoreValue (check : bool) (v : V) | Ask (d : draws) (f : F) (v : V) | CallFn (d : draws) (f : F) (v : V) | Work (d : draws) (k : A).
  Definition do_step (s : step) (w : world) : world :=
    match s with
    | StoreValue c v => fst (store c (Data v) w)
    | Ask d f v => fst (address d f v w)
    | CallFn d f v => fst (call d f v w)
    | Work d k => fst (work d k w)
    end.
  Definition run (w : world) (ops : list step) : world := fold_left (fun w s => do_step s w) ops w.
End collisions.
Arguments item : clear implicits.
Arguments step : clear implicits.
Arguments world : clear implicits.
