(** Model of which Python objects are shared between the caller, the addresses of _030_data_portals/value_addresses.py and the calls of
    _070_pure_functions (pure_core_classes.py, kw_args.py).

    Other models treat values as values.  Here a value that a program holds is a mutable object: a place of [heap] with its present
    contents.  What a store holds are contents (pickled), and loading makes a new object.

    Simplifications: all portals have stores of their own and are known from the beginning; functions have one argument and no
    guards; the function objects and call signatures that are stored too (pure_core_classes.py:504-513), requests and logs
    are left out; no consistency checks.  AttributeError stands for naming an object that does not exist. *)
From Verif.Lib Require Import Py.
Local Open Scope nat_scope.

Section Aliasing.
  (** contents, their hash texts (hash_addresses.py:43-70) *)
  Context {A V : Type} `{EqDecision A}.
  Variable text_of : V -> A.
  (** body f v: what the body of function f does to an argument with contents v: the contents of the argument afterwards, and the
      contents of the answer; [None]: it returns the argument itself. *)
  Variable body : nat -> V -> V * option V.
  (** number of portals *)
  Variable nportals : nat.

  (** a ValueAddr: its text, its portal and the object kept in _value *)
  Record vaddr := VAddr { va_text : A; va_portal : nat; va_value : option nat }.
  (** a PureFnExecutionResultAddr: function and text of the argument (which determine its text), portal, object kept in _result *)
  Record raddr := RAddr { ra_fn : nat; ra_arg : A; ra_portal : nat; ra_result : option nat }.
  Record state := State {
    heap : list V;                              (* objects that the program holds *)
    stores : nat -> A -> option V;              (* portal.value_store *)
    results : nat -> nat * A -> option A;       (* portal.execution_results *)
    vaddrs : list vaddr;
    raddrs : list raddr
  }.
  Definition start : state := State [] (fun _ _ => None) (fun _ _ => None) [] [].

  (** a new object *)
  Definition load (v : V) (s : state) : state * nat :=
    (State (heap s ++ [v]) (stores s) (results s) (vaddrs s) (raddrs s), length (heap s)).
  Definition set_obj (o : nat) (v : V) (s : state) : state := State (<[o := v]> (heap s)) (stores s) (results s) (vaddrs s) (raddrs s).
  Definition add_vaddr (a : vaddr) (s : state) : state * nat :=
    (State (heap s) (stores s) (results s) (vaddrs s ++ [a]) (raddrs s), length (vaddrs s)).
  Definition set_vaddr (i : nat) (a : vaddr) (s : state) : state := State (heap s) (stores s) (results s) (<[i := a]> (vaddrs s)) (raddrs s).
  Definition set_raddr (i : nat) (r : raddr) (s : state) : state := State (heap s) (stores s) (results s) (vaddrs s) (<[i := r]> (raddrs s)).
  (** portal.value_store[address] = data: FirstEntryDict (first_entry_dict.py:31-50), pickled *)
  Definition put (p : nat) (t : A) (v : V) (s : state) : state :=
    match stores s p t with
    | Some _ => s
    | None => State (heap s) (fun q u => if decide (q = p /\ u = t) then Some v else stores s q u) (results s) (vaddrs s) (raddrs s)
    end.
  Definition put_result (p : nat) (k : nat * A) (t : A) (s : state) : state :=
    match results s p k with
    | Some _ => s
    | None => State (heap s) (stores s) (fun q l => if decide (q = p /\ l = k) then Some t else results s q l) (vaddrs s) (raddrs s)
    end.
  (** foundation.py:175-192 get_noncurrent_portals, inside [with portal cur] or outside of all blocks *)
  Definition noncurrent (cur : option nat) : list nat := filter (fun q => Some q <> cur) (seq 0 nportals).

  (** value_addresses.py:140-153 get, 114-123 get_from_current_portal, 126-137 get_from_noncurrent_portals *)
  Definition get (i : nat) (cur : option nat) (s : state) : state * res nat :=
    match vaddrs s !! i with
    | None => (s, Err AttributeError)
    | Some a =>
        match va_value a with
        | Some o => (s, Ok o)
        | None =>
            match stores s (va_portal a) (va_text a) with
            | Some v => let '(s1, o) := load v s in (set_vaddr i (VAddr (va_text a) (va_portal a) (Some o)) s1, Ok o)
            | None =>
                match list_find (fun q => is_Some (stores s q (va_text a))) (noncurrent cur) with
                | Some (_, q) =>
                    match stores s q (va_text a) with
                    | Some v => let '(s1, o) := load v s in
                                (set_vaddr i (VAddr (va_text a) (va_portal a) (Some o)) (put (va_portal a) (va_text a) v s1), Ok o)
                    | None => (s, Err KeyError)
                    end
                | None => (s, Err KeyError)
                end
            end
        end
    end.

  (** value_addresses.py:51-65: ValueAddr(data, portal) for data without get_ValueAddr: lines 54-65 *)
  Definition store (o p : nat) (s : state) : state * res nat :=
    match heap s !! o with
    | None => (s, Err AttributeError)
    | Some v => let '(s1, i) := add_vaddr (VAddr (text_of v) p (Some o)) s in (put p (text_of v) v s1, Ok i)
    end.
  (** value_addresses.py:36-47: ValueAddr(address, portal): the new address keeps no object; a portal that is not the address's own
      and does not have the value gets what address.get() returns *)
  Definition readdress (i p : nat) (s : state) : state * res nat :=
    match vaddrs s !! i with
    | None => (s, Err AttributeError)
    | Some a =>
        if decide (p <> va_portal a /\ stores s p (va_text a) = None) then
          match get i (Some p) s with
          | (s1, Ok o) =>
              match heap s1 !! o with
              | Some v => let '(s2, j) := add_vaddr (VAddr (va_text a) p None) s1 in (put p (va_text a) v s2, Ok j)
              | None => (s1, Err AttributeError)
              end
          | (s1, Err e) => (s1, Err e)
          end
        else let '(s1, j) := add_vaddr (VAddr (va_text a) p None) s in (s1, Ok j)
    end.
  (** value_addresses.py:163-179: a copy of an address, or one restored from a pickle in portal p; 66-70: _invalidate_cache *)
  Definition restore (i p : nat) (s : state) : state * res nat :=
    match vaddrs s !! i with
    | None => (s, Err AttributeError)
    | Some a => let '(s1, j) := add_vaddr (VAddr (va_text a) p None) s in (s1, Ok j)
    end.
  Definition forget (i : nat) (s : state) : state :=
    match vaddrs s !! i with
    | None => s
    | Some a => set_vaddr i (VAddr (va_text a) (va_portal a) None) s
    end.

  (** An argument of a call: an object or an address *)
  Inductive arg := Obj (o : nat) | Addr (i : nat).
  (** kw_args.py:35-41 pack: ValueAddr(v) for every value *)
  Definition pack (x : arg) (p : nat) (s : state) : state * res nat :=
    match x with Obj o => store o p s | Addr i => readdress i p s end.
  (** pure_core_classes.py:624-634 ready, 596-621: the result is in the portal, or is copied from the first other one that has it.
      (No call is marked ready here before it is: _ready is set only by these lines.) *)
  Definition ready (p : nat) (k : nat * A) (s : state) : state * res bool :=
    match results s p k with
    | Some _ => (s, Ok true)
    | None =>
        match list_find (fun q => is_Some (results s q k)) (noncurrent (Some p)) with
        | Some (_, q) =>
            match results s q k with
            | Some t =>
                match stores s q t with
                | Some v => (put_result p k (text_of v) (put p (text_of v) v s), Ok true)
                | None => (s, Err KeyError)
                end
            | None => (s, Ok false)
            end
        | None => (s, Ok false)
        end
    end.
  (** pure_core_classes.py:690-694: the stored answer *)
  Definition load_result (p : nat) (k : nat * A) (s : state) : state * res nat :=
    match results s p k with
    | Some t => match stores s p t with
                | Some v => let '(s1, o) := load v s in (s1, Ok o)
                | None => (s, Err KeyError)
                end
    | None => (s, Err KeyError)
    end.
  (** pure_core_classes.py:404-442 PureFn.execute in portal p with the packed argument i: lines 419-423, 428-442.  The argument
      of the body is what the packed address returns (kw_args.py:24-32 unpack): the object itself if the address keeps it. *)
  Definition execute (f i p : nat) (s : state) : state * res nat :=
    match vaddrs s !! i with
    | None => (s, Err AttributeError)
    | Some a =>
        let k := (f, va_text a) in
        match ready p k s with
        | (s1, Err e) => (s1, Err e)
        | (s1, Ok true) => load_result p k s1
        | (s1, Ok false) =>
            match get i (Some p) s1 with
            | (s2, Err e) => (s2, Err e)
            | (s2, Ok o) =>
                match heap s2 !! o with
                | None => (s2, Err AttributeError)
                | Some v =>
                    let '(v', answer) := body f v in
                    let s3 := set_obj o v' s2 in
                    let '(s4, r) := match answer with None => (s3, o) | Some w => load w s3 end in
                    match heap s4 !! r with
                    | None => (s4, Err AttributeError)
                    | Some w => (put_result p k (text_of w) (put p (text_of w) w s4), Ok r)
                    end
                end
            end
        end
    end.
  (** f(x=...) inside [with portal p]: lines 413-415 *)
  Definition call (f : nat) (x : arg) (p : nat) (s : state) : state * res nat :=
    match pack x p s with
    | (s1, Err e) => (s1, Err e)
    | (s1, Ok i) => execute f i p s1
    end.
  (** lines 367-371 get_address *)
  Definition get_address (f : nat) (x : arg) (p : nat) (s : state) : state * res nat :=
    match pack x p s with
    | (s1, Err e) => (s1, Err e)
    | (s1, Ok i) =>
        match vaddrs s1 !! i with
        | None => (s1, Err AttributeError)
        | Some a => (State (heap s1) (stores s1) (results s1) (vaddrs s1) (raddrs s1 ++ [RAddr f (va_text a) p None]), Ok (length (raddrs s1)))
        end
    end.
  (** lines 386-402 run: get_address, then address.execute() (lines 637-645), which calls the function with the packed arguments: they are
      packed again, and an address of an address keeps no object *)
  Definition run (f : nat) (x : arg) (p : nat) (s : state) : state * res nat :=
    match pack x p s with
    | (s1, Err e) => (s1, Err e)
    | (s1, Ok i) =>
        match vaddrs s1 !! i with
        | None => (s1, Err AttributeError)
        | Some a =>
            let r := length (raddrs s1) in
            let s2 := State (heap s1) (stores s1) (results s1) (vaddrs s1) (raddrs s1 ++ [RAddr f (va_text a) p None]) in
            match call f (Addr i) p s2 with
            | (s3, Err e) => (s3, Err e)
            | (s3, Ok o) => (set_raddr r (RAddr f (va_text a) p (Some o)) s3, Ok r)
            end
        end
    end.
  (** lines 671-694 address.get() of a result address; a result that is not ready is waited for (C49): here TimeoutError *)
  Definition get_result (r : nat) (s : state) : state * res nat :=
    match raddrs s !! r with
    | None => (s, Err AttributeError)
    | Some a =>
        match ra_result a with
        | Some o => (s, Ok o)
        | None =>
            match ready (ra_portal a) (ra_fn a, ra_arg a) s with
            | (s1, Err e) => (s1, Err e)
            | (s1, Ok false) => (s1, Err TimeoutError)
            | (s1, Ok true) =>
                match load_result (ra_portal a) (ra_fn a, ra_arg a) s1 with
                | (s2, Ok o) => (set_raddr r (RAddr (ra_fn a) (ra_arg a) (ra_portal a) (Some o)) s2, Ok o)
                | (s2, Err e) => (s2, Err e)
                end
            end
        end
    end.

  (** What programs do; creating an object and changing an object are plain Python. *)
  Inductive op :=
  | New (v : V) | Change (o : nat) (v : V)
  | Store (o p : nat) | Readdress (i p : nat) | Restore (i p : nat) | Forget (i : nat) | Get (i : nat) (cur : option nat)
  | Call (f : nat) (x : arg) (p : nat) | GetAddress (f : nat) (x : arg) (p : nat) | Run (f : nat) (x : arg) (p : nat) | GetResult (r : nat).
  Definition step (s : state) (e : op) : state * res nat :=
    match e with
    | New v => let '(s1, o) := load v s in (s1, Ok o)
    | Change o v => (set_obj o v s, Ok o)
    | Store o p => store o p s
    | Readdress i p => readdress i p s
    | Restore i p => restore i p s
    | Forget i => (forget i s, Ok i)
    | Get i cur => get i cur s
    | Call f x p => call f x p s
    | GetAddress f x p => get_address f x p s
    | Run f x p => run f x p s
    | GetResult r => get_result r s
    end.
  Definition steps (s : state) (h : list op) : state := fold_left (fun s e => fst (step s e)) h s.
End Aliasing.
