(** Model of calls of pure functions with several arguments some of which may be one and the same mutable object:
    _070_pure_functions/pure_core_classes.py:386-442 (PureFn.run, execute), 637-645 (address.execute), kw_args.py:24-41 (unpack, pack).

    An argument is packed to the address of its contents, so the key of a call (kw_args.py:35-41, pure_core_classes.py:413-415) depends on the
    contents of the arguments only.  But the packed arguments of f(x=l, y=l) keep the object l twice (value_addresses.py:51-65), and
    unpack hands it to the body twice; addresses that keep no object (of a worker or of [run], where arguments are packed again)
    are loaded one by one (value_addresses.py:114-123).

    Simplifications: one portal; no guards; no consistency checks; stored values are never lost and the contents of an answer are kept with
    the result (Aliasing.v has portals and stores); the answer is a new object (Aliasing.v has bodies that return an argument);
    parameters are given in the order of their names (SortedKwArgs, C23). *)
From Verif.Lib Require Import Py.
Local Open Scope nat_scope.

Section Sharing.
  Context {A V : Type} `{EqDecision A}.
  Variable text_of : V -> A.
  (** body f p vs: the body of function f, called with objects with contents vs; p says for each argument at which position its object
      occurs first.  Result: the contents afterwards of the object that occurs first at a position, and the contents of the answer. *)
  Variable body : nat -> list nat -> list V -> (nat -> V) * V.

  Record state := State { heap : list V; results : nat * list A -> option V }.
  Definition start : state := State [] (fun _ => None).
  (** an argument: an object of the caller, or an address that keeps no object, of contents v *)
  Inductive arg := Obj (o : nat) | Addr (v : V).
  Definition contents (h : list V) (x : arg) : option V := match x with Obj o => h !! o | Addr v => Some v end.
  (** the position at which an object occurs first *)
  Definition position (o : nat) (os : list nat) : nat := match list_find (fun q => q = o) os with Some (i, _) => i | None => 0 end.
  Definition places (os : list nat) : list nat := map (fun o => position o os) os.

  (** kw_args.py:24-32  unpack: the objects of the arguments, and the heap with those that were loaded *)
  Fixpoint unpack (args : list arg) (h : list V) : list nat * list V :=
    match args with
    | [] => ([], h)
    | Obj o :: l => let '(os, h') := unpack l h in (o :: os, h')
    | Addr v :: l => let '(os, h') := unpack l (h ++ [v]) in (length h :: os, h')
    end.
  (** what the body did to its arguments *)
  Definition write (os : list nat) (after : nat -> V) (h : list V) : list V :=
    foldr (fun o h => <[o := after (position o os)]> h) h os.

  (** pure_core_classes.py:404-442  f(...): the answer is a new object *)
  Definition call (f : nat) (args : list arg) (s : state) : state * res nat :=
    match mapM (contents (heap s)) args with
    | None => (s, Err AttributeError)
    | Some vs =>
        let k := (f, map text_of vs) in
        match results s k with
        | Some w => (State (heap s ++ [w]) (results s), Ok (length (heap s)))
        | None =>
            let '(os, h1) := unpack args (heap s) in
            let '(after, w) := body f (places os) vs in
            let h2 := write os after h1 in
            (State (h2 ++ [w]) (fun l => if decide (l = k) then Some w else results s l), Ok (length h2))
        end
    end.
  (** 386-402, 637-645  f.run(...) or a worker: the arguments are packed, and packed again *)
  Definition run (f : nat) (args : list arg) (s : state) : state * res nat :=
    match mapM (contents (heap s)) args with
    | None => (s, Err AttributeError)
    | Some vs => call f (map Addr vs) s
    end.

  Inductive op := New (v : V) | Change (o : nat) (v : V) | Call (f : nat) (args : list arg) | Run (f : nat) (args : list arg).
  Definition step (s : state) (e : op) : state :=
    match e with
    | New v => State (heap s ++ [v]) (results s)
    | Change o v => State (<[o := v]> (heap s)) (results s)
    | Call f args => fst (call f args s)
    | Run f args => fst (run f args s)
    end.
  Definition steps (s : state) (h : list op) : state := fold_left step h s.
End Sharing.
