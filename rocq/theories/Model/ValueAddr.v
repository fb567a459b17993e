(** Model of value addresses: _030_data_portals/value_addresses.py, hash_addresses.py:73-89 (from_strings),
    with the value stores of _030_data_portals/data_portals.py:35-53.

    The portal registry and stack are taken in the form justified by C05, C06, C09 and C10: the list of open 'with's
    (innermost first) and the list of known portals in creation order.  A 'with p:' block is a push and a pop; it is
    written out only where the code inside looks at the stack.  Simplified: every portal is a DataPortal (otherwise
    get_noncurrent_portals raises AssertionError), no portal is cleared, storage operations do not fail, and crash
    records written by portal exits are not part of this model (see Logging.v). *)
From Verif.Lib Require Import Py.

Section ValueAddr.
  (** address texts (prefix and hash signature), values, and the address text of a value (HashAddr.v) *)
  Context {A V : Type} `{EqDecision A} (text_of : V -> A).

  (** A ValueAddr object: its strings, [_portal], [_ready] (only ever set to True) and [_value]. *)
  Record vaddr := VAddr { va_text : A; va_portal : option nat; va_ready : bool; va_value : option V }.

  (** [places !! p]: the storage location of portal number p (portals are numbered in creation order, so all numbers
      below [length places] are the known portals).  Two portals may share a location. *)
  Record world := World {
    open : list nat;
    places : list nat;
    stores : nat -> dict A V;      (* value_store at each location *)
    objs : list vaddr              (* all address objects ever created *)
  }.
  Definition default_location : nat := 0.
  Definition init_world (stores0 : nat -> dict A V) : world := World [] [] stores0 [].

  Definition known (w : world) : list nat := seq 0 (length (places w)).
  Definition current (w : world) : option nat := head (open w).
  Definition place (w : world) (p : nat) : nat := nth p (places w) default_location.
  Definition store_of (w : world) (p : nat) : dict A V := stores w (place w p).

  (** foundation.py:175-192  get_noncurrent_portals *)
  Definition noncurrent (w : world) : list nat := filter (fun p => Some p <> current w) (known w).

  (** foundation.py:160-172  get_best_portal_to_use; the default local portal is created when no portal is known *)
  Definition best (suggested : option nat) (w : world) : world * nat :=
    match suggested with
    | Some p => (w, p)
    | None =>
        match current w with
        | Some p => (w, p)
        | None =>
            match length (places w) with
            | S n => (w, n)
            | O => (World (open w) [default_location] (stores w) (objs w), 0)
            end
        end
    end.

  Definition with_open (o : list nat) (w : world) : world := World o (places w) (stores w) (objs w).
  Definition set_obj (i : nat) (a : vaddr) (w : world) : world := World (open w) (places w) (stores w) (<[i := a]> (objs w)).
  Definition add_obj (a : vaddr) (w : world) : world * nat := (World (open w) (places w) (stores w) (objs w ++ [a]), length (objs w)).

  (** [portal.value_store[self] = data]: FirstEntryDict (C13): the first value stays.  Its consistency check cannot
      fail here, because equal addresses belong to equal values (C18). *)
  Definition put (p : nat) (a : A) (v : V) (w : world) : world :=
    let l := place w p in
    if dict_mem a (stores w l) then w
    else World (open w) (places w) (fun l' => if decide (l' = l) then dict_set a v (stores w l) else stores w l') (objs w).

  (** first portal of the list whose store has the address, with the value *)
  Fixpoint find_in (ps : list nat) (a : A) (w : world) : option (nat * V) :=
    match ps with
    | [] => None
    | p :: ps' => match dict_get a (store_of w p) with Some v => Some (p, v) | None => find_in ps' a w end
    end.

  (** value_addresses.py:76-84 and 87-97, 99-111  ready *)
  Definition ready (i : nat) (w : world) : world * res bool :=
    match objs w !! i with
    | None => (w, Err AttributeError)
    | Some o =>
        if va_ready o then (w, Ok true)
        else match va_portal o with
        | None => (w, Err AttributeError)              (* self.portal.value_store with portal None *)
        | Some p =>
            if dict_mem (va_text o) (store_of w p)
            then (set_obj i (VAddr (va_text o) (Some p) true (va_value o)) w, Ok true)
            else match find_in (noncurrent w) (va_text o) w with
                 | Some (_, v) =>
                     (set_obj i (VAddr (va_text o) (Some p) true (va_value o)) (put p (va_text o) v w), Ok true)
                 | None => (w, Ok false)
                 end
        end
    end.

  (** value_addresses.py:114-153  get: the cached value, else the address's own portal, else the non-current portals.
      Without a portal both 'with self.portal' raise, which is caught; KeyError at the end. *)
  Definition get (i : nat) (w : world) : world * res V :=
    match objs w !! i with
    | None => (w, Err AttributeError)
    | Some o =>
        match va_value o with
        | Some v => (w, Ok v)
        | None =>
            match va_portal o with
            | None => (w, Err KeyError)
            | Some p =>
                match dict_get (va_text o) (store_of w p) with
                | Some v => (set_obj i (VAddr (va_text o) (Some p) (va_ready o) (Some v)) w, Ok v)
                | None =>
                    match find_in (noncurrent w) (va_text o) w with
                    | Some (_, v) =>
                        (set_obj i (VAddr (va_text o) (Some p) (va_ready o) (Some v)) (put p (va_text o) v w), Ok v)
                    | None => (w, Err KeyError)
                    end
                end
            end
        end
    end.

  (** value_addresses.py:51-61: ValueAddr(data) for an ordinary value *)
  Definition new_of_value (v : V) (suggested : option nat) (w : world) : world * res nat :=
    let '(w1, p) := best suggested w in
    let w2 := put p (text_of v) v w1 in
    let '(w3, i) := add_obj (VAddr (text_of v) (Some p) true (Some v)) w2 in (w3, Ok i).

  (** value_addresses.py:37-49: ValueAddr(data) for data that is an address itself (object number j) *)
  Definition new_of_addr (j : nat) (suggested : option nat) (w : world) : world * res nat :=
    match objs w !! j with
    | None => (w, Err AttributeError)
    | Some o =>
        let '(w1, p) := best suggested w in
        if bool_decide (Some p <> va_portal o) && negb (dict_mem (va_text o) (store_of w1 p)) then
          (* line 45, inside 'with portal' *)
          let '(w2, r) := get j (with_open (p :: open w1) w1) in
          let w3 := with_open (open w1) w2 in
          match r with
          | Err e => (w3, Err e)
          | Ok v => let '(w4, i) := add_obj (VAddr (va_text o) (Some p) true None) (put p (va_text o) v w3) in (w4, Ok i)
          end
        else let '(w2, i) := add_obj (VAddr (va_text o) (Some p) true None) w1 in (w2, Ok i)
    end.

  (** hash_addresses.py:73-89  from_strings *)
  Definition from_strings (a : A) (assert_readiness : bool) (suggested : option nat) (w : world) : world * res nat :=
    let '(w1, p) := best suggested w in
    let '(w2, i) := add_obj (VAddr a (Some p) false None) w1 in
    if assert_readiness then
      match ready i w2 with
      | (w3, Ok true) => (w3, Ok i)
      | (w3, Ok false) => (w3, Err AssertionError)
      | (w3, Err e) => (w3, Err e)
      end
    else (w2, Ok i).

  (** value_addresses.py:174-180  __copy__ *)
  Definition copy (i : nat) (w : world) : world * res nat :=
    match objs w !! i with
    | None => (w, Err AttributeError)
    | Some o => from_strings (va_text o) false (va_portal o) w
    end.

  (** value_addresses.py:165-172  __getstate__, then __setstate__ of a new object *)
  Definition unpickle (i : nat) (w : world) : world * res nat :=
    match objs w !! i with
    | None => (w, Err AttributeError)
    | Some o => let '(w1, j) := add_obj (VAddr (va_text o) (current w) false None) w in (w1, Ok j)
    end.

  (** value_addresses.py:63-67  _invalidate_cache *)
  Definition invalidate (i : nat) (w : world) : world * res unit :=
    match objs w !! i with
    | None => (w, Err AttributeError)
    | Some o => (set_obj i (VAddr (va_text o) (va_portal o) false None) w, Ok tt)
    end.

  (** ** Histories.  [OExternal l v]: another process stores a value at location l (it uses the same library). *)
  Inductive op :=
  | ONewPortal (l : nat) | OEnter (p : nat) | OExit
  | OValue (v : V) (suggested : option nat) | OAddr (j : nat) (suggested : option nat)
  | OStrings (a : A) (assert_readiness : bool) (suggested : option nat)
  | OReady (i : nat) | OGet (i : nat) | OCopy (i : nat) | OUnpickle (i : nat) | OInvalidate (i : nat)
  | OExternal (l : nat) (v : V).

  Definition portal_exists (w : world) (p : nat) : bool := p <? length (places w).
  Definition opt_portal_exists (w : world) (s : option nat) : bool :=
    match s with Some p => portal_exists w p | None => true end.

  (** Calls that mention portals that do not exist have no meaning and are skipped. *)
  Definition step (w : world) (o : op) : world :=
    match o with
    | ONewPortal l => World (open w) (places w ++ [l]) (stores w) (objs w)
    | OEnter p => if portal_exists w p then with_open (p :: open w) w else w
    | OExit => with_open (tail (open w)) w
    | OValue v s => if opt_portal_exists w s then fst (new_of_value v s w) else w
    | OAddr j s => if opt_portal_exists w s then fst (new_of_addr j s w) else w
    | OStrings a b s => if opt_portal_exists w s then fst (from_strings a b s w) else w
    | OReady i => fst (ready i w)
    | OGet i => fst (get i w)
    | OCopy i => fst (copy i w)
    | OUnpickle i => fst (unpickle i w)
    | OInvalidate i => fst (invalidate i w)
    | OExternal l v =>
        if dict_mem (text_of v) (stores w l) then w
        else World (open w) (places w) (fun l' => if decide (l' = l) then dict_set (text_of v) v (stores w l) else stores w l') (objs w)
    end.
  Definition run (w : world) (h : list op) : world := fold_left step h w.

  (** hash_addresses.py:106-112  __eq__, __ne__: [kind] is type(self) *)
  Record address := Address { kind : nat; str_chain : list string; bound : option nat; cached : option V }.
  Definition addr_eq (a b : address) : bool := bool_decide (kind a = kind b) && bool_decide (str_chain a = str_chain b).
  Definition addr_ne (a b : address) : bool := negb (addr_eq a b).
End ValueAddr.
Arguments vaddr : clear implicits.
Arguments world : clear implicits.
Arguments op : clear implicits.
Arguments address : clear implicits.
