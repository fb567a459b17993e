(** Model of keyword arguments and result addresses: _070_pure_functions/kw_args.py,
    pure_core_classes.py:273-286 (state of a function), 374-378, 381-401, 404-416, 444-473, 504-521 (call signature),
    549-559 (PureFnExecutionResultAddr.__init__).  Storing is modelled in ValueAddr.v and PureExec.v; here only the
    computed texts matter. *)
From Verif.Lib Require Import Py.
From Coq Require Import Ascii.

(** Python's order on str: lexicographic by code point (8-bit characters here) *)
Fixpoint str_le (a b : string) : bool :=
  match a, b with
  | EmptyString, _ => true
  | String _ _, EmptyString => false
  | String x a', String y b' =>
      if (nat_of_ascii x <? nat_of_ascii y) then true
      else if (nat_of_ascii y <? nat_of_ascii x) then false else str_le a' b'
  end.

(** [for k in sorted(kargs)]: the keys of a dictionary are distinct, so any correct sort gives this list *)
Fixpoint insert_key {X} (k : string) (x : X) (l : list (string * X)) : list (string * X) :=
  match l with
  | [] => [(k, x)]
  | (k', x') :: l' => if str_le k k' then (k, x) :: l else (k', x') :: insert_key k x l'
  end.
Definition sort_keys {X} (l : list (string * X)) : list (string * X) :=
  fold_right (fun '(k, x) acc => insert_key k x acc) [] l.

Section PureAddr.
  (** user data; hash parts of addresses *)
  Context {D : Type}.
  Definition addr : Type := string * string.     (* prefix, hash signature *)

  (** state of a pure function, pure_core_classes.py:273-286 __getstate__ *)
  Record fn_state := FnState {
    fn_name : string; fn_source : string; island_name : string; augmented : string;
    strictly_autonomous : bool; guards : option (list string)
  }.
  (** Everything that gets a value address: user data, packed arguments (lines 33-39 of kw_args.py), functions and
      call signatures (pure_core_classes.py:515-521: names of function and island, addresses of function and arguments) *)
  Inductive value :=
  | VData (d : D)
  | VArgs (l : list (string * addr))
  | VFn (f : fn_state)
  | VSig (name : string) (fn : addr) (island : string) (args : addr).

  (** hash_addresses.py:43-70 for these values ([data_prefix], [hash_of]: see HashAddr.v) *)
  Variable data_prefix : D -> string.
  Variable hash_of : value -> string.
  Definition prefix_of (v : value) : string :=
    match v with
    | VData d => data_prefix d
    | VArgs _ => "sortedkwargs" | VFn _ => "purefn" | VSig _ _ _ _ => "purefncallsignature"
    end%string.
  Definition text_of (v : value) : addr := (prefix_of v, hash_of v).

  (** What a caller may pass as an argument: an ordinary value, a ValueAddr, or a PureFnExecutionResultAddr *)
  Inductive arg := AVal (v : value) | AAddr (a : addr) | AResult (a : addr).

  (** kw_args.py:15-21  SortedKwArgs(kargs) *)
  Definition sorted_kwargs (l : list (string * arg)) : res (list (string * arg)) :=
    if forallb (fun '(_, x) => match x with AVal (VArgs _) => false | _ => true end) l
    then Ok (sort_keys l) else Err AssertionError.

  (** ValueAddr(v): value_addresses.py:36-61; a result address is turned into the address of its call signature,
      pure_core_classes.py:575-581 get_ValueAddr *)
  Definition addr_of_arg (x : arg) : addr :=
    match x with
    | AVal v => text_of v
    | AAddr a => a
    | AResult (_, h) => ("purefncallsignature"%string, h)
    end.
  (** kw_args.py:33-39  pack *)
  Definition pack (l : list (string * arg)) : list (string * addr) := map (fun '(k, x) => (k, addr_of_arg x)) l.
  (** packed arguments are arguments again *)
  Definition as_args (l : list (string * addr)) : list (string * arg) := map (fun '(k, a) => (k, AAddr a)) l.

  (** kw_args.py:23-31  unpack; [resolve] is ValueAddr.get *)
  Fixpoint unpack (resolve : addr -> res value) (l : list (string * arg)) : res (list (string * arg)) :=
    match l with
    | [] => Ok []
    | (k, AAddr a) :: l' => let? v := resolve a in let? l2 := unpack resolve l' in Ok ((k, AVal v) :: l2)
    | (k, x) :: l' => let? l2 := unpack resolve l' in Ok ((k, x) :: l2)
    end.

  (** pure_core_classes.py:504-513  PureFnCallSignature(a_fn, arguments) *)
  Definition call_signature (f : fn_state) (arguments : list (string * arg)) : value :=
    VSig (fn_name f) (text_of (VFn f)) (island_name f) (text_of (VArgs (pack arguments))).
  (** pure_core_classes.py:549-559  PureFnExecutionResultAddr(a_fn, arguments) *)
  Definition result_addr (f : fn_state) (arguments : list (string * arg)) : res addr :=
    let? args := sorted_kwargs arguments in
    let new_prefix := (fn_name f ++ "_" ++ island_name f)%string in
    Ok (new_prefix, snd (text_of (call_signature f args))).

  (** lines 374-378  get_address *)
  Definition get_address (f : fn_state) (kwargs : list (string * arg)) : res addr :=
    let? s := sorted_kwargs kwargs in result_addr f (as_args (pack s)).
  (** lines 381-390, 392-401: swarm and run start with get_address *)
  Definition swarm_address := get_address.
  Definition run_address := get_address.
  (** lines 413-416: the address computed by a call f(kwargs) *)
  Definition call_address (f : fn_state) (kwargs : list (string * arg)) : res addr :=
    let? s := sorted_kwargs kwargs in result_addr f (as_args (pack s)).
  (** lines 444-461 and 463-473: one element of swarm_list / run_list: the raw arguments go to the constructor *)
  Definition list_address := result_addr.
End PureAddr.
Arguments value : clear implicits.
Arguments arg : clear implicits.
