(** Model of the execution of pure functions: _070_pure_functions/pure_core_classes.py:188-200 (guards), 374-473 (calls),
    549-559, 595-692, 720-790 (result addresses), 918-991 (execution frames), and one round of
    _090_swarming_portals/swarming_portals.py:198-226.

    A piece of code becomes a tree of accesses to shared storage (and to a few local sources: random numbers, run ids,
    the checking probability of a results store), in program order.  Running a tree alone gives the sequential meaning;
    interleaving trees gives the concurrent one; stopping anywhere is a crash.

    Simplified: caches in address objects ([_value], [_ready], [_result]) only save storage accesses and are left out,
    so an address object is its text, together with [_arguments] where they are set; addresses passed as arguments are
    bound to the portal of the called function; the output text, tracebacks and the two source texts of run_history are
    left out (Output.v, Logging.v); crash logging is in Logging.v; portal entering and leaving is in Portals.v: inside
    a call the function's portal is the current one.  Names of the functions a body may call, and guards, resolve to
    fixed functions (Registry.v), all bound to the caller's portal. *)
From Verif.Lib Require Import Py.
From Verif.Model Require Import PureAddr.
From Coq Require Import QArith.
From stdpp Require Import gmap.
Local Open Scope nat_scope.

Section PureExec.
  Context {D : Type} (data_prefix : D -> string) (hash_of : value D -> string).
  Notation value := (value D).
  Notation arg := (arg D).
  Notation kwargs := (list (string * arg)).
  Notation text_of := (text_of data_prefix hash_of).
  Notation addr_of_arg := (addr_of_arg data_prefix hash_of).
  Notation pack := (pack data_prefix hash_of).

  (** ** Shared storage *)
  (** run_history entries: an attempt (json), a result (pkl), an output (txt) of a run of the call with this address *)
  Inductive hrec := HAttempt (a : addr) (run : nat) | HResult (a : addr) (run : nat) (b : addr) | HOutput (a : addr) (run : nat).
  (** value_store, execution_results, execution_requests and run_history at one location *)
  Record store := Store { vals : gmap addr value; ress : gmap addr addr; reqs : gset addr; hist : list hrec }.
  Definition state := nat -> store.
  Definition empty_store : store := Store ∅ ∅ ∅ [].
  Definition upd (l : nat) (s : store) (σ : state) : state := fun l' => if decide (l' = l) then s else σ l'.

  (** Accesses.  Each is atomic. *)
  Inductive event :=
  | EHasVal (l : nat) (b : addr) | EGetVal (l : nat) (b : addr) | EWriteVal (l : nat) (b : addr) (v : value)
  | EHasRes (l : nat) (a : addr) | EGetRes (l : nat) (a : addr) | EWriteRes (l : nat) (a b : addr)
  | EHasReq (l : nat) (a : addr) | EWriteReq (l : nat) (a : addr) | EDelReq (l : nat) (a : addr)
  | EHist (l : nat) (h : hrec)
  | ERand | ERun
  | EGetP (p : nat) | ESetP (p : nat) (x : option Q).    (* portal.execution_results._p_consistency_checks *)
  Definition ans (e : event) : Type :=
    match e with
    | EHasVal _ _ | EHasRes _ _ | EHasReq _ _ => bool
    | EGetVal _ _ => option value
    | EGetRes _ _ => option addr
    | ERand => Q
    | ERun => nat
    | EGetP _ => option Q
    | EWriteVal _ _ _ | EWriteRes _ _ _ | EWriteReq _ _ | EDelReq _ _ | EHist _ _ | ESetP _ _ => unit
    end.

  (** What belongs to one process: probabilities and sources of randomness ([rnd n]: the n-th number drawn; [rid n]: the
      n-th run id). *)
  Record local := Local { lp : nat -> option Q; rnd : nat -> Q; nrnd : nat; rid : nat -> nat; nrid : nat }.

  Definition set_vals (f : gmap addr value -> gmap addr value) (s : store) := Store (f (vals s)) (ress s) (reqs s) (hist s).
  Definition set_ress (f : gmap addr addr -> gmap addr addr) (s : store) := Store (vals s) (f (ress s)) (reqs s) (hist s).
  Definition set_reqs (f : gset addr -> gset addr) (s : store) := Store (vals s) (ress s) (f (reqs s)) (hist s).
  Definition add_hist (h : hrec) (s : store) := Store (vals s) (ress s) (reqs s) (hist s ++ [h]).

  Definition perform (e : event) (σ : state) (μ : local) : state * local * ans e :=
    match e return state * local * ans e with
    | EHasVal l b => (σ, μ, bool_decide (is_Some (vals (σ l) !! b)))
    | EGetVal l b => (σ, μ, vals (σ l) !! b)
    | EWriteVal l b v => (upd l (set_vals <[b := v]> (σ l)) σ, μ, tt)
    | EHasRes l a => (σ, μ, bool_decide (is_Some (ress (σ l) !! a)))
    | EGetRes l a => (σ, μ, ress (σ l) !! a)
    | EWriteRes l a b => (upd l (set_ress <[a := b]> (σ l)) σ, μ, tt)
    | EHasReq l a => (σ, μ, bool_decide (a ∈ reqs (σ l)))
    | EWriteReq l a => (upd l (set_reqs (fun r => r ∪ {[a]}) (σ l)) σ, μ, tt)
    | EDelReq l a => (upd l (set_reqs (fun r => r ∖ {[a]}) (σ l)) σ, μ, tt)
    | EHist l h => (upd l (add_hist h (σ l)) σ, μ, tt)
    | ERand => (σ, Local (lp μ) (rnd μ) (S (nrnd μ)) (rid μ) (nrid μ), rnd μ (nrnd μ))
    | ERun => (σ, Local (lp μ) (rnd μ) (nrnd μ) (rid μ) (S (nrid μ)), rid μ (nrid μ))
    | EGetP p => (σ, μ, lp μ p)
    | ESetP p x => (σ, Local (fun q => if decide (q = p) then x else lp μ q) (rnd μ) (nrnd μ) (rid μ) (nrid μ), tt)
    end.

  (** ** Trees of accesses *)
  Inductive tree (X : Type) := Done (x : X) | Step (e : event) (k : ans e -> tree X).
  Global Arguments Done {X} x.
  Global Arguments Step {X} e k.
  Fixpoint tbind {X Y} (t : tree X) (f : X -> tree Y) : tree Y :=
    match t with Done x => f x | Step e k => Step e (fun a => tbind (k a) f) end.

  Fixpoint run {X} (t : tree X) (σ : state) (μ : local) : state * local * X :=
    match t with
    | Done x => (σ, μ, x)
    | Step e k => let '(σ1, μ1, a) := perform e σ μ in run (k a) σ1 μ1
    end.
  (** the first n accesses; what is left of the tree *)
  Fixpoint run_n {X} (n : nat) (t : tree X) (σ : state) (μ : local) : state * local * tree X :=
    match n, t with
    | S n', Step e k => let '(σ1, μ1, a) := perform e σ μ in run_n n' (k a) σ1 μ1
    | _, _ => (σ, μ, t)
    end.

  (** Outcomes: [None] is an exhausted fuel (never caught), [Some (Err e)] a Python exception. *)
  Definition M (X : Type) := tree (option (res X)).
  Definition pret {X} (x : X) : M X := Done (Some (Ok x)).
  Definition pfail {X} (e : exn) : M X := Done (Some (Err e)).
  Definition pbind {X Y} (m : M X) (f : X -> M Y) : M Y :=
    tbind m (fun r => match r with Some (Ok x) => f x | Some (Err e) => Done (Some (Err e)) | None => Done None end).
  (** [try: m]; the outcome as a value *)
  Definition mtry {X} (m : M X) : M (res X) :=
    tbind m (fun r => match r with Some x => Done (Some (Ok x)) | None => Done None end).
  Definition mres {X} (r : res X) : M X := Done (Some r).
  Definition acc (e : event) : M (ans e) := Step e (fun a => Done (Some (Ok a))).
  Notation "x <- m ;; k" := (pbind m (fun x => k)) (at level 100, m at next level, k at level 200, right associativity).
  Notation "m ;; k" := (pbind m (fun _ => k)) (at level 100, k at level 200, right associativity).

  Definition massert (b : bool) : M unit := if b then pret tt else pfail AssertionError.

  (** ** Python functions, guards *)
  (** What a function body does: return, raise, look outside, call or swarm another pure function and go on with the outcome
      (including a raised exception, so [try/except] is covered). *)
  Inductive prog :=
  | Ret (x : arg)
  | Raise (e : exn)
  | Call (f : fn_state) (kw : kwargs) (k : res arg -> prog)
  | Swarm (f : fn_state) (kw : kwargs) (k : res arg -> prog)
  | Look (k : Q -> prog).     (* it looks at something outside: a random number, the clock, a file, ...; what it sees is
                                 given by the same source as random numbers *)
  (** A guard is a pure function or an autonomous one (which sees the arguments as passed) *)
  Inductive guard_fn := GPure (f : fn_state) | GAuto (g : kwargs -> prog).
  Variable body : fn_state -> kwargs -> prog.
  Variable guards_of : fn_state -> list guard_fn.

  (** Portals of the process: [places !! p] the location of portal number p; [pcc p] its p_consistency_checks. *)
  Record session := Session { places : list nat; pcc : nat -> option Q }.
  Variable ses : session.
  Definition loc (p : nat) : nat := nth p (places ses) 0.
  (** get_noncurrent_portals when [current] is the current portal *)
  Definition others (current : option nat) : list nat := filter (fun q => Some q <> current) (seq 0 (length (places ses))).

  (** ** Value addresses (see ValueAddr.v): ValueAddr(x) in portal p, and ValueAddr.get *)
  (** [portal.value_store[b] = v], first_entry_dict.py:42-45.  Its consistency check never fails, because equal
      addresses belong to equal values (C18), and is left out. *)
  Definition put (p : nat) (b : addr) (v : value) : M unit :=
    h <- acc (EHasVal (loc p) b) ;; if (h : bool) then pret tt else acc (EWriteVal (loc p) b v).
  Definition mk_addr (p : nat) (x : arg) : M addr :=
    match x with
    | AVal v => put p (text_of v) v ;; pret (text_of v)
    | AAddr _ | AResult _ => pret (addr_of_arg x)
    end.
  Fixpoint find_other (p : nat) (b : addr) (qs : list nat) : M value :=
    match qs with
    | [] => pfail KeyError
    | q :: qs' => r <- acc (EGetVal (loc q) b) ;;
                  match r with Some v => put p b v ;; pret v | None => find_other p b qs' end
    end.
  (** inside 'with self.portal' *)
  Definition resolve (p : nat) (b : addr) : M value :=
    r <- acc (EGetVal (loc p) b) ;; match r with Some v => pret v | None => find_other p b (others (Some p)) end.

  (** ** Arguments: kw_args.py:23-41 *)
  Fixpoint pack_in (p : nat) (l : kwargs) : M (list (string * addr)) :=
    match l with
    | [] => pret []
    | (k, x) :: l' => b <- mk_addr p x ;; m <- pack_in p l' ;; pret ((k, b) :: m)
    end.
  Fixpoint unpack_in (p : nat) (l : kwargs) : M kwargs :=
    match l with
    | [] => pret []
    | (k, AAddr b) :: l' => v <- resolve p b ;; m <- unpack_in p l' ;; pret ((k, AVal v) :: m)
    | (k, x) :: l' => m <- unpack_in p l' ;; pret ((k, x) :: m)
    end.

  (** ** Result addresses *)
  (** lines 504-513 and 549-559: PureFnExecutionResultAddr(a_fn, arguments), inside 'with a_fn.portal' *)
  Definition result_address (p : nat) (f : fn_state) (arguments : kwargs) : M addr :=
    args <- mres (sorted_kwargs arguments) ;;
    fa <- mk_addr p (AVal (VFn f)) ;;
    packed <- pack_in p args ;;
    aa <- mk_addr p (AVal (VArgs packed)) ;;
    tmp <- mk_addr p (AVal (VSig (fn_name f) fa (island_name f) aa)) ;;
    pret ((fn_name f ++ "_" ++ island_name f)%string, snd tmp).

  (** lines 575-581, 720-730, 763-772: [function] and [arguments] of an address that does not have them cached *)
  Definition signature_addr (a : addr) : addr := ("purefncallsignature"%string, snd a).
  Definition load_function (p : nat) (a : addr) : M fn_state :=
    s <- resolve p (signature_addr a) ;;
    match s with
    | VSig _ fa _ _ => v <- resolve p fa ;; match v with VFn f => pret f | _ => pfail AttributeError end
    | _ => pfail AttributeError
    end.
  Definition load_arguments (p : nat) (a : addr) : M kwargs :=
    s <- resolve p (signature_addr a) ;;
    match s with
    | VSig _ _ _ aa => v <- resolve p aa ;; match v with VArgs l => pret (as_args l) | _ => pfail AttributeError end
    | _ => pfail AttributeError
    end.
  (** [cached]: [_function] and [_arguments] are set (addresses made by the constructor), else they are loaded *)
  Definition arguments_of (p : nat) (a : addr) (cached : option kwargs) : M kwargs :=
    match cached with Some args => pret args | None => load_arguments p a end.
  Definition sync (p : nat) (a : addr) (cached : option kwargs) : M kwargs :=
    match cached with
    | Some args => unpack_in p args
    | None => load_function p a ;; args <- load_arguments p a ;; unpack_in p args
    end.

  (** [portal.execution_results[a] = b]: FirstEntryDict.__setitem__, first_entry_dict.py:33-70 *)
  Definition set_result (p : nat) (a b : addr) : M unit :=
    h <- acc (EHasRes (loc p) a) ;;
    if (h : bool) then
      pc <- acc (EGetP p) ;;
      match pc with
      | None => pret tt
      | Some q =>
          if Qle_bool q 0 then pret tt
          else x <- acc ERand ;;
               if Qle_bool q x then pret tt
               else old <- acc (EGetRes (loc p) a) ;; massert (bool_decide (old = Some b))
      end
    else acc (EWriteRes (loc p) a b).

  (** lines 606-622  _ready_in_noncurrent_portals *)
  Fixpoint ready_elsewhere (p : nat) (a : addr) (cached : option kwargs) (qs : list nat) : M bool :=
    match qs with
    | [] => pret false
    | q :: qs' =>
        h <- acc (EHasRes (loc q) a) ;;
        if (h : bool) then
          r <- acc (EGetRes (loc q) a) ;;
          match r with
          | None => pfail KeyError
          | Some b => d <- acc (EGetVal (loc q) b) ;;
                      match d with
                      | None => pfail KeyError
                      | Some v => b' <- mk_addr p (AVal v) ;; set_result p a b' ;; sync p a cached ;; pret true
                      end
          end
        else ready_elsewhere p a cached qs'
    end.
  (** lines 595-604, 624-635  ready; [current]: the current portal at the moment of the call *)
  Definition ready (current : option nat) (p : nat) (a : addr) (cached : option kwargs) : M bool :=
    h <- acc (EHasRes (loc p) a) ;; if (h : bool) then pret true else ready_elsewhere p a cached (others current).

  (** lines 658-661, 648-655  drop_execution_request, request_execution *)
  Definition drop_request (p : nat) (a : addr) : M unit := acc (EDelReq (loc p) a).
  Definition request (p : nat) (a : addr) (cached : option kwargs) : M unit :=
    rd <- ready (Some p) p a cached ;;
    if (rd : bool) then drop_request p a
    else h <- acc (EHasReq (loc p) a) ;; if (h : bool) then pret tt else acc (EWriteReq (loc p) a).
  (** lines 665-668 *)
  Definition requested (p : nat) (a : addr) : M bool := acc (EHasReq (loc p) a).
  (** lines 688-691: get when the result is ready *)
  Definition get_ready (p : nat) (a : addr) : M arg :=
    r <- acc (EGetRes (loc p) a) ;;
    match r with
    | None => pfail KeyError
    | Some b => v <- acc (EGetVal (loc p) b) ;; match v with None => pfail KeyError | Some v => pret (AVal v) end
    end.

  (** ** Calls *)
  (** running a body in portal p; [call] is how other pure functions are called *)
  Definition swarm_with (p : nat) (f : fn_state) (kw : kwargs) : M arg :=
    s <- mres (sorted_kwargs kw) ;;
    packed <- pack_in p s ;;
    a <- result_address p f (as_args packed) ;;
    request p a (Some (as_args packed)) ;;
    pret (AResult a).
  Fixpoint run_prog (call : fn_state -> kwargs -> M arg) (p : nat) (b : prog) : M arg :=
    match b with
    | Ret x => pret x
    | Raise e => pfail e
    | Call f kw k => r <- mtry (call f kw) ;; run_prog call p (k r)
    | Swarm f kw k => r <- mtry (swarm_with p f kw) ;; run_prog call p (k r)
    | Look k => x <- acc ERand ;; run_prog call p (k x)
    end.
  (** lines 188-200  can_be_executed.  (A Python function cannot see the order of its keyword arguments, so a guard gets
      them sorted.) *)
  Fixpoint check_guards (call : fn_state -> kwargs -> M arg) (p : nat) (gs : list guard_fn) (kw : kwargs) : M bool :=
    match gs with
    | [] => pret true
    | g :: gs' =>
        r <- mtry (match g with GPure f => call f kw | GAuto b => run_prog call p (b (sort_keys kw)) end) ;;
        match r with Ok _ => check_guards call p gs' kw | Err _ => pret false end
    end.

  Definition p_zero (pc : option Q) : bool := match pc with None => true | Some q => Qeq_bool q 0 end.
  Definition below (x : Q) (pc : option Q) : bool := match pc with None => false | Some q => negb (Qle_bool q x) end.

  (** lines 404-442  PureFn.execute (called through __call__ with the same arguments) *)
  Fixpoint execute (fuel : nat) (p : nat) (f : fn_state) (kw : kwargs) : M arg :=
    match fuel with
    | O => Done None
    | S fuel' =>
        s <- mres (sorted_kwargs kw) ;;
        packed <- pack_in p s ;;
        a <- result_address p f (as_args packed) ;;
        x <- acc ERand ;;
        let pc := pcc ses p in
        rd <- ready (Some p) p a (Some (as_args packed)) ;;
        if (rd && (p_zero pc || negb (below x pc))) then get_ready p a
        else
          run_id <- acc ERun ;;
          acc (EHist (loc p) (HAttempt a run_id)) ;;             (* frame.__enter__ *)
          out <- mtry (
            request p a (Some (as_args packed)) ;;
            g <- check_guards (execute fuel' p) p (guards_of f) kw ;;
            massert g ;;
            unpacked <- unpack_in p (as_args packed) ;;
            result <- run_prog (execute fuel' p) p (body f unpacked) ;;
            b <- mk_addr p result ;;
            acc (EHist (loc p) (HResult a run_id b)) ;;
            o <- mtry ((if (rd : bool) then acc (ESetP p (Some 1%Q)) else pret tt) ;; set_result p a b) ;;
            acc (ESetP p pc) ;;
            mres o ;;
            drop_request p a ;;
            pret result) ;;
          acc (EHist (loc p) (HOutput a run_id)) ;;              (* frame.__exit__ *)
          mres out
    end.

  (** lines 374-402  get_address, swarm, run *)
  Definition get_address (p : nat) (f : fn_state) (kw : kwargs) : M (addr * kwargs) :=
    s <- mres (sorted_kwargs kw) ;;
    packed <- pack_in p s ;;
    a <- result_address p f (as_args packed) ;;
    pret (a, as_args packed).
  Definition swarm (p : nat) (f : fn_state) (kw : kwargs) : M addr :=
    ac <- get_address p f kw ;; request p (fst ac) (Some (snd ac)) ;; pret (fst ac).
  (** lines 637-645: result_address.execute() *)
  Definition run_fn (fuel : nat) (p : nat) (f : fn_state) (kw : kwargs) : M addr :=
    ac <- get_address p f kw ;; execute fuel p f (snd ac) ;; pret (fst ac).

  (** lines 444-473  swarm_list, run_list; [shuffle1], [shuffle2]: the random permutations; the addresses hold the raw
      (sorted) arguments *)
  Fixpoint addresses (p : nat) (f : fn_state) (l : list kwargs) : M (list (addr * kwargs)) :=
    match l with
    | [] => pret []
    | kw :: l' => s <- mres (sorted_kwargs kw) ;; a <- result_address p f kw ;; m <- addresses p f l' ;; pret ((a, s) :: m)
    end.
  Fixpoint request_all (p : nat) (l : list (addr * kwargs)) : M unit :=
    match l with [] => pret tt | (a, kw) :: l' => request p a (Some kw) ;; request_all p l' end.
  Fixpoint execute_all (fuel : nat) (p : nat) (f : fn_state) (l : list (addr * kwargs)) : M unit :=
    match l with [] => pret tt | (a, kw) :: l' => execute fuel p f kw ;; execute_all fuel p f l' end.
  Definition shuffle := list (addr * kwargs) -> list (addr * kwargs).
  Definition swarm_list (shuffle1 : shuffle) (p : nat) (f : fn_state) (l : list kwargs) : M (list (addr * kwargs)) :=
    addrs <- addresses p f l ;; request_all p (shuffle1 addrs) ;; pret addrs.
  Definition run_list (shuffle1 shuffle2 : shuffle) (fuel : nat) (p : nat) (f : fn_state) (l : list kwargs) : M (list (addr * kwargs)) :=
    addrs <- swarm_list shuffle1 p f l ;; execute_all fuel p f (shuffle2 addrs) ;; pret addrs.

  (** lines 783-790: can_be_executed of an address: the guards get the unpacked arguments *)
  Definition addr_can_be_executed (fuel : nat) (p : nat) (a : addr) : M bool :=
    f <- load_function p a ;;
    args <- load_arguments p a ;;
    kw <- unpack_in p args ;;
    check_guards (execute fuel p) p (guards_of f) kw.
  (** lines 637-645: execute of an address read from the queue *)
  Definition addr_execute (fuel : nat) (p : nat) (a : addr) : M arg :=
    f <- load_function p a ;; args <- load_arguments p a ;; execute fuel p f args.
  (** swarming_portals.py:212-226 for the address chosen by the worker (needs_execution is in Retry.v: here the worker
      may try whenever the result is not ready) *)
  Definition worker (fuel : nat) (p : nat) (a : addr) : M unit :=
    h <- acc (EHasReq (loc p) a) ;;
    if (h : bool) then
      rd <- ready (Some p) p a None ;;
      if (rd : bool) then pret tt
      else c <- addr_can_be_executed fuel p a ;;
           if (c : bool) then addr_execute fuel p a ;; pret tt else pret tt
    else pret tt.

  (** ** Operations of a user or of the machine, in portal p *)
  Inductive op :=
  | OCall (f : fn_state) (kw : kwargs)                       (* f(..) *)
  | OSwarm (f : fn_state) (kw : kwargs)                      (* f.swarm(..) *)
  | ORun (f : fn_state) (kw : kwargs)                        (* f.run(..) *)
  | OSwarmList (shuffle1 : shuffle) (f : fn_state) (l : list kwargs)
  | ORunList (shuffle1 shuffle2 : shuffle) (f : fn_state) (l : list kwargs)
  | OWorker (a : addr).                                      (* a background worker tries a *)
  (** outcomes: the returned objects *)
  Definition op_tree (fuel : nat) (p : nat) (o : op) : M (list arg) :=
    match o with
    | OCall f kw => x <- execute fuel p f kw ;; pret [x]
    | OSwarm f kw => a <- swarm p f kw ;; pret [AResult a]
    | ORun f kw => a <- run_fn fuel p f kw ;; pret [AResult a]
    | OSwarmList s1 f l => m <- swarm_list s1 p f l ;; pret (map (fun ac => AResult (fst ac)) m)
    | ORunList s1 s2 f l => m <- run_list s1 s2 fuel p f l ;; pret (map (fun ac => AResult (fst ac)) m)
    | OWorker a => worker fuel p a ;; pret []
    end.
End PureExec.

(** ** Many processes over shared storage.  [Spawn]: a process starts an operation; [Sched i]: process i makes its next
    access; [UserDrop]: someone calls drop_execution_request.  A process that is never scheduled again has died. *)
Section Many.
  Context {D : Type} (data_prefix : D -> string) (hash_of : value D -> string).
  Context (body : fn_state -> list (string * arg D) -> prog (D := D)) (guards_of : fn_state -> list (guard_fn (D := D))).
  Record job := Job { j_ses : session; j_portal : nat; j_fuel : nat; j_op : op (D := D) }.
  Record proc := Proc { p_job : job; p_tree : @M D (list (arg D)); p_local : local }.
  Inductive action := Spawn (j : job) (μ : local) | Sched (i : nat) | UserDrop (l : nat) (a : addr).
  Definition sys : Type := @state D * list proc.
  Definition sys_step (s : sys) (x : action) : sys :=
    let '(σ, ps) := s in
    match x with
    | Spawn j μ => (σ, ps ++ [Proc j (op_tree data_prefix hash_of body guards_of (j_ses j) (j_fuel j) (j_portal j) (j_op j)) μ])
    | Sched i =>
        match ps !! i with
        | Some (Proc j (Step e k) μ) => let '(σ1, μ1, a) := perform e σ μ in (σ1, <[i := Proc j (k a) μ1]> ps)
        | _ => s
        end
    | UserDrop l a => (upd l (set_reqs (fun r => r ∖ {[a]}) (σ l)) σ, ps)
    end.
  Definition sys_run (s : sys) (xs : list action) : sys := fold_left sys_step xs s.
End Many.
