(** Model of crash and event logging: _020_logging_portals/logging_portals.py, the exception handling of
    _040_ordinary_functions/ordinary_core_classes.py:143-196, _060_autonomous_functions/autonomous_core_classes.py:295-317,
    _070_pure_functions/pure_core_classes.py:318-361, 404-442 and 969-991.

    Portals are numbers; [place p] is where portal p keeps its files (portals may share a place).  The stack of entered
    portals is kept as the plain list of open 'with's, innermost first (Portals.v shows that foundation.py implements
    exactly that, C05-C08).  Exceptions are objects: each raise makes a new one; a number identifies it.
    Simplified: contents of crash records other than the exception object, the date and the identifier (tracebacks,
    environment summaries, source code) are left out; Python >= 3.11, where the mark is an exception note. *)
From Verif.Lib Require Import Py.
From stdpp Require Import pretty.

(** ** Event data: lines 196-219 *)
Section Events.
  Context {V : Type}.
  Inductive field := User (v : V) | Summary | Messages (args : list V).
  Definition event_rec := dict string field.
  (** lines 196-205  make_unique_name; [draws]: what entropy_infuser.randint returns, as many as needed.  [None]: all
      draws are used up and the loop would go on. *)
  Fixpoint retry_name (desired : string) (existing : list string) (draws : list N) : option (string * list N) :=
    match draws with
    | [] => None
    | n :: draws' =>
        let candidate := (desired +:+ "_" +:+ pretty n)%string in
        if bool_decide (candidate ∈ existing) then retry_name desired existing draws' else Some (candidate, draws')
    end.
  Definition make_unique_name (desired : string) (existing : list string) (draws : list N) : option (string * list N) :=
    if bool_decide (desired ∈ existing) then retry_name desired existing draws else Some (desired, draws).
  (** lines 207-219  add_execution_environment_summary *)
  Definition add_summary (args : list V) (kwargs : dict string V) (draws : list N) : option (event_rec * list N) :=
    let kw : event_rec := map (fun '(k, v) => (k, User v)) kwargs in
    match make_unique_name "execution_environment_summary" (dict_keys kw) draws with
    | None => None
    | Some (n1, draws1) =>
        let kw1 := dict_set n1 Summary kw in
        match args with
        | [] => Some (kw1, draws1)
        | _ :: _ =>
            match make_unique_name "message_list" (dict_keys kw1) draws1 with
            | None => None
            | Some (n2, draws2) => Some (dict_set n2 (Messages args) kw1, draws2)
            end
        end
    end.
End Events.
Arguments field : clear implicits.
Arguments event_rec : clear implicits.

Section Logging.
  Context {V : Type}.
  Context (place : nat -> nat).

  (** ** Crash records *)
  (** A key of crash_history: [CATCH_ALL, date, id] (line 299) or [function, id] (ordinary_core_classes.py:143-145,
      autonomous 295-297, pure 319-321).  [f] stands for "name_ORD", "name_island_AUTON" or "name_island_PURE". *)
  Inductive xprefix := CatchAll (day : nat) | OfFn (f : string).
  (** An exception id: class name, plus names of function and island, plus a random signature; a pure function in a frame
      uses the session id and the frame's exception counter instead (pure_core_classes.py:336-344). *)
  Inductive xid := Random (text : string) (sig : nat) | InFrame (text : string) (session : nat) (counter : nat).
  Record crash := Crash { c_place : nat; c_prefix : xprefix; c_id : xid; c_exn : nat }.
  (** An entry of event_log: key [date, event_id] *)
  Inductive evid := Given (s : string) | Drawn (sig : nat).
  Record evt := Evt { e_place : nat; e_day : nat; e_id : evid; e_rec : event_rec V }.

  Record lstate := LState {
    opened : list nat;              (* open 'with's, innermost first *)
    marked : list nat;              (* exceptions with the note "__suppress_logging__" *)
    next_exn : nat;                 (* the next exception object *)
    next_sig : nat;                 (* random signatures: the n-th one drawn; assumed never to repeat *)
    today : nat;                    (* current_date_gmt_string() *)
    crashes : list crash;           (* all crash_history dictionaries *)
    events : list evt;              (* all event_log dictionaries *)
    run_crashes : list (nat * nat * nat) (* run_history: place, session, exception (pure_core_classes.py:987-991) *)
  }.
  Definition with_opened o s := LState o (marked s) (next_exn s) (next_sig s) (today s) (crashes s) (events s) (run_crashes s).
  Definition with_mark e s := LState (opened s) (e :: marked s) (next_exn s) (next_sig s) (today s) (crashes s) (events s) (run_crashes s).
  Definition with_crash c s := LState (opened s) (marked s) (next_exn s) (next_sig s) (today s) (crashes s ++ [c]) (events s) (run_crashes s).
  Definition with_event v s := LState (opened s) (marked s) (next_exn s) (next_sig s) (today s) (crashes s) (events s ++ [v]) (run_crashes s).
  Definition with_run_crash r s := LState (opened s) (marked s) (next_exn s) (next_sig s) (today s) (crashes s) (events s) (run_crashes s ++ [r]).
  Definition new_exn s : lstate * nat :=
    (LState (opened s) (marked s) (S (next_exn s)) (next_sig s) (today s) (crashes s) (events s) (run_crashes s), next_exn s).
  Definition new_sig s : lstate * nat :=
    (LState (opened s) (marked s) (next_exn s) (S (next_sig s)) (today s) (crashes s) (events s) (run_crashes s), next_sig s).
  Definition tick s := LState (opened s) (marked s) (next_exn s) (next_sig s) (S (today s)) (crashes s) (events s) (run_crashes s).

  (** foundation.py:200-210: every portal of the stack once, innermost first *)
  Fixpoint distinct (l : list nat) : list nat :=
    match l with [] => [] | x :: l' => x :: filter (fun y => y <> x) (distinct l') end.
  Definition entered (s : lstate) : list nat := distinct (opened s).

  (** crash_history[full_path] = ..., an immutable dictionary (line 127): writing an existing key raises.  The result is
      the exception raised, if any. *)
  Global Instance prefix_eq : EqDecision xprefix. Proof. solve_decision. Defined.
  Global Instance xid_eq : EqDecision xid. Proof. solve_decision. Defined.
  Global Instance evid_eq : EqDecision evid. Proof. solve_decision. Defined.
  Definition write_crash (pl : nat) (pre : xprefix) (i : xid) (e : nat) (s : lstate) : lstate * option nat :=
    if existsb (fun c => bool_decide (c_place c = pl /\ c_prefix c = pre /\ c_id c = i)) (crashes s)
    then let '(s', e') := new_exn s in (s', Some e')
    else (with_crash (Crash pl pre i e) s, None).
  (** lines 253-254 *)
  Fixpoint write_all (ps : list nat) (pre : xprefix) (i : xid) (e : nat) (s : lstate) : lstate * option nat :=
    match ps with
    | [] => (s, None)
    | p :: ps' => match write_crash (place p) pre i e s with
                  | (s1, None) => write_all ps' pre i e s1
                  | (s1, Some e') => (s1, Some e')
                  end
    end.
  (** lines 251-254 *)
  Fixpoint write_prefixes (pres : list xprefix) (i : xid) (e : nat) (s : lstate) : lstate * option nat :=
    match pres with
    | [] => (s, None)
    | pre :: pres' => match write_all (entered s) pre i e s with
                      | (s1, None) => write_prefixes pres' i e s1
                      | (s1, Some e') => (s1, Some e')
                      end
    end.
  (** lines 278-291 *)
  Definition needs_processing (e : nat) (s : lstate) : bool := negb (bool_decide (e ∈ marked s)).
  (** lines 222-259  _persist_exception_information; [i]: [inl text] is NeedsRandomization, [inr id] AlreadyRandomized.
      Result: the exception raised while persisting, and whether data were persisted (lines 233-235 return None). *)
  Definition persist (e : nat) (pres : list xprefix) (i : string + xid) (s : lstate) : lstate * option nat * bool :=
    if needs_processing e s then
      let '(s1, i1) := match i with
                       | inl text => let '(s1, n) := new_sig s in (s1, Random text n)
                       | inr x => (s, x)
                       end in
      match write_prefixes pres i1 e s1 with
      | (s2, None) => (with_mark e s2, None, true)
      | (s2, Some e') => (s2, Some e', false)
      end
    else (s, None, false).
  (** lines 309-323  _exception_logger; [h]: sys.exc_info(), the exception being handled *)
  Definition exception_logger (h : option nat) (s : lstate) : lstate * option nat :=
    match h with
    | None => (s, None)
    | Some e => let '(s1, r, _) := persist e [CatchAll (today s)] (inl ""%string) s in (s1, r)
    end.
  (** lines 326-329  __exit__ (after foundation.py:122-132, which cannot fail for 'with' blocks); [h] is the block's
      exception if it raised, else what was being handled around the block.  Result: the exception raised by __exit__ *)
  Definition exit_with (h : option nat) (s : lstate) : lstate * option nat :=
    match exception_logger h s with
    | (s1, Some e) => (s1, Some e)
    | (s1, None) => (with_opened (tail (opened s1)) s1, None)
    end.

  (** lines 147-162  describe(): "Exceptions, total" and "Exceptions, today": the numbers of entries of crash_history below
      ("__CATCH_ALL__",) and below ("__CATCH_ALL__", today) *)
  Definition exceptions_total (s : lstate) (q : nat) : nat :=
    length (List.filter (fun c => (c_place c =? place q)%nat && match c_prefix c with CatchAll _ => true | OfFn _ => false end) (crashes s)).
  Definition exceptions_today (s : lstate) (q : nat) : nat :=
    length (List.filter (fun c => (c_place c =? place q)%nat && match c_prefix c with CatchAll d => (d =? today s)%nat | OfFn _ => false end) (crashes s)).

  (** ** Programs *)
  Inductive prog :=
  | PSkip
  | PSeq (p q : prog)
  | PRaise                                    (* raise SomeError() *)
  | PReraise                                  (* raise *)
  | PTry (body handler : prog)                (* try: body  except: handler *)
  | PWith (p : nat) (body : prog)             (* with portal p: body *)
  | POrdinary (f : string) (body : prog)      (* call of an ordinary function *)
  | PAutonomous (f : string) (p : nat) (body : prog)   (* call of an autonomous function of portal p *)
  | PPure (f : string) (p : nat) (guards body after : prog)  (* executed call of a pure function of portal p; [guards]: everything
                                                   before the body, [after]: after it, inside the frame *)
  | PLog (event_id : option string) (args : list V) (kwargs : dict string V) (draws : list N)
  | PTick.                                    (* midnight *)

  (** ordinary_core_classes.py:175-196: the body of execute; [pres]: the function's own xprefix; [i]: as in [persist];
      [session]: the frame of a pure function (pure_core_classes.py:346-361) *)
  Definition run_function (f : string) (i : string + xid) (session : option (nat * nat)) (body : lstate -> lstate * option nat)
      (s : lstate) : lstate * option nat :=
    match body s with
    | (s1, None) => (s1, None)
    | (s1, Some e) =>
        match persist e [OfFn f; CatchAll (today s1)] i s1 with
        | (s2, Some e', _) => (s2, Some e')
        | (s2, None, done) =>
            match session, done with
            | Some (pl, n), true => (with_run_crash (pl, n, e) s2, Some e)
            | _, _ => (s2, Some e)
            end
        end
    end.
  (** with portal p: body; an exception of __exit__ replaces the block's.  (When the logger fails, the portal stays on the
      stack: the pop of foundation.py is not reached.) *)
  Definition run_with (h : option nat) (p : nat) (body : lstate -> lstate * option nat) (s : lstate) : lstate * option nat :=
    match body (with_opened (p :: opened s) s) with
    | (s1, None) => exit_with h s1
    | (s1, Some e) => match exit_with (Some e) s1 with (s2, Some e') => (s2, Some e') | (s2, None) => (s2, Some e) end
    end.
  (** lines 331-343  log_event *)
  Fixpoint write_events (ps : list nat) (day : nat) (i : evid) (r : event_rec V) (s : lstate) : lstate * option nat :=
    match ps with
    | [] => (s, None)
    | p :: ps' =>
        if existsb (fun c => bool_decide (e_place c = place p /\ e_day c = day /\ e_id c = i)) (events s)
        then let '(s', e') := new_exn s in (s', Some e')
        else write_events ps' day i r (with_event (Evt (place p) day i r) s)
    end.
  Definition log_event (event_id : option string) (args : list V) (kwargs : dict string V) (draws : list N) (s : lstate)
      : lstate * option nat :=
    let '(s1, i) := match event_id with Some x => (s, Given x) | None => let '(s1, n) := new_sig s in (s1, Drawn n) end in
    match add_summary args kwargs draws with
    | Some (r, _) => write_events (entered s1) (today s1) i r s1
    | None => (s1, None)      (* still looping: see the theorems *)
    end.

  Fixpoint exec (h : option nat) (pr : prog) (s : lstate) : lstate * option nat :=
    match pr with
    | PSkip => (s, None)
    | PSeq p q => match exec h p s with (s1, None) => exec h q s1 | r => r end
    | PRaise => let '(s1, e) := new_exn s in (s1, Some e)
    | PReraise => match h with Some e => (s, Some e) | None => let '(s1, e) := new_exn s in (s1, Some e) end
    | PTry b k => match exec h b s with (s1, None) => (s1, None) | (s1, Some e) => exec (Some e) k s1 end
    | PWith p b => run_with h p (exec h b) s
    | POrdinary f b => run_function f (inl f) None (exec h b) s
    | PAutonomous f p b => run_with h p (run_function f (inl f) None (exec h b)) s
    | PPure f p g b k =>
        (* with self.portal: ... with PureFnExecutionFrame: ... super().execute, itself inside 'with self.portal' *)
        run_with h p (fun s1 =>
          let '(s2, n) := new_sig s1 in
          run_with h p (fun s3 =>
            match exec h g s3 with
            | (s4, Some e) => (s4, Some e)
            | (s4, None) =>
                match run_with h p (run_function f (inr (InFrame f n 0)) (Some (place p, n)) (exec h b)) s4 with
                | (s5, Some e) => (s5, Some e)
                | (s5, None) => exec h k s5
                end
            end) s2) s
    | PLog i args kw draws => log_event i args kw draws s
    | PTick => (tick s, None)
    end.

  (** lines 21-23: an exception that nobody catches reaches sys.excepthook, where nothing is being handled any more *)
  Definition top_level (pr : prog) (s : lstate) : lstate :=
    match exec None pr s with
    | (s1, None) => s1
    | (s1, Some e) => fst (exception_logger None s1)
    end.
End Logging.

(** ** The registration of the hook: lines 30-56, 136-138, 188-190 (outside notebooks).
    [_previous_excepthook] is assigned without 'global' in line 33, so the module variable keeps its value. *)
Inductive hook := DefaultHook | PthHook | OtherHook (n : nat).
Record hooks := Hooks { sys_hook : hook; previous : option hook; registered : bool }.
Definition register (k : hooks) : hooks := Hooks PthHook (previous k) (registered k).
Definition unregister (k : hooks) : hooks :=
  match previous k with Some h => Hooks h None (registered k) | None => k end.
Definition new_logging_portal (k : hooks) : hooks :=
  let k1 := if registered k then k else register k in Hooks (sys_hook k1) (previous k1) true.
Definition logging_clear_all (k : hooks) : hooks :=
  let k1 := if registered k then unregister k else k in Hooks (sys_hook k1) (previous k1) false.
