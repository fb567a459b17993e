(** Model of what an execution of a pure function changes in the session while it runs, and of how it is undone:
    _070_pure_functions/pure_core_classes.py:404-442 (execute), 918-991 (PureFnExecutionFrame), the 'with' blocks of portals
    (foundation.py:112-132, logging_portals.py:309-329) and OutputCapturer (output_capturer.py:75-107).

    Any access to storage may raise (a full disk, a lost connection, KeyboardInterrupt in the middle): [faults] tells for
    each access, by its kind and number.  Simplified: the stack of entered portals is the plain list of open 'with's
    (Portals.v, C05-C08); an exception is only known by whether it has been logged; the logger's access to storage for an
    exception that is being handled while a block succeeds (C56) is left out; the root logger's handlers go together with
    the streams (Output.v). *)
From Verif.Lib Require Import Py.

(** Kinds of accesses: recording the attempt (pure_core_classes.py:955-963), recording the output (965-967), recording a
    crash (logging_portals.py:251-254, pure_core_classes.py:987-991), everything else. *)
Inductive kind := KAttempt | KOutput | KCrash | KOther.

(** An exception in flight: has it been logged? *)
Definition flight := option bool.

Record fstate := FState {
  opened : list nat;          (* open 'with's of portals, innermost first *)
  stdout : list nat;          (* sys.stdout and sys.stderr: capturers in force, innermost first; [] is the original stream *)
  frames : nat -> list nat;   (* call_stack of every pure function *)
  clock : nat;                (* accesses so far *)
  next_session : nat
}.
Definition set_opened o s := FState o (stdout s) (frames s) (clock s) (next_session s).
Definition set_stdout o s := FState (opened s) o (frames s) (clock s) (next_session s).
Definition set_frames f l s := FState (opened s) (stdout s) (fun g => if decide (g = f) then l else frames s g) (clock s) (next_session s).
Definition tick s := FState (opened s) (stdout s) (frames s) (S (clock s)) (next_session s).
Definition new_session s := FState (opened s) (stdout s) (frames s) (clock s) (S (next_session s)).

(** Programs: user code, function bodies, guards and the library's own steps that touch the session only through the
    constructs below. *)
Inductive fprog :=
| FSkip
| FAccess                                   (* an access to storage, or anything else that may fail *)
| FRaise                                    (* raise *)
| FSeq (p q : fprog)
| FTry (p handler : fprog)                  (* try: p  except: handler *)
| FWith (p : nat) (body : fprog)            (* with portal: body *)
| FFunction (body : fprog)                  (* OrdinaryFn.execute, ordinary_core_classes.py:175-196 *)
| FPure (f p : nat) (pre before body after : fprog).
  (* PureFn.execute of function f of portal p: [pre] lines 414-424, [before] 426-428, [body] 429, [after] 430-442 *)

Section Run.
  Context (faults : kind -> nat -> bool).

  Definition access (k : kind) (s : fstate) : fstate * flight :=
    (tick s, if faults k (clock s) then Some false else None).

  (** logging_portals.py:326-329 __exit__, then foundation.py:122-132.  [e]: the block's exception.  Result: the state, the
      exception in flight afterwards, and whether __exit__ itself raised. *)
  Definition pop_portal (p : nat) (e : flight) (s : fstate) : fstate * flight * bool :=
    match opened s with
    | q :: l => if decide (q = p) then (set_opened l s, e, false) else (s, Some false, true)
    | [] => (s, Some false, true)
    end.
  Definition exit_portal (p : nat) (e : flight) (s : fstate) : fstate * flight * bool :=
    match e with
    | Some false =>
        match access KCrash s with
        | (s1, None) => pop_portal p (Some true) s1
        | (s1, Some x) => (s1, Some x, true)
        end
    | _ => pop_portal p e s
    end.
  Definition with_portal (p : nat) (body : fstate -> fstate * flight) (s : fstate) : fstate * flight :=
    let '(s1, e) := body (set_opened (p :: opened s) s) in
    let '(s2, e2, _) := exit_portal p e s1 in (s2, e2).
  Definition seq (a b : fstate -> fstate * flight) (s : fstate) : fstate * flight :=
    match a s with (s1, None) => b s1 | r => r end.
  (** ordinary_core_classes.py:182-196: log, then raise again *)
  Definition function (body : fstate -> fstate * flight) (s : fstate) : fstate * flight :=
    match body s with
    | (s1, Some false) => match access KCrash s1 with (s2, None) => (s2, Some true) | r => r end
    | r => r
    end.
  (** pure_core_classes.py:926-934 __init__ (the capturer remembers the streams), 941-953 __enter__, 969-980 __exit__.
      Python calls __exit__ only if __enter__ returned. *)
  Definition frame (f p : nat) (body : fstate -> fstate * flight) (s : fstate) : fstate * flight :=
    let n := next_session s in
    let original := stdout s in
    let s1 := set_opened (p :: opened s) (new_session s) in          (* self.portal.__enter__() *)
    let s2 := set_stdout (n :: stdout s1) s1 in                        (* self.output_capturer.__enter__() *)
    let s3 := set_frames f (n :: frames s2 f) s2 in                   (* self.fn.call_stack.append(self) *)
    match access KAttempt s3 with                                     (* self.register_execution_attempt() *)
    | (s4, Some e) => (s4, Some e)
    | (s4, None) =>
        let '(s5, e) := body s4 in
        let s6 := set_stdout original s5 in                           (* self.output_capturer.__exit__(...) *)
        match access KOutput s6 with                                  (* execution_outputs[output_id] = ... *)
        | (s7, Some e') => (s7, Some e')
        | (s7, None) =>
            let '(s8, e8, raised) := exit_portal p e s7 in            (* self.portal.__exit__(...) *)
            if raised then (s8, e8) else (set_frames f (tail (frames s8 f)) s8, e8)  (* self.fn.call_stack.pop() *)
        end
    end.

  Fixpoint run (pr : fprog) (s : fstate) : fstate * flight :=
    match pr with
    | FSkip => (s, None)
    | FAccess => access KOther s
    | FRaise => (s, Some false)
    | FSeq p q => seq (run p) (run q) s
    | FTry p h => match run p s with (s1, None) => (s1, None) | (s1, Some _) => run h s1 end
    | FWith p b => with_portal p (run b) s
    | FFunction b => function (run b) s
    | FPure f p pre before body after =>
        (* AutonomousFn.execute (line 429) enters the portal again: autonomous_core_classes.py:314-316 *)
        with_portal p (seq (run pre)
          (frame f p (seq (run before) (seq (with_portal p (function (run body))) (run after))))) s
    end.
End Run.
