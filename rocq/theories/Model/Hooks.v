(** Model of the handlers of uncaught exceptions, notebooks included: _020_logging_portals/logging_portals.py:21-56, 114,
    136-138, 185-193 and notebook_checker.py:2-18.  Definitions only.  (Logging.v has the part outside notebooks.)
    IPython is modelled by its contract: get_ipython() is None outside its shells; set_custom_exc(types, handler) makes
    [handler] the handler of exceptions that leave a cell, [None] standing for a plain handler of IPython's own; handlers
    are called while the exception is being handled, sys.excepthook is not called for cells. *)
From Coq Require Import String.
From stdpp Require Import list.
From Verif Require Import Lib.Py Model.Logging.
Local Open Scope nat_scope.

Inductive handler := NoHandler | PlainHandler | PthHandler | OtherHandler (n : nat).
(** get_ipython(): no shell; a shell, with or without set_custom_exc *)
Inductive ipython := NoShell | Shell (custom : bool).
Record world := World {
  hook : Logging.hook;               (* sys.excepthook *)
  prev : option Logging.hook;        (* _previous_excepthook, logging_portals.py:30 *)
  flag : bool;                       (* LoggingPortal.exception_handlers_registered, line 114 *)
  answer : option bool;              (* _is_in_notebook, notebook_checker.py:2 *)
  shell : ipython;
  handler_of_shell : handler
}.
Definition set_hook h w := World h (prev w) (flag w) (answer w) (shell w) (handler_of_shell w).
Definition set_prev p w := World (hook w) p (flag w) (answer w) (shell w) (handler_of_shell w).
Definition set_flag b w := World (hook w) (prev w) b (answer w) (shell w) (handler_of_shell w).
Definition set_answer b w := World (hook w) (prev w) (flag w) (Some b) (shell w) (handler_of_shell w).
Definition set_shell i w := World (hook w) (prev w) (flag w) (answer w) i NoHandler.
Definition set_handler h w := World (hook w) (prev w) (flag w) (answer w) (shell w) h.

(** notebook_checker.py:3-18 is_executed_in_notebook: the first answer is kept *)
Definition is_executed_in_notebook (w : world) : world * bool :=
  match answer w with
  | Some b => (w, b)
  | None => let b := match shell w with Shell true => true | _ => false end in (set_answer b w, b)
  end.
(** get_ipython().set_custom_exc((BaseException,), h): the new world, or [None] if it raises *)
Definition set_custom_exc (h : handler) (w : world) : option world :=
  match shell w with Shell true => Some (set_handler h w) | _ => None end.
(** lines 31-42.  [_previous_excepthook] is a local variable here: there is no 'global' *)
Definition register_handlers (w : world) : world :=
  let '(w, nb) := is_executed_in_notebook w in
  if nb then match set_custom_exc PthHandler w with Some w' => w' | None => set_hook PthHook w end
  else set_hook PthHook w.
(** lines 45-56 *)
Definition unregister_handlers (w : world) : world :=
  let w := match prev w with Some h => set_prev None (set_hook h w) | None => w end in
  let '(w, nb) := is_executed_in_notebook w in
  if nb then match set_custom_exc PlainHandler w with Some w' => w' | None => w end else w.

Inductive event :=
| NewPortal                      (* a portal of class LoggingPortal or of a subclass is created: lines 136-138 *)
| Reset (logging : bool)         (* _clear_all of LoggingPortal or a subclass (lines 185-193), or of BasicPortal (foundation.py:223) *)
| AskNotebook                    (* anything else that calls is_executed_in_notebook, e.g. build_execution_environment_summary *)
| UserHook (h : Logging.hook)    (* the program sets sys.excepthook *)
| UserHandler (h : handler)      (* the program sets a handler of its shell *)
| ShellChange (i : ipython).     (* a shell starts or ends *)
Definition do_event (e : event) (w : world) : world :=
  match e with
  | NewPortal => set_flag true (if flag w then w else register_handlers w)
  | Reset true => set_flag false (if flag w then unregister_handlers w else w)
  | Reset false => w
  | AskNotebook => fst (is_executed_in_notebook w)
  | UserHook h => set_hook h w
  | UserHandler h => match set_custom_exc h w with Some w' => w' | None => w end
  | ShellChange i => set_shell i w
  end.
(** a process starts: pythagoras has just been imported *)
Definition start (h : Logging.hook) (i : ipython) : world := World h None false None i NoHandler.
Definition after (es : list event) (w : world) : world := fold_left (fun w e => do_event e w) es w.

(** What an uncaught exception [e] does, besides ending the program or the cell: lines 21-28.  The second component says who
    shows it. *)
Inductive shown := ByHook (h : Logging.hook) | ByShell (h : handler).
Definition uncaught {V} (place : nat -> nat) (e : nat) (w : world) (s : lstate (V := V)) : lstate (V := V) * shown :=
  match shell w with
  | NoShell => match hook w with
               | PthHook => (fst (exception_logger place None s), ByHook DefaultHook)     (* sys.exc_info() is empty in a hook *)
               | h => (s, ByHook h)
               end
  | Shell _ => match handler_of_shell w with
               | PthHandler => (fst (exception_logger place (Some e) s), ByShell PlainHandler)   (* traceback.print_exception *)
               | h => (s, ByShell h)
               end
  end.
