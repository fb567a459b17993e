(** Model of the "newest entry" properties of a result address: _070_pure_functions/pure_core_classes.py:833-912
    (execution_attempts, last_execution_attempt, execution_outputs, last_execution_output, crashes, last_crash, events,
    last_event) over the run history of one call as the frames of its runs write it (lines 955-958, 965-967, 972-974,
    987-991, 993-1010), and of persidict's newest_values() (all values, sorted by the timestamps of their items, newest
    first; Python's sort is stable). The stores are immutable (lines 78-85): an entry keeps the timestamp of its creation.
    Not modelled: events of frames (line 1010: register_event only counts), so the events store stays empty. *)
From Verif.Lib Require Import Py.
From Verif.Model Require Import Records.
Local Open Scope Z_scope.

Section Timeline.
  Context {Ctx Crash Val : Type}.
  (** What the runs of one call do to its run history, in the order in which it happens, by whatever process. *)
  Inductive happening :=
  | Started (run : text) (c : Ctx)                (* lines 955-958 register_execution_attempt *)
  | Crashed (id : text) (c : Crash)               (* lines 987-991 register_exception; [id] contains the run *)
  | Printed (run : text) (o : text)               (* lines 972-974, the output captured, at the end of the run *)
  | Returned (run : text) (v : Val).              (* lines 965-967 register_execution_result *)

  (** one stored item: last key component, timestamp, value *)
  Definition item V : Type := text * Z * V.
  Record run_history := RunHistory {
    attempts : list (item Ctx); outputs : list (item text); run_results : list (item Val); crash_items : list (item Crash);
    event_items : list (item text) }.
  Definition no_history : run_history := RunHistory [] [] [] [] [].

  (** [d[k] = v] at time [t] in a store with immutable items: refused if the key exists (persidict). *)
  Definition put {V} (k : text) (t : Z) (v : V) (d : list (item V)) : list (item V) :=
    if existsb (fun '(k', _, _) => bool_decide (k' = k)) d then d else d ++ [(k, t, v)].
  Definition record_happening (h : run_history) (x : happening) (t : Z) : run_history :=
    match x with
    | Started r c => RunHistory (put (r ++ lit "_a") t c (attempts h)) (outputs h) (run_results h) (crash_items h) (event_items h)
    | Crashed i c => RunHistory (attempts h) (outputs h) (run_results h) (put i t c (crash_items h)) (event_items h)
    | Printed r o => RunHistory (attempts h) (put (r ++ lit "_output") t o (outputs h)) (run_results h) (crash_items h) (event_items h)
    | Returned r v => RunHistory (attempts h) (outputs h) (put r t v (run_results h)) (crash_items h) (event_items h)
    end.
  (** the history after a list of timed happenings *)
  Definition history_after (l : list (happening * Z)) : run_history :=
    fold_left (fun h '(x, t) => record_happening h x t) l no_history.

  (** persidict newest_values(): Python's [sort(key=timestamp, reverse=True)], which keeps the order of equal ones. *)
  Fixpoint insert_newest {V} (x : item V) (l : list (item V)) : list (item V) :=
    match l with
    | [] => [x]
    | y :: l' => if snd (fst y) <=? snd (fst x) then x :: y :: l' else y :: insert_newest x l'
    end.
  Definition newest_first {V} (l : list (item V)) : list (item V) := foldr insert_newest [] l.
  Definition newest_values {V} (l : list (item V)) : list V := map snd (newest_first l).
  (** lines 842-849, 868-875, 888-895, 907-914: [timeline[0]] or None. [d] is the store as it is listed. *)
  Definition last_value {V} (d : list (item V)) : option V := head (newest_values d).
End Timeline.
Arguments happening : clear implicits.
Arguments run_history : clear implicits.
