(** Model of the run history of one call and of its execution records:
    _070_pure_functions/pure_core_classes.py:822-830 (execution_records), 926-991 (PureFnExecutionFrame),
    1013-1083 (PureFnExecutionRecord), 336-362 (_exception_id, _persist_exception_information). Texts are lists of 8-bit characters. *)
From Verif.Lib Require Import Py.
From Coq Require Import Ascii.

Definition text := list ascii.
Definition lit (s : string) : text := list_ascii_of_string s.

(** Python's [a in b] for strings *)
Fixpoint starts_with (a b : text) : bool :=
  match a, b with
  | [], _ => true
  | x :: a', y :: b' => if decide (x = y) then starts_with a' b' else false
  | _ :: _, [] => false
  end.
Fixpoint occurs_in (a b : text) : bool :=
  starts_with a b || match b with [] => false | _ :: b' => occurs_in a b' end.

Section Records.
  Context {Ctx Crash Val : Type}.

  (** What one run of a call leaves behind. A killed run may lack output and result. [c_name]: class name of the
      exception, function and island names, e.g. "ValueError_f_isl" (autonomous_core_classes.py:299-302,
      ordinary_core_classes.py:147-150, logging_portals.py:301-303). *)
  Record crash := CrashRec { c_name : text; c_data : Crash }.
  Record run_log := RunLog {
    session_id : text;              (* "run" + get_random_signature(), line 928 *)
    context : Ctx;                  (* register_execution_attempt, lines 955-958 *)
    output : option text;           (* __exit__, lines 972-974 *)
    crashes : list crash;           (* register_exception, lines 987-991 *)
    result : option Val             (* register_execution_result, lines 965-967; an address, here the value it points to *)
  }.

  (** last component of the keys written by a run *)
  Definition attempt_entry (r : run_log) : text * Ctx := (session_id r ++ lit "_a", context r).
  Definition output_entries (r : run_log) : list (text * text) :=
    match output r with Some o => [(session_id r ++ lit "_output", o)] | None => [] end.
  Definition result_entries (r : run_log) : list (text * Val) :=
    match result r with Some v => [(session_id r, v)] | None => [] end.
  (** lines 336-344: exception ids: name + "_" + session id + "_" + counter; [dec] = str(number) *)
  Definition crash_entries (dec : nat -> text) (r : run_log) : list (text * Crash) :=
    imap (fun i c => (c_name c ++ lit "_" ++ session_id r ++ lit "_" ++ dec i, c_data c)) (crashes r).

  (** The four sub-dictionaries of the call's run history. Iteration order is the storage's. *)
  Record history := History {
    h_attempts : list (text * Ctx); h_outputs : list (text * text);
    h_results : list (text * Val); h_crashes : list (text * Crash)
  }.

  (** line 828  k[-1][:-2] *)
  Definition drop_last2 (k : text) : text := take (length k - 2) k.
  (** lines 822-830  execution_records: the session ids of the records *)
  Definition execution_records (h : history) : list text := map (fun '(k, _) => drop_last2 k) (h_attempts h).

  (** [for k in d: if self.session_id in k[-1]: return d[k]] *)
  Definition find_first {V} (sid : text) (d : list (text * V)) : option V :=
    option_map snd (List.find (fun '(k, _) => occurs_in sid k) d).
  Definition find_all {V} (sid : text) (d : list (text * V)) : list V :=
    map snd (List.filter (fun '(k, _) => occurs_in sid k) d).

  (** lines 1038-1045, 1047-1054, 1056-1064, 1076-1083 *)
  Definition record_output (h : history) (sid : text) : option text := find_first sid (h_outputs h).
  Definition record_context (h : history) (sid : text) : option Ctx := find_first sid (h_attempts h).
  Definition record_crashes (h : history) (sid : text) : list Crash := find_all sid (h_crashes h).
  Definition record_result (h : history) (sid : text) : res Val :=
    match find_first sid (h_results h) with Some v => Ok v | None => Err AssertionError end.
End Records.
Arguments run_log : clear implicits.
Arguments history : clear implicits.
Arguments crash : clear implicits.
