(** Model of the names of log folders: _820_strings_signatures_converters/current_date_gmt_str.py:4-11,
    _020_logging_portals/logging_portals.py:251-252, 298-303, 331-343, ordinary_core_classes.py:143-150,
    autonomous_core_classes.py:295-302, pure_core_classes.py:319-321, 336-344.  Definitions only.
    Contracts: datetime.now(timezone.utc) is the moment now in the proleptic Gregorian calendar, a moment being a number of
    seconds since 1970-01-01 00:00 UTC; strftime as in the C library with the C (or an English) locale, for years of four digits. *)
From Coq Require Import String Ascii NArith.
From stdpp Require Import list.
From Verif Require Import Lib.Py.
Local Open Scope nat_scope.

Record date := Date { year : nat; month : nat; day : nat }.
(** the Gregorian calendar (datetime) *)
Definition leap (y : nat) : bool := ((y mod 4 =? 0) && negb (y mod 100 =? 0)) || (y mod 400 =? 0).
Definition days_in (y m : nat) : nat :=
  match m with 2 => if leap y then 29 else 28 | 4 | 6 | 9 | 11 => 30 | _ => 31 end.
Definition next_day (d : date) : date :=
  if day d <? days_in (year d) (month d) then Date (year d) (month d) (S (day d))
  else if month d <? 12 then Date (year d) (S (month d)) 1 else Date (S (year d)) 1 1.
(** the date n days after 1970-01-01 *)
Definition date_of (n : nat) : date := Nat.iter n next_day (Date 1970 1 1).
Definition utc_date (seconds : N) : date := date_of (N.to_nat (seconds / 86400)).

(** strftime: %d and %m in two digits, %Y in four, %b the short name of the month *)
Definition digit (n : nat) : ascii := ascii_of_nat (48 + n).
Definition two (n : nat) : string := String (digit (n / 10)) (String (digit (n mod 10)) "").
Definition four (n : nat) : string := (two (n / 100) ++ two (n mod 100))%string.
Definition month_name (m : nat) : string :=
  match m with
  | 1 => "Jan" | 2 => "Feb" | 3 => "Mar" | 4 => "Apr" | 5 => "May" | 6 => "Jun"
  | 7 => "Jul" | 8 => "Aug" | 9 => "Sep" | 10 => "Oct" | 11 => "Nov" | _ => "Dec"
  end%string.
(** lines 8-9: strftime("%Y_%m%b_%d_utc") *)
Definition date_text (d : date) : string :=
  (four (year d) ++ "_" ++ two (month d) ++ month_name (month d) ++ "_" ++ two (day d) ++ "_utc")%string.
(** current_date_gmt_string() at a moment *)
Definition current_date_gmt_string (seconds : N) : string := date_text (utc_date seconds).

(** ** Keys of crash_history and event_log *)
(** who logs an exception: a portal or an uncaught exception, or a function.  [xname]: the class of the exception *)
Inductive logger := ByPortal | ByOrdinary (fn : string) | ByAutonomous (fn island : string) | ByPure (fn island : string).
(** _exception_prefixes *)
Definition exception_prefixes (w : logger) (seconds : N) : list (list string) :=
  let catch_all := [["__CATCH_ALL__"; current_date_gmt_string seconds]]%string in
  match w with
  | ByPortal => catch_all
  | ByOrdinary f => [(f ++ "_ORD")%string] :: catch_all
  | ByAutonomous f i => [(f ++ "_" ++ i ++ "_AUTON")%string] :: catch_all
  | ByPure f i => [(f ++ "_" ++ i ++ "_PURE")%string] :: catch_all
  end.
(** _exception_id, with what line 249 adds; [frame]: session and counter of the running frame of a pure function *)
Definition exception_id (w : logger) (xname random : string) (frame : option (string * string)) : string :=
  let base := match w with
              | ByPortal => xname
              | ByOrdinary f => xname ++ "_" ++ f
              | ByAutonomous f i | ByPure f i => xname ++ "_" ++ f ++ "_" ++ i
              end%string in
  match w, frame with
  | ByPure _ _, Some (session, n) => (base ++ "_" ++ session ++ "_" ++ n)%string
  | _, _ => (base ++ "_" ++ random)%string
  end.
(** lines 251-254: the keys under which one exception is stored in each portal *)
Definition crash_keys (w : logger) (xname random : string) (frame : option (string * string)) (seconds : N) : list (list string) :=
  map (fun p => p ++ [exception_id w xname random frame]) (exception_prefixes w seconds).
(** lines 331-343: the key of an event *)
Definition event_key (event_id : option string) (random : string) (seconds : N) : list string :=
  [current_date_gmt_string seconds; match event_id with Some x => x | None => random end].
