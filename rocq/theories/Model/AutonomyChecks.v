(** Model of the questions a user can ask about a function object: _060_autonomous_functions/autonomicity_checks.py and
    _070_pure_functions/purity_checks.py.  Definitions only.  The argument is taken to be a function object of this library. *)
From Verif Require Import Lib.Py Model.Registry.

(** autonomicity_checks.py:6-32 and purity_checks.py:5-7, for a function object of this library (both kinds are subclasses of AutonomousFn) *)
Definition is_autonomous (o : fnobj) : bool := match o_kind o with Aut => true | Pure => true end.
Definition is_strictly_autonomous (o : fnobj) : bool := is_autonomous o && o_strict o.
Definition is_loosely_autonomous (o : fnobj) : bool := is_autonomous o && negb (o_strict o).
Definition is_pure (o : fnobj) : bool := match o_kind o with Aut => false | Pure => true end.

