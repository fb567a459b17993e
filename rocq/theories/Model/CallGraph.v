(** Model of _060_autonomous_functions/call_graph_explorer.py. *)
From Verif.Lib Require Import Py.
From stdpp Require Import gmap.

(** The part of the names analyzer's output (names_usage_analyzer.py) used here: analyzer.names.function and the
    three name sets of lines 29-31.  The analyzer itself is modelled in NamesAnalyzer.v. *)
Record fn_names := FnNames {
  n_function : string;
  n_global_unbound_deep : gset string;
  n_nonlocal_unbound_deep : gset string;
  n_unclassified_deep : gset string
}.

(** lines 6-33  get_referenced_names: the single (key, value) pair of the returned dict *)
Definition get_referenced_names (f : fn_names) : string * gset string :=
  let referenced := {[ n_function f ]} in
  let referenced := referenced ∪ n_global_unbound_deep f in
  let referenced := referenced ∪ n_nonlocal_unbound_deep f in
  let referenced := referenced ∪ n_unclassified_deep f in
  (n_function f, referenced).

Section CallGraph.
  (** Iteration order of a Python set: depends on hash seeds and history, so any function of the "time" of the
      iteration and the set. *)
  Variable ord : nat -> gset string -> list string.

  Definition deps := dict string (gset string).

  (** lines 56-57  for function in functions: all_dependencies.update(get_referenced_names(function)) *)
  Definition collect (fs : list fn_names) : deps :=
    fold_left (fun d f => dict_update d [get_referenced_names f]) fs [].

  (** line 58 / 85  set(all_dependencies) *)
  Definition key_set (d : deps) : gset string := list_to_set (dict_keys d).

  (** lines 59-60  for function_name in all_function_names: all_dependencies[function_name] &= all_function_names *)
  Fixpoint restrict (names : list string) (all : gset string) (d : deps) : res deps :=
    match names with
    | [] => Ok d
    | n :: names' =>
        match dict_get n d with
        | None => Err KeyError
        | Some s => restrict names' all (dict_set n (s ∩ all) d)
        end
    end.

  (** lines 35-62  explore_call_graph_shallow *)
  Definition explore_call_graph_shallow (fs : list fn_names) : res deps :=
    let d := collect fs in
    let all := key_set d in
    restrict (ord 0 all) all d.

  (** lines 91-92  for referenced_name in dependencies_old: dependencies_new |= all_dependencies[referenced_name] *)
  Fixpoint add_all (d : deps) (refs : list string) (acc : gset string) : res (gset string) :=
    match refs with
    | [] => Ok acc
    | r :: refs' =>
        match dict_get r d with
        | None => Err KeyError
        | Some s => add_all d refs' (acc ∪ s)
        end
    end.

  (** lines 89-95  while True: ... *)
  Fixpoint close (fuel : nat) (t : nat) (d : deps) (old : gset string) : res (gset string) :=
    match fuel with
    | 0 => Err OutOfFuel
    | S fuel' =>
        let? new := add_all d (ord t old) old in
        if decide (size new = size old) then Ok new
        else close fuel' (S t) d new
    end.

  (** lines 87-96  for function_name in all_function_names: ... (the dictionary is updated during the loop) *)
  Fixpoint close_all (names : list string) (fuel t : nat) (d : deps) : res deps :=
    match names with
    | [] => Ok d
    | n :: names' =>
        match dict_get n d with
        | None => Err KeyError
        | Some old =>
            let? new := close fuel t d old in
            close_all names' fuel (t + fuel) (dict_set n new d)
        end
    end.

  (** lines 64-98  explore_call_graph_deep; the while loop gets one unit of fuel per known function plus one *)
  Definition explore_call_graph_deep (fs : list fn_names) : res deps :=
    let? d := explore_call_graph_shallow fs in
    let all := key_set d in
    close_all (ord 1 all) (S (size all)) 2 d.
End CallGraph.
