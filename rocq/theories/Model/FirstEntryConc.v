(** Concurrent use of FirstEntryDict (_800_persidict_extensions/first_entry_dict.py:33-70): any number of
    processes execute [__setitem__] on one shared store, one atomic backend operation at a time.
    The sleep of line 47 has no effect in a model where every schedule is considered. *)
From Verif.Lib Require Import Py.
From Coq Require Import QArith.
Local Open Scope nat_scope.

Section FirstEntryConc.
  Context {K V : Type} `{EqDecision K}.
  Variable same : V -> V -> bool.        (* len(DeepDiff(a, b)) == 0, line 59 *)
  (** The external backend (persidict): [true] = creating an absent immutable item is one atomic operation;
      [false] = the backend first checks for presence and then, in a separate step, writes. *)
  Variable atomic : bool.

  (** Program points of __setitem__.  [retry] distinguishes lines 42-45 (false) from lines 48-51 (true). *)
  Inductive pc :=
  | AtCheck (retry : bool)          (* line 42 / 48: if key in self._wrapped_dict *)
  | AtWrite (retry : bool)          (* line 45 / 51: self._wrapped_dict[key] = value *)
  | AtCommit (retry : bool)         (* second half of line 45 / 51 for a check-then-write backend *)
  | AtAssert (check_needed : bool)  (* line 53-58 *)
  | AtCompare                       (* lines 59-70 *)
  | Finished (r : res unit)
  | Dead.                           (* the process was killed *)

  Record proc := Proc { p_key : K; p_val : V; p_check : option Q; p_draw : Q; p_pc : pc }.

  (** lines 55-58: is a consistency check made? *)
  Definition wants_check (p : proc) : bool :=
    match p_check p with Some q => negb (Qle_bool q 0) && negb (Qle_bool q (p_draw p)) | None => false end.

  (** One step of one process: new store, write performed (if any), new program point *)
  Definition proc_step (st : dict K V) (p : proc) : dict K V * option (K * V) * pc :=
    let k := p_key p in let v := p_val p in
    match p_pc p with
    | AtCheck r => (st, None, if dict_mem k st then AtAssert true else AtWrite r)
    | AtWrite r =>
        if dict_mem k st
        then (st, None, if r then Finished (Err KeyError) else AtCheck true)   (* immutable item: raises *)
        else if atomic then (dict_set k v st, Some (k, v), AtAssert false)
        else (st, None, AtCommit r)
    | AtCommit r => (dict_set k v st, Some (k, v), AtAssert false)
    | AtAssert need =>
        (st, None, if dict_mem k st
                   then if need && wants_check p then AtCompare else Finished (Ok tt)
                   else Finished (Err AssertionError))
    | AtCompare =>
        (st, None, match dict_get k st with
                   | None => Finished (Err KeyError)
                   | Some old => Finished (if same old v then Ok tt else Err AssertionError)
                   end)
    | Finished r => (st, None, Finished r)
    | Dead => (st, None, Dead)
    end.

  (** Shared store, chronological log of effective writes (ghost), processes *)
  Record config := Config { c_store : dict K V; c_log : list (K * V); c_procs : list proc }.

  Inductive event := Run (i : nat) | Kill (i : nat).

  Definition set_pc (p : proc) (x : pc) : proc := Proc (p_key p) (p_val p) (p_check p) (p_draw p) x.

  Definition sys_step (c : config) (e : event) : config :=
    match e with
    | Run i => match c_procs c !! i with
               | None => c
               | Some p => let '(st, w, x) := proc_step (c_store c) p in
                           Config st (c_log c ++ match w with Some kv => [kv] | None => [] end)
                                  (<[i := set_pc p x]> (c_procs c))
               end
    | Kill i => match c_procs c !! i with
                | Some p => match p_pc p with
                            | Finished _ => c
                            | _ => Config (c_store c) (c_log c) (<[i := set_pc p Dead]> (c_procs c))
                            end
                | None => c
                end
    end.

  Definition sys_run (c : config) (sched : list event) : config := fold_left sys_step sched c.

  (** All processes about to call __setitem__ *)
  Definition start (st : dict K V) (ps : list (K * V * option Q * Q)) : config :=
    Config st [] (map (fun '(k, v, p, u) => Proc k v p u (AtCheck false)) ps).
End FirstEntryConc.
Arguments proc : clear implicits.
Arguments config : clear implicits.
