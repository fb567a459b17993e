(** Model of the caches in result addresses: _070_pure_functions/pure_core_classes.py:549-559 (constructor), 565-573,
    583-588 (_invalidate_cache, __setstate__), 595-635 (ready), 637-645 (execute), 671-718 (get), 720-730, 763-772
    (function, arguments), with _010_basic_portals/portal_aware_classes.py:24-37 (portal).

    PureExec.v leaves these caches out; here everything else is simplified instead.  Stores hold the result of a call
    directly (in the code: the address of a value, C44), and call signatures: a signature stands for itself, the function
    and the packed arguments, which the code stores before it (lines 508-509).  Results stores keep the first value (C13)
    and the consistency checks are switched off (their effect is C47).  get is taken when nothing is stored while it waits
    (how long it waits is C49).  Requests are left out (C45).  The registry of portals is as in ValueAddr.v. *)
From Verif.Lib Require Import Py.

Section ResultCache.
  Context {A V : Type} `{EqDecision A}.

  (** A result address: its strings, [_portal], whether [_ready] is set, [_result], and whether [_function] and
      [_arguments] are set. *)
  Record raddr := RAddr { ra_text : A; ra_portal : option nat; ra_ready : bool; ra_result : option V; ra_call : bool }.
  Definition set_ready (o : raddr) := RAddr (ra_text o) (ra_portal o) true (ra_result o) (ra_call o).
  Definition set_result (v : V) (o : raddr) := RAddr (ra_text o) (ra_portal o) (ra_ready o) (Some v) (ra_call o).
  Definition set_call (o : raddr) := RAddr (ra_text o) (ra_portal o) (ra_ready o) (ra_result o) true.
  (** lines 565-573 _invalidate_cache *)
  Definition invalidated (o : raddr) := RAddr (ra_text o) (ra_portal o) false None false.

  (** Everything but the address objects.  [places !! p] is the location of portal p; portals are numbered in creation
      order.  [sigs], [ress]: signatures and results stored at each location. *)
  Record shared := Shared { open : list nat; places : list nat; sigs : nat -> list A; ress : nat -> dict A V }.
  Definition current (s : shared) : option nat := head (open s).
  Definition place (s : shared) (p : nat) : nat := nth p (places s) 0.
  (** foundation.py:175-192: all known portals except the given current one *)
  Definition others (cur : option nat) (s : shared) : list nat := filter (fun q => Some q <> cur) (seq 0 (length (places s))).

  Definition put_sig (l : nat) (a : A) (s : shared) : shared :=
    if bool_decide (a ∈ sigs s l) then s
    else Shared (open s) (places s) (fun l' => if decide (l' = l) then a :: sigs s l else sigs s l') (ress s).
  Definition put_res (l : nat) (a : A) (v : V) (s : shared) : shared :=
    if dict_mem a (ress s l) then s
    else Shared (open s) (places s) (sigs s) (fun l' => if decide (l' = l) then dict_set a v (ress s l) else ress s l').
  Fixpoint find_res (qs : list nat) (a : A) (s : shared) : option V :=
    match qs with
    | [] => None
    | q :: qs' => match dict_get a (ress s (place s q)) with Some v => Some v | None => find_res qs' a s end
    end.

  (** portal_aware_classes.py:24-28: the portal, captured now if there is none yet *)
  Definition capture (s : shared) (o : raddr) : raddr :=
    match ra_portal o with
    | Some _ => o
    | None => RAddr (ra_text o) (current s) (ra_ready o) (ra_result o) (ra_call o)
    end.

  (** lines 720-730, 763-772, inside 'with portal p': the signature from the portal itself or another one (C21) *)
  Definition load_call (p : nat) (o : raddr) (s : shared) : shared * raddr * res unit :=
    if ra_call o then (s, o, Ok tt)
    else if bool_decide (ra_text o ∈ sigs s (place s p)) then (s, set_call o, Ok tt)
    else if existsb (fun q => bool_decide (ra_text o ∈ sigs s (place s q))) (others (Some p) s)
         then (put_sig (place s p) (ra_text o) s, set_call o, Ok tt)
         else (s, o, Err KeyError).

  (** lines 595-635; [cur]: the current portal where 'ready' is evaluated.  TypeError: 'with None' (AttributeError before
      Python 3.11) *)
  Definition ready (cur : option nat) (o0 : raddr) (s : shared) : shared * raddr * res bool :=
    if ra_ready o0 then (s, o0, Ok true)
    else
      let o := capture s o0 in
      match ra_portal o with
      | None => (s, o, Err TypeError)
      | Some p =>
          if dict_mem (ra_text o) (ress s (place s p)) then (s, set_ready o, Ok true)
          else match find_res (others cur s) (ra_text o) s with
               | None => (s, o, Ok false)
               | Some v =>
                   let s1 := put_res (place s p) (ra_text o) v s in
                   match load_call p o s1 with                          (* lines 615-616 *)
                   | (s2, o2, Ok _) => (s2, set_ready o2, Ok true)
                   | (s2, o2, Err e) => (s2, o2, Err e)
                   end
               end
      end.

  (** lines 671-718 get *)
  Definition get (o0 : raddr) (s : shared) : shared * raddr * res V :=
    match ra_result o0 with
    | Some v => (s, o0, Ok v)
    | None =>
        let o := capture s o0 in
        match ra_portal o with
        | None => (s, o, Err TypeError)
        | Some p =>
            match ready (Some p) o s with
            | (s1, o1, Ok true) =>
                match dict_get (ra_text o) (ress s1 (place s1 p)) with
                | Some v => (s1, set_result v o1, Ok v)
                | None => (s1, o1, Err KeyError)
                end
            | (s1, o1, Ok false) => (s1, o1, Err TimeoutError)
            | (s1, o1, Err e) => (s1, o1, Err e)
            end
        end
    end.

  (** what other processes, and calls inside a function body, do to the stores: results with their signatures *)
  Definition put_call (x : nat * A * V) (s : shared) : shared :=
    let '(l, a, v) := x in put_res l a v (put_sig l a s).
  Definition put_calls (xs : list (nat * A * V)) (s : shared) : shared := fold_left (fun s x => put_call x s) xs s.

  (** lines 637-645 with 404-442 (execute of the function, which makes its own address object): [outcome] is what the
      body does if it runs, [mid] what is stored while it runs *)
  Definition execute (outcome : res V) (mid : list (nat * A * V)) (o0 : raddr) (s : shared) : shared * raddr * res V :=
    match ra_result o0 with
    | Some v => (s, o0, Ok v)
    | None =>
        let o := capture s o0 in
        match ra_portal o with
        | None => (s, o, Err TypeError)
        | Some p =>
            match load_call p o s with
            | (s1, o1, Err e) => (s1, o1, Err e)
            | (s1, o1, Ok _) =>
                let s2 := put_sig (place s1 p) (ra_text o) s1 in
                match ready (Some p) (RAddr (ra_text o) (Some p) false None true) s2 with
                | (s3, _, Err e) => (s3, o1, Err e)
                | (s3, _, Ok true) =>
                    match dict_get (ra_text o) (ress s3 (place s3 p)) with
                    | Some v => (s3, set_result v o1, Ok v)
                    | None => (s3, o1, Err KeyError)
                    end
                | (s3, _, Ok false) =>
                    let s4 := put_calls mid s3 in
                    match outcome with
                    | Ok v => (put_res (place s4 p) (ra_text o) v s4, set_result v o1, Ok v)
                    | Err e => (s4, o1, Err e)
                    end
                end
            end
        end
    end.

  (** lines 720-730 *)
  Definition function (o0 : raddr) (s : shared) : shared * raddr * res unit :=
    if ra_call o0 then (s, o0, Ok tt)
    else let o := capture s o0 in
         match ra_portal o with
         | None => (s, o, Err TypeError)
         | Some p => load_call p o s
         end.

  (** ** Histories *)
  Definition world : Type := shared * list raddr.
  Inductive op :=
  | ONewPortal (l : nat) | OEnter (p : nat) | OExit
  | OAddress (a : A) (p : nat)       (* f.get_address/swarm/run of a function f of portal p *)
  | OUnpickle (i : nat)              (* also copy.copy *)
  | OInvalidate (i : nat)
  | OReady (i : nat) | OGet (i : nat) | OFunction (i : nat)
  | OExecute (i : nat) (outcome : res V) (mid : list (nat * A * V))
  | OStore (l : nat) (a : A) (v : V). (* another process, or another call of the same function, stores a result *)
  (** what the user sees *)
  Inductive answer := Nothing | IsReady (r : res bool) | Value (r : res V) | Loaded (r : res unit).

  Definition on {X} (i : nat) (f : raddr -> shared -> shared * raddr * X) (wrap : X -> answer) (w : world) : world * answer :=
    match snd w !! i with
    | None => (w, Nothing)
    | Some o => let '(s, o', x) := f o (fst w) in ((s, <[i := o']> (snd w)), wrap x)
    end.
  Definition session_only (f : shared -> shared) (w : world) : world * answer := ((f (fst w), snd w), Nothing).
  Definition step (w : world) (x : op) : world * answer :=
    match x with
    | ONewPortal l => session_only (fun s => Shared (open s) (places s ++ [l]) (sigs s) (ress s)) w
    | OEnter p => if p <? length (places (fst w))
                  then session_only (fun s => Shared (p :: open s) (places s) (sigs s) (ress s)) w else (w, Nothing)
    | OExit => session_only (fun s => Shared (tail (open s)) (places s) (sigs s) (ress s)) w
    | OAddress a p =>
        if p <? length (places (fst w))
        then ((put_sig (place (fst w) p) a (fst w), snd w ++ [RAddr a (Some p) false None true]), Nothing) else (w, Nothing)
    | OUnpickle i =>
        match snd w !! i with
        | Some o => ((fst w, snd w ++ [RAddr (ra_text o) (current (fst w)) false None false]), Nothing)
        | None => (w, Nothing)
        end
    | OInvalidate i => on i (fun o s => (s, invalidated o, tt)) (fun _ => Nothing) w
    | OReady i => on i (fun o s => ready (current s) o s) IsReady w
    | OGet i => on i get Value w
    | OFunction i => on i function Loaded w
    | OExecute i v mid => on i (execute v mid) Value w
    | OStore l a v => session_only (put_call (l, a, v)) w
    end.
  Definition run (w : world) (h : list op) : world := fold_left (fun w x => fst (step w x)) h w.
  Fixpoint answers (w : world) (h : list op) : list answer :=
    match h with [] => [] | x :: h' => let '(w', y) := step w x in y :: answers w' h' end.
  Definition init_world (sg : nat -> list A) (st : nat -> dict A V) : world := (Shared [] [] sg st, []).
End ResultCache.
Arguments raddr : clear implicits.
Arguments shared : clear implicits.
Arguments world : clear implicits.
Arguments op : clear implicits.
Arguments answer : clear implicits.
