(** What a user can say about a session: which functions an island holds, and which of them mention which. *)
From Coq Require Import String.
From stdpp Require Import gmap.
From Verif Require Import Lib.Py Model.NamesAnalyzer Model.Registry.

(** the object registered under a name in an island of a portal *)
Definition reg (s : st) (k : nat * string) (n : string) : option nat :=
  match dict_get k (known s) with Some isl => dict_get n isl | None => None end.

(** what an island says about a name: kind, decorator and source of the function registered under it *)
Definition definition_of (s : st) (k : nat * string) (n : string) : option (kind * decor * string) :=
  match reg s k n with
  | None => None
  | Some j => match heap s !! j with None => None | Some o => Some (o_kind o, decorator o, o_src o) end
  end.

(** the source registered under a name *)
Definition source_of (s : st) (k : nat * string) (n : string) : option string := snd <$> definition_of s k n.

Section Mentions.
  Variable names_of : string -> res ana.
  (** a source mentions an outside name *)
  Definition mentions_name (src n : string) : Prop :=
    exists a, names_of src = Ok a /\ (n ∈ a_global a \/ n ∈ a_nonlocal a \/ n ∈ a_unclassified a).
  (** function [a] of the island mentions function [b] of the island *)
  Definition refers (s : st) (k : nat * string) (a b : string) : Prop :=
    (exists src, source_of s k a = Some src /\ mentions_name src b) /\ reg s k b <> None.
End Mentions.

(** Nothing about the registered function under a name has changed in a way a caller could not expect: same object, same
    kind, source, name, guards.  (The strictness flag and the registration results may be filled in.) *)
Definition same_identity (a b : fnobj) : Prop :=
  o_kind a = o_kind b /\ o_portal a = o_portal b /\ o_src a = o_src b /\ o_name a = o_name b /\ o_island a = o_island b
  /\ o_guards a = o_guards b.

(** the name a guard argument stands for *)
Definition guard_name (s : st) (g : guard_arg) : string :=
  match g with GFn f => match heap s !! f with Some o => o_name o | None => "" end | GName x => x end.
(** the decorator a definition asks for: @autonomous / @strictly_autonomous / @pure with these arguments *)
Definition requested (s : st) (k : kind) (strictly : bool) (island : string) (gs : option (list guard_arg)) : decor :=
  match k with
  | Aut => DAut strictly island
  | Pure => DPure island (option_map (fun l => sorted (map (guard_name s) l)) gs)
  end.

(** ** Histories *)
(** an autonomous function only wraps an autonomous function of its own portal *)
Definition regular_wrap (s : st) (k : kind) (f : nat) (p : nat) : Prop :=
  k = Aut -> forall o, heap s !! f = Some o -> o_kind o = Aut /\ o_portal o = p.
Definition regular_op (s : st) (o : op) : Prop := match o with Wrap k f _ _ p => regular_wrap s k f p | _ => True end.

Section Histories.
  Variable normalise : bool -> string -> res string.
  Variable names_of : string -> res ana.
  Variable name_of : string -> res string.
  Variable builtins : gset string.
  Variable ord : nat -> gset string -> list string.
  Variable default_island : nat -> string.
  Notation step := (step normalise names_of name_of builtins ord default_island).
  Notation run := (run normalise names_of name_of builtins ord default_island).

  (** a pickled state that pickling could have written: the name in it is the name of its source, its guards are sorted *)
  Definition honest_state (x : pickled) : Prop :=
    match x with PickAut name src _ _ => name_of src = Ok name | PickPure name src _ _ _ gs => name_of src = Ok name /\ forall g, gs = Some g -> sorted g = g end.
  Definition honest_op (o : op) : Prop := match o with Unpickle x _ => honest_state x | _ => True end.
  (** a history of operations, each regular in the state it starts from *)
  Fixpoint regular (h : list op) (s : st) : Prop :=
    match h with [] => True | o :: h' => regular_op s o /\ regular h' (fst (step o s)) end.

  (** the states of sessions *)
  Definition reachable (s : st) : Prop := exists ps h, Forall honest_op h /\ s = run h (session default_island ps).
  (** the states of sessions in which nobody wrapped a pure function, or a function of another portal, in an autonomous one *)
  Definition plainly_reachable (s : st) : Prop :=
    exists ps h, Forall honest_op h /\ regular h (session default_island ps) /\ s = run h (session default_island ps).
End Histories.

(** ** What an operation may touch *)
(** the island an object says it belongs to *)
Definition home (o : fnobj) : nat * string := (o_portal o, o_island o).
Definition decor_island (d : decor) : string := match d with DAut _ i => i | DPure i _ => i end.
Definition guards_in (d : decor) : list string := match d with DPure _ (Some l) => l | _ => [] end.
(** the islands an operation speaks about *)
Definition speaks_of (default_island : nat -> string) (s : st) (o : op) (k : nat * string) : Prop :=
  match o with
  | Decorate _ _ isl _ _ p => k = (p, island_or_default default_island isl p)
  | Wrap _ _ isl _ p => k = (p, island_or_default default_island isl p)
  | Call f | Pickle f => exists o, heap s !! f = Some o /\ k = home o
  | Unpickle (PickAut _ _ isl _) p => k = (p, isl)
  | Unpickle (PickPure _ _ isl aug _ _) p => k = (p, isl) \/ exists e, e ∈ aug /\ k = (p, decor_island e.1)
  end.

(** the blocks of an augmented source: the decorator and the source of the function registered under each name *)
Definition block (s : st) (k : nat * string) (n : string) (e : entry) : Prop :=
  exists j o, reg s k n = Some j /\ heap s !! j = Some o /\ e = (decorator o, o_src o).

(** ** Decorating again *)
(** a guard the decorator accepts: a strictly autonomous function of the island, or the name of a registered function *)
Definition guard_fits (s : st) (k : nat * string) (g : guard_arg) : Prop :=
  match g with GFn f => exists o, heap s !! f = Some o /\ o_strict o = true /\ home o = k | GName x => reg s k x <> None end.
(** the object decorating again gives: the same as the registered one, or, if that one has not been used yet, a fresh one for the same definition *)
Definition copied (o : fnobj) : fnobj :=
  if o_full o then o else FnObj (o_kind o) (o_portal o) (o_src o) (o_name o) (o_island o) (o_strict o) false None None (o_guards o) (o_aug o).

(** ** Pure functions *)
Definition guards_of (o : fnobj) : list string := match o_guards o with Some g => g | None => [] end.
(** [f] is a pure function that has not been used yet, neither through this object nor through the registered one *)
Definition unused (s : st) (f : nat) (me : fnobj) : Prop :=
  heap s !! f = Some me /\ o_kind me = Pure /\ o_full me = false
  /\ forall j o, reg s (home me) (o_name me) = Some j -> heap s !! j = Some o -> o_full o = false.
(** the functions the pickled state of [me] must speak of: the function, what it reaches, its guards *)
Definition concerns (names_of : string -> res ana) (s : st) (me : fnobj) (n : string) : Prop :=
  rtc (refers names_of s (home me)) (o_name me) n \/ n ∈ guards_of me.
