(** When a definition is accepted, and when a first use goes ahead: what a user can check beforehand. *)
From Coq Require Import String.
From stdpp Require Import gmap.
From Verif Require Import Lib.Py Model.Normalizer Model.NamesAnalyzer Model.Registry.
From Verif.Spec Require Import RegistrySpec.

Section Exact.
  Variable normalise : bool -> string -> res string.
  Variable names_of : string -> res ana.
  Variable name_of : string -> res string.
  Variable builtins : gset string.
  Variable default_island : nat -> string.

  (** a source that may be registered: normalising it again changes nothing, its names can be analysed, it has no yield, and the
      only names it takes from an enclosing function are decorators *)
  Definition self_contained (src : string) : Prop :=
    normalise false src = Ok src /\ exists a, names_of src = Ok a /\ a_yields a = 0 /\ forall x, x ∈ a_nonlocal a -> x ∈ all_decorators.

  (** the guards given with a definition are acceptable; giving any (even an empty list) needs the island to exist *)
  Definition guards_accepted (s : st) (home : nat * string) (gs : option (list guard_arg)) : Prop :=
    match gs with None => True | Some l => dict_get home (known s) <> None /\ forall g, g ∈ l -> guard_fits s home g end.

  (** the object registered under a name can be copied: if it has been used, it was through itself *)
  Definition copyable (s : st) (home : nat * string) (name : string) : Prop :=
    forall j o, reg s home name = Some j -> heap s !! j = Some o -> o_full o = true -> o_code o <> None /\ o_deps o <> None.

  (** the definition (kind, source text, island, strictness, guards) is acceptable to portal [p] now *)
  Definition accepted (s : st) (k : kind) (code : string) (isl : option string) (strictly : bool) (gs : option (list guard_arg)) (p : nat) : Prop :=
    exists src name, let home := (p, island_or_default default_island isl p) in
      normalise true code = Ok src /\ name_of src = Ok name /\ (k = Pure -> guards_accepted s home gs) /\
      match definition_of s home name with
      | None => self_contained src
      | Some d => d = (k, requested s k strictly (island_or_default default_island isl p) gs, src) /\ copyable s home name
      end.

  (** [f] is an object (one whose constructor went through: it has a source) of a registered function; neither it nor the registered object has been used with success *)
  Definition not_used (s : st) (f : nat) (me : fnobj) : Prop :=
    heap s !! f = Some me /\ o_src me <> ""%string /\ o_full me = false /\ reg s (home me) (o_name me) <> None
    /\ forall j o, reg s (home me) (o_name me) = Some j -> heap s !! j = Some o -> o_full o = false.
  (** everything the function needs is registered, and nothing it must not have *)
  Definition ready (s : st) (me : fnobj) : Prop :=
    forall a, names_of (o_src me) = Ok a ->
      (forall m, m ∈ required_names builtins (o_name me) a -> reg s (home me) m <> None) /\
      (o_strict me = true -> required_names builtins (o_name me) a = ∅) /\
      (required_names builtins (o_name me) a = ∅ -> forall n, rtc (refers names_of s (home me)) (o_name me) n -> n = o_name me).
  (** the blocks the state of a pure function must have now *)
  Definition current_blocks (s : st) (me : fnobj) (es : list entry) : Prop :=
    exists D, NoDup D /\ (forall n, n ∈ D <-> rtc (refers names_of s (home me)) (o_name me) n)
      /\ Forall2 (block s (home me)) (sorted (guards_of me ++ D)) es.
  (** a failed unpickling may have left a state with the registered function: it must be the current one *)
  Definition no_other_blocks (s : st) (me : fnobj) : Prop :=
    forall j o es, reg s (home me) (o_name me) = Some j -> heap s !! j = Some o -> o_aug o = Some es -> current_blocks s me es.
End Exact.
