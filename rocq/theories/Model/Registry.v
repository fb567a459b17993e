(** Model of the registration of autonomous and pure functions and of their pickling:
    _060_autonomous_functions/autonomous_core_classes.py (AutonomousFn), _070_pure_functions/pure_core_classes.py (PureFn),
    _070_pure_functions/process_augmented_func_src.py, with the base-class parts of ordinary_core_classes.py and
    safe_core_classes.py.  Definitions only.

    Simplifications.  Function objects live in a list, an object is its position.  The text of a decorator is kept as the
    data it prints ([dec_text] gives the text), and an augmented source as the list of its (decorator, source) blocks
    ([aug_text] gives the text): process_augmented_func_src parses that text back, and "ast.parse then ast.unparse" is taken
    to return the blocks unchanged (each source was itself printed by ast.unparse).  Compiling is taken not to fail; the
    compiled code is represented by the source it came from.  Every object is bound to a given portal (see Portals.v for
    how the portal is chosen).  call_stack and the exception logging are modelled elsewhere. *)
From Coq Require Import String.
From stdpp Require Import gmap.
From Verif Require Import Lib.Py Model.PyAst Model.Normalizer Model.NamesAnalyzer Model.CallGraph.
From Verif.Model Require PureAddr.
Local Open Scope nat_scope.

Inductive kind := Aut | Pure.
Global Instance kind_eq_dec : EqDecision kind.
Proof. solve_decision. Defined.

(** autonomous_core_classes.py:202-206 and pure_core_classes.py:209-217 decorator *)
Inductive decor :=
| DAut (strictly : bool) (island : string)
| DPure (island : string) (guards : option (list string)).
Global Instance decor_eq_dec : EqDecision decor.
Proof. solve_decision. Defined.
Definition entry : Type := decor * string.     (* one block of an augmented source: decorator, source *)

(** str(list of names), names without quotes and backslashes *)
Fixpoint repr_names (l : list string) : string :=
  match l with
  | [] => ""
  | [x] => "'" +:+ x +:+ "'"
  | x :: l' => "'" +:+ x +:+ "', " +:+ repr_names l'
  end%string.
Definition NL : string := String (Ascii.ascii_of_nat 10) EmptyString.
Definition TAB : string := String (Ascii.ascii_of_nat 9) EmptyString.
Definition dec_text (d : decor) : string :=
  match d with
  | DAut s i => "@pth." +:+ (if s then "strictly_autonomous" else "autonomous") +:+ "(island_name='" +:+ i +:+ "')"
  | DPure i g =>
      "@pth.pure(" +:+ NL +:+ TAB +:+ "island_name='" +:+ i +:+ "'"
      +:+ (match g with None => "" | Some l => NL +:+ TAB +:+ ", guards=[" +:+ repr_names l +:+ "]" end) +:+ ")"
  end%string.
(** pure_core_classes.py:235-239 *)
Fixpoint aug_text (es : list entry) : string :=
  match es with
  | [] => ""
  | (d, s) :: es' => dec_text d +:+ NL +:+ s +:+ NL +:+ NL +:+ aug_text es'
  end%string.

(** sorted(list of str) *)
Fixpoint insert_str (x : string) (l : list string) : list string :=
  match l with
  | [] => [x]
  | y :: l' => if PureAddr.str_le x y then x :: l else y :: insert_str x l'
  end.
Definition sorted (l : list string) : list string := fold_right insert_str [] l.

(** A function object.  [o_code]: the attributes set by OrdinaryFn._complete_fn_registration (None: not there yet);
    [o_deps]: _autonomous_fn_dependencies (None: attribute not there yet); [o_aug]: _augmented_source_code (None: Python's
    None; an AutonomousFn has neither guards nor this attribute). *)
Record fnobj := FnObj {
  o_kind : kind; o_portal : nat; o_src : string; o_name : string; o_island : string; o_strict : bool;
  o_full : bool; o_code : option string; o_deps : option (list string);
  o_guards : option (list string); o_aug : option (list entry)
}.

(** The session: all function objects, and known_functions of every portal: (portal, island) -> name -> object *)
Record st := St { heap : list fnobj; known : dict (nat * string) (dict string nat) }.

(** what the pickled state holds: pure_core_classes.py:273-286 and autonomous_core_classes.py:318-327 *)
Inductive pickled :=
| PickAut (name src island : string) (strictly : bool)
| PickPure (name src island : string) (aug : list entry) (strictly : bool) (guards : option (list string)).
Global Instance pickled_eq_dec : EqDecision pickled.
Proof. solve_decision. Defined.

(** ** computations that change the session and may raise: what was changed before an exception stays changed *)
Definition M (A : Type) : Type := st -> st * res A.
Definition ret {A} (a : A) : M A := fun s => (s, Ok a).
Definition raise {A} (e : exn) : M A := fun s => (s, Err e).
Definition bnd {A B} (m : M A) (k : A -> M B) : M B :=
  fun s => match m s with (s', Ok a) => k a s' | (s', Err e) => (s', Err e) end.
Definition lift {A} (r : res A) : M A := fun s => (s, r).
Notation "'let!' x := m 'in' k" := (bnd m (fun x => k)) (at level 200, x pattern, m at level 100, k at level 200, right associativity).
Notation "m ;; k" := (bnd m (fun _ => k)) (at level 100, k at level 200, right associativity).
Definition check (c : bool) : M unit := lift (passert c).
Definition get (i : nat) : M fnobj := fun s => (s, match heap s !! i with Some o => Ok o | None => Err KeyError end).
Definition put (i : nat) (f : fnobj -> fnobj) : M unit := fun s => (St (alter f i (heap s)) (known s), Ok tt).
Definition alloc (o : fnobj) : M nat := fun s => (St (heap s ++ [o]) (known s), Ok (List.length (heap s))).
Definition island_of (k : nat * string) : M (option (dict string nat)) := fun s => (s, Ok (dict_get k (known s))).
Definition set_island (k : nat * string) (d : dict string nat) : M unit := fun s => (St (heap s) (dict_set k d (known s)), Ok tt).
Definition or_raise {A} (e : exn) (x : option A) : M A := match x with Some a => ret a | None => raise e end.
Fixpoint mapm {A B} (f : A -> M B) (l : list A) : M (list B) :=
  match l with
  | [] => ret []
  | a :: l' => let! b := f a in let! bs := mapm f l' in ret (b :: bs)
  end.

Section Fields.
  Definition set_names (src name : string) (o : fnobj) := FnObj (o_kind o) (o_portal o) src name (o_island o) (o_strict o) (o_full o) (o_code o) (o_deps o) (o_guards o) (o_aug o).
  Definition set_place (island : string) (strictly : bool) (o : fnobj) := FnObj (o_kind o) (o_portal o) (o_src o) (o_name o) island strictly (o_full o) (o_code o) (o_deps o) (o_guards o) (o_aug o).
  Definition set_full (b : bool) (o : fnobj) := FnObj (o_kind o) (o_portal o) (o_src o) (o_name o) (o_island o) (o_strict o) b (o_code o) (o_deps o) (o_guards o) (o_aug o).
  Definition set_code (c : option string) (o : fnobj) := FnObj (o_kind o) (o_portal o) (o_src o) (o_name o) (o_island o) (o_strict o) (o_full o) c (o_deps o) (o_guards o) (o_aug o).
  Definition set_deps (d : option (list string)) (o : fnobj) := FnObj (o_kind o) (o_portal o) (o_src o) (o_name o) (o_island o) (o_strict o) (o_full o) (o_code o) d (o_guards o) (o_aug o).
  Definition set_guards (g : option (list string)) (o : fnobj) := FnObj (o_kind o) (o_portal o) (o_src o) (o_name o) (o_island o) (o_strict o) (o_full o) (o_code o) (o_deps o) g (o_aug o).
  Definition set_aug (a : option (list entry)) (o : fnobj) := FnObj (o_kind o) (o_portal o) (o_src o) (o_name o) (o_island o) (o_strict o) (o_full o) (o_code o) (o_deps o) (o_guards o) a.
End Fields.

(** autonomous_core_classes.py:202-206, pure_core_classes.py:209-217 *)
Definition decorator (o : fnobj) : decor :=
  match o_kind o with Aut => DAut (o_strict o) (o_island o) | Pure => DPure (o_island o) (o_guards o) end.

(** guards as a user passes them: functions or names *)
Inductive guard_arg := GFn (i : nat) | GName (x : string).

Section Registry.
  (** [normalise drop code]: __get_normalized_function_source__ (Normalizer.v has the model on trees);
      [names_of code]: the names analyzer on a normalised source (NamesAnalyzer.v); [name_of]: get_function_name_from_source;
      [ord]: iteration order of sets (CallGraph.v); [builtins]: dir(builtins); [default_island]: per portal *)
  Variable normalise : bool -> string -> res string.
  Variable names_of : string -> res ana.
  Variable name_of : string -> res string.
  Variable builtins : gset string.
  Variable ord : nat -> gset string -> list string.
  Variable default_island : nat -> string.

  (** names_usage_analyzer.py:148-183 analyze_names_in_function, followed by the callers' check of the normalised source *)
  Definition analyse (src : string) : res ana :=
    let? n := normalise false src in
    let? a := names_of n in
    let? _ := passert (bool_decide (src = n)) in
    Ok a.

  (** ordinary_core_classes.py:90-100, autonomous_core_classes.py:138-143, pure_core_classes.py:155-159 update *)
  Definition update (self other : nat) : M unit :=
    let! o := get other in
    put self (set_names (o_src o) (o_name o)) ;;
    (if o_full o
     then let! c := or_raise AttributeError (o_code o) in
          put self (set_code (Some c)) ;; put self (set_full true)
     else ret tt) ;;
    put self (set_place (o_island o) (o_strict o)) ;;
    (if o_full o
     then let! d := or_raise AttributeError (o_deps o) in put self (set_deps (Some d))
     else ret tt) ;;
    let! me := get self in
    match o_kind me with
    | Aut => ret tt
    | Pure =>
        match o_kind o with
        | Aut => raise AttributeError
        | Pure => put self (set_guards (o_guards o)) ;; put self (set_aug (o_aug o))
        end
    end.

  (** autonomous_core_classes.py:146-188 _begin_fn_registration (pure_core_classes.py:364-372 adds nothing: a registered
      function of the same kind has the attribute) *)
  Definition begin_registration (self : nat) : M unit :=
    put self (set_full false) ;;
    let! me := get self in
    let k := (o_portal me, o_island me) in
    let! i := island_of k in
    (match i with None => set_island k [] | Some _ => ret tt end) ;;
    let! i := island_of k in
    let! isl := or_raise KeyError i in
    match dict_get (o_name me) isl with
    | Some other =>
        let! o := get other in
        check (bool_decide (o_src me = o_src o)) ;;
        check (bool_decide (decorator me = decorator o)) ;;
        check (bool_decide (o_kind me = o_kind o)) ;;
        update self other
    | None =>
        let! a := lift (analyse (o_src me)) in
        lift (begin_check a) ;;
        set_island k (dict_set (o_name me) self isl)
    end.

  (** autonomous_core_classes.py:253-261 *)
  Definition required_names (name : string) (a : ana) : gset string :=
    (a_global a ∪ a_unclassified a) ∖ names_set primary_decorators ∖ builtins ∖ {["pth"%string]} ∖ {[name]} ∖ {["self"%string]}.

  (** call_graph_explorer.py:6-33 on a source: the analysis of one function of the island *)
  Definition names_record (src : string) : res fn_names :=
    let? n := normalise false src in
    let? a := names_of n in
    match a_function a with
    | Some f => Ok (FnNames f (a_global a) (a_nonlocal a) (a_unclassified a))
    | None => Err KeyError
    end.
  Fixpoint names_records (srcs : list string) : res (list fn_names) :=
    match srcs with
    | [] => Ok []
    | s :: l => let? r := names_record s in let? rs := names_records l in Ok (r :: rs)
    end.

  (** autonomous_core_classes.py:274-279 *)
  Definition island_dependencies (isl : dict string nat) (name : string) : M (list string) :=
    let! fs := mapm get (dict_values isl) in
    let! rs := lift (names_records (map o_src fs)) in
    let! d := lift (explore_call_graph_deep ord rs) in
    let! s := or_raise KeyError (dict_get name d) in
    check (negb (bool_decide (s = ∅))) ;;
    ret (sorted (elements s)).

  (** autonomous_core_classes.py:222-285 AutonomousFn._complete_fn_registration; the strictness flag is set before the check
      that may fail (lines 262-272) *)
  Definition complete_autonomous (self : nat) : M unit :=
    let! me := get self in
    if o_full me then ret tt else
    let k := (o_portal me, o_island me) in
    let name := o_name me in
    let! i := island_of k in
    let! isl := or_raise AssertionError i in
    let! other := or_raise AssertionError (dict_get name isl) in
    let! o := get other in
    check (bool_decide (o_src me = o_src o)) ;;
    if o_full o
    then (if decide (o_kind me = Aut) then update self other else ret tt)
    else
      put self (set_code (Some (o_src me))) ;;
      let! a := lift (analyse (o_src me)) in
      let required := required_names name a in
      (if o_strict me
       then check (bool_decide (required = ∅))
       else
         let rest := required ∖ list_to_set (dict_keys isl) in
         (if decide (size rest = size required) then put self (set_place (o_island me) true) else ret tt) ;;
         check (bool_decide (rest = ∅))) ;;
      let! d := island_dependencies isl name in
      put other (set_deps (Some d)) ;;
      put self (set_deps (Some d)) ;;
      if decide (o_kind me = Aut)
      then put self (set_full true) ;; put other (set_full true)
      else ret tt.

  (** autonomous_core_classes.py:208-219 dependencies *)
  Definition dependencies (self : nat) : M (list string) :=
    let! me := get self in
    let! i := island_of (o_portal me, o_island me) in
    let! isl := or_raise KeyError i in
    let! other := or_raise KeyError (dict_get (o_name me) isl) in
    let! o := get other in
    let! d := or_raise AttributeError (o_deps o) in
    check (1 <=? List.length d) ;;
    (if o_strict me then check (List.length d =? 1) else ret tt) ;;
    ret (sorted d).

  (** pure_core_classes.py:229-239: the blocks of the augmented source *)
  Definition augmented_blocks (isl : dict string nat) (fns : list string) : M (list entry) :=
    mapm (fun n => let! j := or_raise KeyError (dict_get n isl) in let! f := get j in ret (decorator f, o_src f)) fns.

  (** pure_core_classes.py:219-252 PureFn._complete_fn_registration *)
  Definition complete (self : nat) : M unit :=
    let! me := get self in
    match o_kind me with
    | Aut => complete_autonomous self
    | Pure =>
        if o_full me then ret tt else
        complete_autonomous self ;;
        let! i := island_of (o_portal me, o_island me) in
        let! isl := or_raise AssertionError i in
        let! deps := dependencies self in
        let fns := sorted ((match o_guards me with Some g => g | None => [] end) ++ deps) in
        let! code := augmented_blocks isl fns in
        let! other := or_raise KeyError (dict_get (o_name me) isl) in
        let! o := get other in
        check (bool_decide (o_kind o = Pure)) ;;
        (match o_aug o with
         | None => put other (set_aug (Some code))
         | Some c => check (bool_decide (c = code))
         end) ;;
        put self (set_aug (Some code)) ;;
        put self (set_full true) ;;
        put other (set_full true)
    end.

  (** pure_core_classes.py:162-186 _preprocess_guards *)
  Definition preprocess_guards (self : nat) (gs : option (list guard_arg)) : M (option (list string)) :=
    match gs with
    | None => ret None
    | Some l =>
        let! me := get self in
        let! i := island_of (o_portal me, o_island me) in
        let! isl := or_raise KeyError i in
        let! ns := mapm (fun g => match g with
                                  | GFn f => let! o := get f in
                                             check (o_strict o) ;;
                                             check (bool_decide (o_island o = o_island me)) ;;
                                             check (bool_decide (o_portal o = o_portal me)) ;;
                                             ret (o_name o)
                                  | GName x => check (dict_mem x isl) ;; ret x
                                  end) l in
        ret (Some (sorted ns))
    end.

  Definition blank (k : kind) (p : nat) : fnobj := FnObj k p "" "" "" false false None None None None.
  Definition island_or_default (island : option string) (p : nat) : string :=
    match island with Some i => i | None => default_island p end.

  (** nobody can reach an object whose constructor raised before it was registered: the model blanks it *)
  Definition discard {A} (self p : nat) (m : M A) : M A :=
    fun s => match m s with
             | (s', Ok a) => (s', Ok a)
             | (s', Err e) => (St (<[self := blank Aut p]> (heap s')) (known s'), Err e)
             end.
  (** AutonomousFn(source, ...) / PureFn(source, ...): ordinary_core_classes.py:72-84, autonomous_core_classes.py:117-136,
      pure_core_classes.py:139-149 *)
  Definition new_fn (k : kind) (code : string) (island : option string) (strictly : bool) (gs : option (list guard_arg)) (p : nat) : M nat :=
    let! self := alloc (blank k p) in
    discard self p (
      let! src := lift (normalise true code) in
      let! name := lift (name_of src) in
      put self (set_names src name) ;;
      put self (set_place (island_or_default island p) (match k with Aut => strictly | Pure => false end)) ;;
      (match k with
       | Aut => ret tt
       | Pure => let! g := preprocess_guards self gs in put self (set_guards g)
       end) ;;
      begin_registration self) ;;
    ret self.

  (** the same constructors given a function object: the three update calls of the base classes have the effect of one, and
      only a PureFn goes on to registration.  (Registration clears the "fully registered" flag; nothing before it reads the
      flag, so the model clears it at once.) *)
  Definition wrap_fn (k : kind) (f : nat) (island : option string) (gs : option (list guard_arg)) (p : nat) : M nat :=
    let! _ := get f in
    let! self := alloc (blank k p) in
    discard self p (
      update self f ;;
      (match k with Aut => ret tt | Pure => put self (set_full false) end) ;;
      let! o := get f in
      check (bool_decide (island_or_default island p = o_island o)) ;;
      match k with
      | Aut => ret tt
      | Pure =>
          let! g := preprocess_guards self gs in
          put self (set_guards g) ;;
          put self (set_aug None) ;;
          begin_registration self
      end) ;;
    ret self.

  (** pure_core_classes.py:256-270 augmented_fn_source_code *)
  Definition augmented_source (self : nat) : M (list entry) :=
    let! me := get self in
    check (o_full me) ;;
    let! i := island_of (o_portal me, o_island me) in
    let! isl := or_raise KeyError i in
    let! other := or_raise KeyError (dict_get (o_name me) isl) in
    let! o := get other in
    or_raise AssertionError (o_aug o).

  (** autonomous_core_classes.py:318-327, pure_core_classes.py:273-286 __getstate__ *)
  Definition get_state (self : nat) : M pickled :=
    let! me := get self in
    match o_kind me with
    | Aut => ret (PickAut (o_name me) (o_src me) (o_island me) (o_strict me))
    | Pure =>
        complete self ;;
        let! me := get self in
        let! aug := augmented_source self in
        ret (PickPure (o_name me) (o_src me) (o_island me) aug (o_strict me) (o_guards me))
    end.

  (** process_augmented_func_src.py:37-61 *)
  Fixpoint process_augmented (p : nat) (es : list entry) : M unit :=
    match es with
    | [] => ret tt
    | (d, src) :: es' =>
        (match d with
         | DAut strictly island => new_fn Aut src (Some island) strictly None p
         | DPure island gs => new_fn Pure src (Some island) false (option_map (map GName) gs) p
         end) ;;
        process_augmented p es'
    end.

  (** autonomous_core_classes.py:329-339, pure_core_classes.py:288-316 __setstate__, in portal [p] *)
  Definition set_state (s : pickled) (p : nat) : M nat :=
    match s with
    | PickAut name src island strictly =>
        let! self := alloc (FnObj Aut p src name island strictly false None None None None) in
        discard self p (begin_registration self) ;;
        ret self
    | PickPure name src island aug strictly guards =>
        let! self := alloc (FnObj Pure p src name island strictly false None None guards None) in
        discard self p (begin_registration self) ;;
        let! i := island_of (p, island) in
        let! isl := or_raise KeyError i in
        let! other := or_raise KeyError (dict_get name isl) in
        let! o := get other in
        (if o_full o
         then check (bool_decide (Some aug = o_aug o))
         else put other (set_aug (Some aug)) ;; process_augmented p aug) ;;
        complete self ;;
        ret self
    end.

  (** ordinary_core_classes.py:135-141, 175-181, autonomous_core_classes.py:288-293: what execute() runs - the compiled code
      and the functions visible under their names *)
  Definition prepare (self : nat) : M (string * dict string nat) :=
    complete self ;;
    let! me := get self in
    let! i := island_of (o_portal me, o_island me) in
    let! isl := or_raise KeyError i in
    let! deps := dependencies self in
    let! js := mapm (fun n => or_raise KeyError (dict_get n isl)) deps in
    let! code := or_raise AttributeError (o_code me) in
    ret (code, dict_update [(o_name me, self); ("self"%string, self)] (zip deps js)).

  (** ** Sessions *)
  Inductive op :=
  | Decorate (k : kind) (code : string) (island : option string) (strictly : bool) (gs : option (list guard_arg)) (p : nat)
  | Wrap (k : kind) (f : nat) (island : option string) (gs : option (list guard_arg)) (p : nat)
  | Call (f : nat)
  | Pickle (f : nat)
  | Unpickle (s : pickled) (p : nat).
  Definition step (o : op) : M unit :=
    match o with
    | Decorate k code island strictly gs p => new_fn k code island strictly gs p ;; ret tt
    | Wrap k f island gs p => wrap_fn k f island gs p ;; ret tt
    | Call f => prepare f ;; ret tt
    | Pickle f => get_state f ;; ret tt
    | Unpickle s p => set_state s p ;; ret tt
    end.
  (** every operation runs to its end or to an exception, which the user catches *)
  Fixpoint run (h : list op) (s : st) : st :=
    match h with [] => s | o :: h' => run h' (fst (step o s)) end.
  (** autonomous_core_classes.py:49-51: a new portal knows its default island, empty *)
  Definition session (ps : list nat) : st :=
    St [] (fold_left (fun d p => dict_set (p, default_island p) [] d) ps []).
End Registry.
