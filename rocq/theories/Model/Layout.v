(** Model of where a portal keeps its data: the stores created by the constructors of the portal classes, their settings,
    the files they use, get_params and the rebuilding of a portal from its parameters.  Definitions only.

    persidict is not part of the repository; what is used of its FileDirDict is modelled by its contract:
    - a dictionary is determined by the directory, the file type, whether items are immutable, the length of the digests
      added to key parts, and the class its values must belong to (all returned by get_params, all accepted by the
      constructor);
    - the item with key (k1, ..., kn) is the file base_dir/k1/.../kn.<file type>, where each part gets a digest unless
      digest_len is 0;
    - get_subdict(name) has the same settings and the directory base_dir/name (with a digest unless digest_len is 0);
    - d[key] = value raises TypeError for a value of a wrong class, KeyError for a present key of immutable items;
    - len(d) is the number of files of the file type in the directory and below it.
    Simplified: a file holds a value (that pickle and JSON give back what was stored is not modelled); a directory named
    like a file does not stand in its way; paths have no symbolic links. *)
From Coq Require Import QArith.
From stdpp Require Import gmap.
From Verif Require Import Lib.Py Model.Portals.
Local Open Scope nat_scope.

Definition path := list string.
Definition key := list string.

Record settings := Settings {
  base_dir : path;
  file_type : string;
  immutable : bool;
  digest_len : nat;
  value_class : option string      (* base_class_for_values *)
}.

(** persidict sign_safe_str: a part of a key and, unless [n] is 0, the first [n] characters of its digest *)
Definition sign (digest : nat -> string -> string) (n : nat) (s : string) : string :=
  if (n =? 0)%nat then s else (s +:+ "_" +:+ digest n s)%string.

(** FileDirDict.get_subdict *)
Definition get_subdict (digest : nat -> string -> string) (s : settings) (name : string) : settings :=
  Settings (base_dir s ++ [sign digest (digest_len s) name]) (file_type s) (immutable s) (digest_len s) (value_class s).

(** The file of an item: its directory inside the dictionary's, its name *)
Fixpoint item_path (part : string -> string) (ft : string) (k : key) : path :=
  match k with
  | [] => [("." +:+ ft)%string]
  | [x] => [(part x +:+ "." +:+ ft)%string]
  | x :: k' => part x :: item_path part ft k'
  end.
Definition file_of (digest : nat -> string -> string) (s : settings) (k : key) : path :=
  base_dir s ++ item_path (sign digest (digest_len s)) (file_type s) k.

(** ** The stores of a portal *)
(** The root_dict argument: nothing, the name of a directory, a dictionary with its settings *)
Inductive root_arg := NoRoot | DirRoot (p : path) | DictRoot (s : settings).
(** FileDirDict(base_dir=...): the default values of persidict *)
Definition file_dir_dict (p : path) : settings := Settings p "pkl" false 8 None.
(** foundation.py:54-64: the root dictionary of a portal *)
Definition root_dict (default_base_dir : path) (r : root_arg) : settings :=
  let s := match r with
           | NoRoot => file_dir_dict default_base_dir
           | DirRoot p => file_dir_dict p
           | DictRoot s => s
           end in
  Settings (base_dir s) (file_type s) (immutable s) 0 (value_class s).

(** The stores, in the order in which the constructors create them *)
Inductive store :=
| CrashHistory | EventLog                       (* logging_portals.py:123-134 *)
| ValueStore                                    (* data_portals.py:46-53 *)
| ExecutionResults | ExecutionRequests          (* pure_core_classes.py:61-75 *)
| HistoryJson | HistoryPy | HistoryTxt | HistoryPkl     (* pure_core_classes.py:77-88 run_history.json, .py, .txt, .pkl *)
| NodesJson | NodesPkl.                         (* swarming_portals.py:46-55 compute_nodes.json, .pkl *)
Global Instance store_eq_dec : EqDecision store. Proof. solve_decision. Defined.
(** params.update(...) *)
Definition upd_type (t : string) (s : settings) := Settings (base_dir s) t (immutable s) (digest_len s) (value_class s).
Definition upd_immutable (b : bool) (s : settings) := Settings (base_dir s) (file_type s) b (digest_len s) (value_class s).
Definition upd_digest (n : nat) (s : settings) := Settings (base_dir s) (file_type s) (immutable s) n (value_class s).
Definition upd_class (c : string) (s : settings) := Settings (base_dir s) (file_type s) (immutable s) (digest_len s) (Some c).
(** overlapping_multi_dict.py:30-35: one subdictionary: shared parameters, then its own, then the file type *)
Definition multi (shared : settings) (own : settings -> settings) (name : string) : settings := upd_type name (own shared).

(** The settings of the stores of a portal with root [r]. *)
Definition store_settings (digest : nat -> string -> string) (r : settings) (st : store) : settings :=
  let sub := get_subdict digest r in
  match st with
  (* logging_portals.py:123-128 *)
  | CrashHistory => upd_digest 0 (upd_immutable true (upd_type "json" (sub "crash_history")))
  (* logging_portals.py:130-134 *)
  | EventLog => upd_digest 0 (upd_immutable true (upd_type "json" (sub "event_log")))
  (* data_portals.py:47-51 *)
  | ValueStore => upd_type "pkl" (upd_immutable true (upd_digest 0 (sub "value_store")))
  (* pure_core_classes.py:61-65 *)
  | ExecutionResults => upd_type "pkl" (upd_immutable true (sub "execution_results"))
  (* pure_core_classes.py:70-74 *)
  | ExecutionRequests => upd_type "pkl" (upd_immutable false (sub "execution_requests"))
  (* pure_core_classes.py:77-87 *)
  | HistoryJson => multi (sub "run_history") (upd_immutable true) "json"
  | HistoryPy => multi (sub "run_history") (fun s => upd_immutable false (upd_class "str" s)) "py"
  | HistoryTxt => multi (sub "run_history") (fun s => upd_immutable true (upd_class "str" s)) "txt"
  | HistoryPkl => multi (sub "run_history") (upd_immutable true) "pkl"
  (* swarming_portals.py:46-54 *)
  | NodesJson => multi (sub "compute_nodes") (upd_immutable false) "json"
  | NodesPkl => multi (sub "compute_nodes") (upd_immutable false) "pkl"
  end.
(** The stores wrapped into a FirstEntryDict (data_portals.py:52, pure_core_classes.py:66-67) *)
Definition first_entry (st : store) : bool := match st with ValueStore | ExecutionResults => true | _ => false end.

(** ** Items *)
Section Items.
Context {V : Type} (digest : nat -> string -> string) (belongs : V -> string -> bool).   (* isinstance(value, class) *)

(** FileDirDict.__getitem__, __contains__; the file system is the map from the paths of the files to what they hold *)
Definition fd_get (s : settings) (k : key) (f : gmap path V) : res V :=
  match f !! file_of digest s k with Some v => Ok v | None => Err KeyError end.
Definition fd_in (s : settings) (k : key) (f : gmap path V) : bool := bool_decide (is_Some (f !! file_of digest s k)).
(** FileDirDict.__setitem__ *)
Definition fd_set (s : settings) (k : key) (v : V) (f : gmap path V) : gmap path V * res unit :=
  if match value_class s with Some c => negb (belongs v c) | None => false end then (f, Err TypeError)
  else if immutable s && fd_in s k f then (f, Err KeyError)
  else (<[file_of digest s k := v]> f, Ok tt).
(** FileDirDict.__delitem__ *)
Definition fd_del (s : settings) (k : key) (f : gmap path V) : gmap path V * res unit :=
  if immutable s then (f, Err KeyError)
  else if fd_in s k f then (delete (file_of digest s k) f, Ok tt)
  else (f, Err KeyError).
(** is [p] the path of a file of dictionary [s]: below its directory, with its ending *)
Fixpoint below (d p : path) : option path :=
  match d, p with
  | [], _ => Some p
  | x :: d', y :: p' => if String.eqb x y then below d' p' else None
  | _, [] => None
  end.
Fixpoint ends_with (suffix s : string) : bool :=
  String.eqb suffix s || match s with String _ s' => ends_with suffix s' | EmptyString => false end.
Definition counted (s : settings) (p : path) : bool :=
  match below (base_dir s) p with
  | Some q => match List.last q ""%string with
              | name => negb (bool_decide (q = [])) && ends_with ("." +:+ file_type s)%string name
              end
  | None => false
  end.
(** FileDirDict.__len__ *)
Definition fd_len (s : settings) (f : gmap path V) : nat := length (List.filter (fun '(p, _) => counted s p) (map_to_list f)).

(** portal.<store>[key] = value: through FirstEntryDict (first_entry_dict.py:31-50; its consistency checks are in
    FirstEntry.v) or directly.  A present item is left alone; the second try after an error does the same again. *)
Definition store_set (r : settings) (st : store) (k : key) (v : V) (f : gmap path V) : gmap path V * res unit :=
  let s := store_settings digest r st in
  if first_entry st then (if fd_in s k f then (f, Ok tt) else fd_set s k v f)
  else fd_set s k v f.
Definition store_get (r : settings) (st : store) (k : key) (f : gmap path V) : res V := fd_get (store_settings digest r st) k f.
(** del portal.<store>[key]; FirstEntryDict (first_entry_dict.py:10-91) has no __delitem__ of its own and inherits that of
    PersiDict, which refuses to delete immutable items *)
Definition store_del (r : settings) (st : store) (k : key) (f : gmap path V) : gmap path V * res unit :=
  let s := store_settings digest r st in
  if first_entry st then (f, Err KeyError) else fd_del s k f.
(** len(portal.<store>); data_portals.py:65-67 "Values, total", pure_core_classes.py:95-100 "Cached execution results" and
    "Execution queue size" *)
Definition store_len (r : settings) (st : store) (f : gmap path V) : nat := fd_len (store_settings digest r st) f.

Inductive store_op := SetItem (st : store) (k : key) (v : V) | DelItem (st : store) (k : key).
Definition do_op (r : settings) (o : store_op) (f : gmap path V) : gmap path V :=
  fst match o with SetItem st k v => store_set r st k v f | DelItem st k => store_del r st k f end.
End Items.

(** ** Parameters *)
(** A portal: its class, root and options.  [results_checks]: the p_consistency_checks of execution_results *)
Record portal := Portal {
  class : pclass;
  root : settings;
  checks : option Q;
  results_checks : option Q;
  island : string;
  workers : Z;
  runtime : nat
}.
(** Keyword arguments of a constructor: [None] = not given *)
Record kwargs := Kwargs {
  kw_root : option root_arg;
  kw_checks : option (option Q);
  kw_island : option string;
  kw_workers : option Z;
  kw_runtime : option (option nat)
}.
Definition no_kwargs := Kwargs None None None None None.
(** The keyword arguments that the constructor of a class has: foundation.py:54, logging_portals.py:119,
    data_portals.py:35-38, autonomous_core_classes.py:40-44, pure_core_classes.py:52-56, swarming_portals.py:32-38,
    default_local_portal.py:28 *)
Definition takes (c : pclass) (kw : kwargs) : bool :=
  match c with
  | DefaultLocalPortal => bool_decide (kw_root kw = None) && bool_decide (kw_checks kw = None) && bool_decide (kw_island kw = None)
                          && bool_decide (kw_workers kw = None) && bool_decide (kw_runtime kw = None)
  | _ => (instance_of c DataPortal || bool_decide (kw_checks kw = None))
         && (instance_of c AutonomousCodePortal || bool_decide (kw_island kw = None))
         && (instance_of c SwarmingPortal || (bool_decide (kw_workers kw = None) && bool_decide (kw_runtime kw = None)))
  end.
(** SomeClass([kwargs]): the portal that results.  [home] is default_base_dir(), [rid] the identifier that
    get_random_signature() would return.  The checks of the values are in Construct.v; here they are assumed to pass. *)
Definition open (home : path) (rid : nat) (c : pclass) (kw : kwargs) : res portal :=
  if takes c kw then
    let p := default None (kw_checks kw) in
    Ok (Portal c (root_dict home (default NoRoot (kw_root kw)))
          (match p with None => Some 0%Q | Some q => Some q end)            (* data_portals.py:42-44 *)
          (match c with DefaultLocalPortal => Some 0%Q | _ => p end)        (* pure_core_classes.py:66-67; default_local_portal.py:35 *)
          (default "Samos"%string (kw_island kw))
          (default 3%Z (kw_workers kw))
          (match default None (kw_runtime kw) with None => rid | Some r => r end))
  else Err TypeError.
(** foundation.py:66-69, data_portals.py:55-59, autonomous_core_classes.py:53-57, swarming_portals.py:82-87 get_params *)
Definition get_params (P : portal) : kwargs :=
  let c := class P in
  Kwargs (Some (DictRoot (root P)))
    (if instance_of c DataPortal then Some (checks P) else None)
    (if instance_of c AutonomousCodePortal then Some (island P) else None)
    (if instance_of c SwarmingPortal then Some (workers P) else None)
    (if instance_of c SwarmingPortal then Some (Some (runtime P)) else None).
(** parameterizable.get_object_from_portable_params(portal.__get_portable_params__()) (swarming_portals.py:123,180,201): the
    class is found by its name among the registered ones (only SwarmingPortal is registered, swarming_portals.py:175) and
    called with the parameters; dictionaries among them are rebuilt in the same way.  Contract of the package. *)
Definition rebuild (home : path) (rid : nat) (registered : pclass -> bool) (P : portal) : res portal :=
  if registered (class P) then open home rid (class P) (get_params P) else Err KeyError.
(** What a background worker starts from: swarming_portals.py:121-128, 177-182, 198-203 *)
Definition no_workers (kw : kwargs) : kwargs := Kwargs (kw_root kw) (kw_checks kw) (kw_island kw) (Some 0%Z) (kw_runtime kw).
Definition worker_portal (home : path) (rid : nat) (registered : pclass -> bool) (P : portal) : res portal :=
  if registered (class P) then open home rid (class P) (no_workers (get_params P)) else Err KeyError.
(** The consistency check of FirstEntryDict is made (first_entry_dict.py:52-55) *)
Definition check_made (p : option Q) (draw : Q) : bool :=
  match p with None => false | Some q => negb (Qle_bool q 0) && negb (Qle_bool q draw) end.
