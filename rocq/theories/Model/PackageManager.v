(** Model of _050_safe_functions/package_manager.py and of the small part of pip and importlib that it uses.
    Simplified: a package has releases (newest first), each with the top-level modules it contains; dependencies of packages,
    extras, markers and version ranges are left out; pip fails only for packages or versions that do not exist; importing
    a module that can be found does not raise; module names have no dots. *)
From Verif.Lib Require Import Py.
From stdpp Require Import gmap.
From Coq Require Import Ascii.
Local Open Scope string_scope.

Record env := Env {
  dists : gmap string string;               (* installed packages and their versions *)
  loaded : gmap string (string * string)    (* sys.modules: module, and the package and version whose code was loaded *)
}.
(** the ways a call ends: it returns; CalledProcessError (subprocess.run with check=True); ModuleNotFoundError; Exception *)
Inductive outcome := Returned | PipFailed | ImportFailed | ValidationFailed.

(** pip's reading of a requirement: everything up to the first '==' is the package's name *)
Fixpoint parse_spec (s : string) : string * option string :=
  match s with
  | EmptyString => (EmptyString, None)
  | String c r =>
      match c, r with
      | "="%char, String "="%char v => (EmptyString, Some v)
      | _, _ => let '(n, v) := parse_spec r in (String c n, v)
      end
  end.

Section Pip.
  Context (releases : string -> list string) (modules : string -> string -> list string) (builtin : list string).

  (** pip install [--upgrade] spec; None: pip ends with an error *)
  Definition pip_install (upgrade : bool) (spec : string) (e : env) : option env :=
    match parse_spec spec with
    | (n, Some v) => if decide (v ∈ releases n) then Some (Env (<[n := v]> (dists e)) (loaded e)) else None
    | (n, None) =>
        match dists e !! n, upgrade with
        | Some _, false => Some e                                                  (* Requirement already satisfied *)
        | Some w, true => match releases n with v :: _ => Some (Env (<[n := v]> (dists e)) (loaded e)) | [] => Some e end
        | None, _ => match releases n with v :: _ => Some (Env (<[n := v]> (dists e)) (loaded e)) | [] => None end
        end
    end.
  (** pip uninstall -y name: a package that is not installed is only warned about *)
  Definition pip_uninstall (n : string) (e : env) : env := Env (delete n (dists e)) (loaded e).

  (** the packages on disk: where the code of module m is found *)
  Definition find_module (m : string) (d : gmap string string) : option (string * string) :=
    if decide (m ∈ builtin) then Some (EmptyString, EmptyString)
    else head (List.filter (fun '(n, v) => bool_decide (m ∈ modules n v)) (map_to_list d)).
  (** importlib.import_module: a loaded module is returned as it is *)
  Definition import_module (m : string) (e : env) : option env :=
    match loaded e !! m with
    | Some _ => Some e
    | None => match find_module m (dists e) with Some x => Some (Env (dists e) (<[m := x]> (loaded e))) | None => None end
    end.
  (** importlib.reload *)
  Definition reload (m : string) (e : env) : option env :=
    match find_module m (dists e) with Some x => Some (Env (dists e) (<[m := x]> (loaded e))) | None => None end.

  (** package_manager.py:6-22 *)
  Definition package_spec (name : string) (version : option string) : string :=          (* line 16 *)
    match version with
    | Some v => if decide (v = EmptyString) then name else String.append name (String.append "==" v)
    | None => name
    end.
  Definition install_package (name : string) (upgrade : bool) (version : option string) (e : env) : env * outcome :=
    match pip_install upgrade (package_spec name version) e with                          (* lines 11-20 *)
    | None => (e, PipFailed)
    | Some e1 => match import_module name e1 with                                         (* line 22 *)
                 | Some e2 => (e2, Returned)
                 | None => (e1, ImportFailed)
                 end
    end.
  (** package_manager.py:24-38 *)
  Definition uninstall_package (name : string) (e : env) : env * outcome :=
    let e1 := pip_uninstall name e in                                                     (* lines 27-29 *)
    match import_module name e1 with                                                      (* line 32 *)
    | None => (e1, Returned)
    | Some e2 => match reload name e2 with                                                (* line 33 *)
                 | None => (e2, Returned)                                                 (* lines 34-35 *)
                 | Some e3 => (e3, ValidationFailed)                                      (* lines 36-38 *)
                 end
    end.
End Pip.
