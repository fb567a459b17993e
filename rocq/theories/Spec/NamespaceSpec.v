(** Vocabulary of C126: what a name that a running autonomous function looks up outside itself means. *)
From Coq Require Import String Ascii.
From stdpp Require Import gmap.
From Verif Require Import Lib.Py Model.SourceText.
Local Open Scope nat_scope.

Inductive meaning :=
| Helper (x : string)      (* the function registered in the island under this name *)
| Itself                   (* the function object *)
| Package                  (* pythagoras *)
| Library (x : string)     (* a global of the library's own module ordinary_core_classes *)
| Arguments                (* the dictionary of keyword arguments *)
| BuiltIn (x : string)
| NameError_.              (* looking it up raises NameError *)
(** Python looks in the namespace of the call first and among the built-ins after that.  [library]: the globals of
    ordinary_core_classes.py; [deps]: the dependencies of the function called [name]. *)
Definition meaning_of (library : list string) (builtins : gset string) (name : string) (hash : text) (deps : list string) (x : string) : meaning :=
  match dict_get (T x) (namespace (autonomous_names (map T library) (T name) (map T deps)) (T name) hash) with
  | Some (BIsland _) => Helper x
  | Some BSelf => Itself
  | Some BPth => Package
  | Some (BModule _) => Library x
  | Some BKwargs => Arguments
  | None => if decide (x ∈ builtins) then BuiltIn x else NameError_
  end.
