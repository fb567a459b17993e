(** Model of what a result address tells about its call: _070_pure_functions/pure_core_classes.py:720-779, for an address
    object whose caches are empty (restored from a pickle, or read from the queue); with filled caches the same objects are
    returned without looking (ResultCache.v). *)
From Verif.Lib Require Import Py.
From Verif.Model Require Import PureAddr PureExec.

Section Access.
  Context {D : Type} (ses : session).
  (** lines 720-730, 732-736  function, fn *)
  Definition addr_function (p : nat) (a : addr) : @M D fn_state := load_function ses p a.
  (** lines 739-745  fn_name *)
  Definition addr_fn_name (p : nat) (a : addr) : @M D string :=
    pbind (resolve ses p (signature_addr a)) (fun s => match s with VSig n _ _ _ => pret n | _ => pfail AttributeError end).
  (** lines 748-753  fn_source_code *)
  Definition addr_source (p : nat) (a : addr) : @M D string := pbind (addr_function p a) (fun f => pret (fn_source f)).
  (** lines 756-760  island_name *)
  Definition addr_island_name (p : nat) (a : addr) : @M D string := pbind (addr_function p a) (fun f => pret (island_name f)).
  (** lines 763-772  arguments (packed) *)
  Definition addr_arguments (p : nat) (a : addr) : @M D (list (string * arg D)) := load_arguments ses p a.
  (** lines 775-779  kwargs (unpacked) *)
  Definition addr_kwargs (p : nat) (a : addr) : @M D (list (string * arg D)) :=
    pbind (addr_arguments p a) (fun args => unpack_in ses p args).
End Access.
