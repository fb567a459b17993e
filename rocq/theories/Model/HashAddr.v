(** Model of the address texts of _030_data_portals/hash_addresses.py. *)
From Verif.Lib Require Import Py.
From Verif.Model Require Import Base32.
From stdpp Require Import pretty.
From Coq Require Import Ascii.

(** What hash_addresses.py:55-64 observes of an object: an iterable, non-callable [shape] attribute
    (dimensions are non-negative integers), else a length, else nothing. *)
Inductive structure :=
| HasShape (dims : list N)
| HasLen (n : N)
| Plain.

(** What _build_prefix / _build_hash_signature observe of an object: class name, structure and the
    hexadecimal digest that joblib computes for it (hash_signatures.py:13-19, external). *)
Record obj := Obj { o_class : string; o_struct : structure; o_digest16 : string }.

(** hash_addresses.py:43-48  _build_prefix *)
Definition build_prefix (x : obj) : string := str_lower (o_class x).

(** s[:-k] for a string of length at least k *)
Definition str_drop_last (k : nat) (s : string) : string := String.substring 0 (String.length s - k) s.

(** hash_addresses.py:57-60: descriptor for objects with a shape *)
Definition shape_connector : string := "_x_".
Definition shape_descriptor (dims : list N) : string :=
  let descriptor :=
    fold_left (fun d n => String.append d (String.append (pretty n) shape_connector)) dims "shape_" in
  String.append (str_drop_last (String.length shape_connector) descriptor) "_".

(** hash_addresses.py:55-64: descriptor *)
Definition descriptor_of (st : structure) : string :=
  match st with
  | HasShape dims => shape_descriptor dims
  | HasLen n => String.append "len_" (String.append (pretty n) "_")
  | Plain => ""
  end.

(** hash_addresses.py:51-70  _build_hash_signature.  replace_unsafe_chars (line 66, persidict) is the
    identity here: letters, digits and '_' are safe characters. *)
Definition build_hash_signature (x : obj) : res string :=
  let? raw := hash_signature_of_digest (o_digest16 x) in
  Ok (String.append (descriptor_of (o_struct x)) raw).

(** value_addresses.py:54-56: the two strings of the address of an object *)
Definition address_text (x : obj) : res (string * string) :=
  let? h := build_hash_signature x in Ok (build_prefix x, h).
