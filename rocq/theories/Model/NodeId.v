(** Model of _820_strings_signatures_converters/node_signatures.py, with the use made of it in
    _090_swarming_portals/swarming_portals.py:55, 101-103. *)
From Coq Require Import String.
From Verif.Lib Require Import Py.
From Verif.Model Require Import Base32.
From stdpp Require Import pretty.

(** node_signatures.py:8-14: what uuid, platform and getpass report: a number and six texts *)
Record computer := Computer {
  mac : N;              (* uuid.getnode() *)
  system : string;      (* platform.system() *)
  release : string;     (* platform.release() *)
  version : string;     (* platform.version() *)
  machine : string;     (* platform.machine() *)
  processor : string;   (* platform.processor() *)
  user : string         (* getpass.getuser() *)
}.

(** node_signatures.py:15-16  id_string: the number in decimal digits and the texts, one after the other *)
Definition id_string (c : computer) : string :=
  String.append (pretty (mac c)) (String.append (system c) (String.append (release c) (String.append (version c)
    (String.append (machine c) (String.append (processor c) (user c)))))).

(** node_signatures.py:17  get_hash_signature(id_string) (hash_signatures.py:13-28); [digest] is joblib's hexadecimal digest of a text *)
Definition get_node_signature (digest : string -> string) (c : computer) : res string :=
  hash_signature_of_digest (digest (id_string c)).
