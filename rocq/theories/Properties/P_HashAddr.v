(** C04: the text of an address determines lower-cased class name, length/shape and digest signature. *)
From Verif.Lib Require Import Py.
From Verif.Model Require Import Base32 HashAddr.
From Verif.Spec Require Import Numerals.
From Verif.Proofs Require Import HashAddrP.

Theorem C04_address_text_determines_parts : forall x1 x2 a,
  all_chars is_hex (o_digest16 x1) = true -> all_chars is_hex (o_digest16 x2) = true ->
  address_text x1 = Ok a -> address_text x2 = Ok a ->
  str_lower (o_class x1) = str_lower (o_class x2)
  /\ o_struct x1 = o_struct x2
  /\ hash_signature_of_digest (o_digest16 x1) = hash_signature_of_digest (o_digest16 x2).
Proof. exact address_text_inj. Qed.
Print Assumptions C04_address_text_determines_parts.

(** Every object with a hexadecimal digest gets an address. *)
Theorem C04_address_text_total : forall x,
  all_chars is_hex (o_digest16 x) = true -> is_ok (address_text x) = true.
Proof. exact address_total. Qed.
Print Assumptions C04_address_text_total.

(** Expected texts, and the odd descriptor of zero-dimensional shapes ("sha_" instead of "shape_"). *)
Example C04_example :
  address_text (Obj "ndarray" (HasShape [2; 30]%N) "ff") = Ok ("ndarray", "shape_2_x_30_7v")%string
  /\ address_text (Obj "Dict" (HasLen 12%N) "ff") = Ok ("dict", "len_12_7v")%string
  /\ address_text (Obj "float64" (HasShape []) "ff") = Ok ("float64", "sha_7v")%string
  /\ all_chars is_hex "ff" = true.
Proof. vm_compute. repeat split; reflexivity. Qed.
