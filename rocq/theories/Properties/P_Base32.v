(** C01, C02, C03: base-32 conversion and signatures. *)
From Verif.Lib Require Import Py.
From Verif.Model Require Import Base32.
From Verif.Spec Require Import Numerals.
From Verif.Proofs Require Import Base32P.
From Coq Require Import Ascii String List.
Local Open Scope Z_scope.

(** C01: encoding any non-negative integer terminates, gives a canonical numeral denoting it, and decodes back. *)
Theorem C01_int_to_text_to_int : forall n, 0 <= n -> exists s,
  convert_int_to_base32 n = Ok s /\ convert_base_32_to_int s = Ok n
  /\ canonical32 s /\ denotes 32 s n.
Proof. exact encode_decode. Qed.
Print Assumptions C01_int_to_text_to_int.

(** C01, converse: every canonical numeral is what its value encodes to. *)
Theorem C01_text_to_int_to_text : forall s, canonical32 s -> exists n,
  convert_base_32_to_int s = Ok n /\ 0 <= n /\ convert_int_to_base32 n = Ok s /\ denotes 32 s n.
Proof. exact decode_encode. Qed.
Print Assumptions C01_text_to_int_to_text.

(** C01: letter case is irrelevant when decoding. *)
Theorem C01_decode_ignores_case : forall s, convert_base_32_to_int (upper s) = convert_base_32_to_int s.
Proof. exact decode_case. Qed.
Print Assumptions C01_decode_ignores_case.

(** C01: decoding succeeds exactly on strings of base-32 digits (either case) and raises KeyError otherwise. *)
Theorem C01_decode_succeeds_iff : forall s, is_ok (convert_base_32_to_int s) = all_chars anydigit s.
Proof. exact decode_ok_iff. Qed.
Print Assumptions C01_decode_succeeds_iff.

Theorem C01_decode_rejects : forall s,
  all_chars anydigit s = false -> convert_base_32_to_int s = Err KeyError.
Proof. exact decode_keyerror. Qed.
Print Assumptions C01_decode_rejects.

(** Zero and negative integers are encoded as the empty string. *)
Theorem C01_nonpositive_is_empty : forall n, n <= 0 -> convert_int_to_base32 n = Ok ""%string.
Proof. exact encode_nonpos. Qed.
Print Assumptions C01_nonpositive_is_empty.

Example C01_example : canonical32 "v0a"
  /\ convert_base_32_to_int "V0A" = Ok 31754 /\ convert_int_to_base32 31754 = Ok "v0a"%string
  /\ convert_base_32_to_int "w" = Err KeyError.
Proof. vm_compute. repeat split; reflexivity. Qed.

(** C02: the base-32 text denotes the same number as the hexadecimal text. *)
Theorem C02_hex_to_base32_same_number : forall h, all_chars is_hex h = true -> exists n s,
  denotes 16 h n /\ convert_base16_to_base32 h = Ok s /\ denotes 32 s n
  /\ (0 < n -> s <> ""%string /\ canonical32 s)
  /\ (h <> ""%string -> canonical32 s).
Proof. exact hex_convert. Qed.
Print Assumptions C02_hex_to_base32_same_number.

(** C02: two lower-case digests of equal length with the same base-32 text are the same digest. *)
Theorem C02_digests_never_collide : forall h1 h2 s,
  all_chars is_hex h1 = true -> all_chars is_hex h2 = true ->
  is_lower_text h1 = true -> is_lower_text h2 = true ->
  String.length h1 = String.length h2 ->
  convert_base16_to_base32 h1 = Ok s -> convert_base16_to_base32 h2 = Ok s -> h1 = h2.
Proof. exact hex_convert_inj. Qed.
Print Assumptions C02_digests_never_collide.

(** Finding: the digest 0..0 gives the empty text, while the empty digest gives "0". *)
Theorem C02_zero_digest_is_empty_text :
  convert_base16_to_base32 "00000000" = Ok ""%string /\ convert_base16_to_base32 "" = Ok "0"%string.
Proof. exact (conj eq_refl eq_refl). Qed.
Print Assumptions C02_zero_digest_is_empty_text.

Example C02_example : all_chars is_hex "Ff00" = true /\ denotes 16 "Ff00" 65280
  /\ convert_base16_to_base32 "Ff00" = Ok "1vo0"%string.
Proof. repeat split; try (vm_compute; reflexivity). apply denotes_fold. reflexivity. Qed.

(** C03: shape of signatures. *)
Theorem C03_random_signature_shape : forall n, 0 <= n -> exists s, random_signature_of_int n = Ok s
  /\ (String.length s <= 22)%nat /\ all_chars is_digit32 s = true
  /\ (32 ^ 21 <= n -> String.length s = 22%nat).
Proof. exact signature_shape. Qed.
Print Assumptions C03_random_signature_shape.

(** C03: the signature of a (non-empty) hexadecimal digest is that of the number it denotes. *)
Theorem C03_hash_signature_is_signature_of_number : forall h n,
  h <> ""%string -> all_chars is_hex h = true -> denotes 16 h n ->
  hash_signature_of_digest h = random_signature_of_int n.
Proof. exact hash_signature_as_random. Qed.
Print Assumptions C03_hash_signature_is_signature_of_number.

(** C03: numbers with the same number [k] of base-32 digits have the same signature exactly when they
    agree on their (at most) 22 leading base-32 digits. *)
Theorem C03_signature_equality : forall (k : nat) n1 n2, 0 < n1 -> 0 < n2 ->
  32 ^ (Z.of_nat k - 1) <= n1 < 32 ^ Z.of_nat k ->
  32 ^ (Z.of_nat k - 1) <= n2 < 32 ^ Z.of_nat k ->
  random_signature_of_int n1 = random_signature_of_int n2 <->
  n1 / 32 ^ (Z.of_nat k - Z.min (Z.of_nat k) 22) = n2 / 32 ^ (Z.of_nat k - Z.min (Z.of_nat k) 22).
Proof. exact signature_eq. Qed.
Print Assumptions C03_signature_equality.

Example C03_example :
  (32 ^ (Z.of_nat 24 - 1) <= 32 ^ 23 + 5 < 32 ^ Z.of_nat 24)
  /\ random_signature_of_int (32 ^ 23 + 5) = random_signature_of_int (32 ^ 23 + 1023)
  /\ random_signature_of_int (32 ^ 23 + 5) <> random_signature_of_int (32 ^ 23 + 1024).
Proof. repeat split; try (vm_compute; reflexivity); vm_compute; discriminate. Qed.
