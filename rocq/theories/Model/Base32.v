(** Model of _820_strings_signatures_converters: base_16_32_convertors.py, hash_signatures.py,
    random_signatures.py. Strings are Coq [string]s of 8-bit characters (Python strings are Unicode; the
    functions below reject every non-ASCII character except U+212A KELVIN SIGN, whose [lower()] is 'k'). *)
From Verif.Lib Require Import Py.
From Coq Require Import Ascii.
Local Open Scope Z_scope.

(** base_16_32_convertors.py:2  base32_alphabet *)
Definition base32_alphabet : string := "0123456789abcdefghijklmnopqrstuv".

(** base_16_32_convertors.py:3  base32_alphabet_map = {char:index for index,char in enumerate(...)} *)
Definition base32_alphabet_map : dict ascii Z :=
  fold_left (fun acc '(i, c) => dict_set c (Z.of_nat i) acc)
            (imap (fun i c => (i, c)) (list_ascii_of_string base32_alphabet)) [].

(** base_16_32_convertors.py:29-34: the [while n > 0] loop.  Python's [&] and [>>] on ints are
    [Z.land]/[Z.shiftr].  Fuel: exhausted is [Err OutOfFuel] (proved impossible). *)
Fixpoint int_to_base32_loop (fuel : nat) (n : Z) (acc : string) : res string :=
  if 0 <? n then
    match fuel with
    | O => Err OutOfFuel
    | S fuel' =>
        match String.get (Z.to_nat (Z.land n 31)) base32_alphabet with
        | Some c => int_to_base32_loop fuel' (Z.shiftr n 5) (String c acc)
        | None => Err IndexError
        end
    end
  else Ok acc.

(** base_16_32_convertors.py:22-34  convert_int_to_base32 *)
Definition convert_int_to_base32 (n : Z) : res string :=
  int_to_base32_loop (S (Z.to_nat (Z.log2 n))) n "".

(** str.lower() on one 8-bit character, ASCII letters only (used by base_16_32_convertors.py:43) *)
Definition char_lower (c : ascii) : ascii :=
  let n := nat_of_ascii c in
  if (Nat.leb 65 n && Nat.leb n 90)%bool then ascii_of_nat (n + 32) else c.

Fixpoint str_lower (s : string) : string :=
  match s with
  | EmptyString => EmptyString
  | String c s' => String (char_lower c) (str_lower s')
  end.

(** base_16_32_convertors.py:45-46: the for loop; a missing key raises KeyError *)
Fixpoint base32_to_int_loop (s : string) (num : Z) : res Z :=
  match s with
  | EmptyString => Ok num
  | String c s' =>
      match dict_get c base32_alphabet_map with
      | Some d => base32_to_int_loop s' (num * 32 + d)
      | None => Err KeyError
      end
  end.

(** base_16_32_convertors.py:36-47  convert_base_32_to_int *)
Definition convert_base_32_to_int (digest : string) : res Z :=
  base32_to_int_loop (str_lower digest) 0.

(** Python's int(h, 16) (used by base_16_32_convertors.py:16), for strings of hexadecimal digits; signs,
    blanks, underscores and the 0x prefix, which Python also accepts, are rejected here. *)
Definition hex_digit (c : ascii) : option Z :=
  let n := Z.of_nat (nat_of_ascii c) in
  if (48 <=? n) && (n <=? 57) then Some (n - 48)
  else if (97 <=? n) && (n <=? 102) then Some (n - 87)
  else if (65 <=? n) && (n <=? 70) then Some (n - 55)
  else None.

Fixpoint int16_loop (s : string) (num : Z) : res Z :=
  match s with
  | EmptyString => Ok num
  | String c s' =>
      match hex_digit c with
      | Some d => int16_loop s' (num * 16 + d)
      | None => Err ValueError
      end
  end.

Definition int16 (s : string) : res Z :=
  match s with EmptyString => Err ValueError | _ => int16_loop s 0 end.

(** base_16_32_convertors.py:6-19  convert_base16_to_base32 *)
Definition convert_base16_to_base32 (hexdigest : string) : res string :=
  match hexdigest with
  | EmptyString => Ok "0"%string
  | _ => let? num := int16 hexdigest in convert_int_to_base32 num
  end.

(** hash_signatures.py:11, random_signatures.py:6  max_signature_length *)
Definition max_signature_length : nat := 22.

(** s[:n] *)
Definition str_take (n : nat) (s : string) : string := String.substring 0 n s.

(** hash_signatures.py:21-28  get_base32_hash_signature / get_hash_signature, as a function of the
    hexadecimal digest computed by joblib (get_base16_hash_signature, lines 13-19, is external) *)
Definition hash_signature_of_digest (digest16 : string) : res string :=
  let? s := convert_base16_to_base32 digest16 in Ok (str_take max_signature_length s).

(** random_signatures.py:8-12  get_random_signature, as a function of the drawn integer uuid4().int *)
Definition random_signature_of_int (random_int : Z) : res string :=
  let? s := convert_int_to_base32 random_int in Ok (str_take max_signature_length s).
