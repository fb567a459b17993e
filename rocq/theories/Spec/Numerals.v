(** Positional numerals, independent of the model. *)
From stdpp Require Import base strings.
From Coq Require Import ZArith Ascii String List.
Local Open Scope Z_scope.

(** Value of a digit character, either letter case: '0'..'9' are 0..9, 'a'.. and 'A'.. are 10.. *)
Definition digit_value (c : ascii) : option Z :=
  let n := Z.of_nat (nat_of_ascii c) in
  if (48 <=? n) && (n <=? 57) then Some (n - 48)
  else if (97 <=? n) && (n <=? 122) then Some (n - 97 + 10)
  else if (65 <=? n) && (n <=? 90) then Some (n - 65 + 10)
  else None.

(** [denotes b s n]: reading [s] as a base-[b] numeral, most significant digit first, gives [n];
    the empty numeral denotes 0. *)
Inductive denotes (b : Z) : string -> Z -> Prop :=
| denotes_nil : denotes b "" 0
| denotes_snoc s n c d :
    denotes b s n -> digit_value c = Some d -> d < b ->
    denotes b (s ++ String c "") (n * b + d).

(** Characters of the produced alphabet [0-9a-v]. *)
Definition is_digit32 (c : ascii) : bool :=
  let n := nat_of_ascii c in
  ((Nat.leb 48 n && Nat.leb n 57) || (Nat.leb 97 n && Nat.leb n 118))%bool.

Fixpoint all_chars (P : ascii -> bool) (s : string) : bool :=
  match s with EmptyString => true | String c s' => P c && all_chars P s' end.

Definition leading_zero (s : string) : bool :=
  match s with String "0" _ => true | _ => false end.

(** A canonical base-32 numeral: only [0-9a-v], no leading '0'. *)
Definition canonical32 (s : string) : Prop :=
  all_chars is_digit32 s = true /\ leading_zero s = false.

Definition is_hex (c : ascii) : bool :=
  let n := nat_of_ascii c in
  ((Nat.leb 48 n && Nat.leb n 57) || (Nat.leb 97 n && Nat.leb n 102)
   || (Nat.leb 65 n && Nat.leb n 70))%bool.

Definition is_upper (c : ascii) : bool := (Nat.leb 65 (nat_of_ascii c) && Nat.leb (nat_of_ascii c) 90)%bool.

(** A base-32 digit in either letter case. *)
Definition anydigit (c : ascii) : bool :=
  match digit_value c with Some d => d <? 32 | None => false end.

Definition is_lower_text (s : string) : bool := all_chars (fun c => negb (is_upper c)) s.

(** Upper-casing of ASCII letters. *)
Definition upper_char (c : ascii) : ascii :=
  let n := nat_of_ascii c in
  if (Nat.leb 97 n && Nat.leb n 122)%bool then ascii_of_nat (n - 32) else c.
Fixpoint upper (s : string) : string :=
  match s with EmptyString => EmptyString | String c s' => String (upper_char c) (upper s') end.
