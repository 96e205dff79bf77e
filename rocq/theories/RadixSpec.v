(** Specification of the radix codecs, independent of the model. *)
From Coq Require Import String Ascii.
From Verif Require Import Base Bytes.

(** Value of a most-significant-first digit string in radix b. *)
Definition radix_value (b : Z) (l : list Z) : Z := fold_left (fun a d => a * b + d) l 0.
(** Digit strings. *)
Definition digits_ok (b : Z) (l : list Z) : Prop := Forall (fun d => 0 <= d < b) l.
(** No leading zero digit (so the empty string for zero). *)
Definition canonical (l : list Z) : Prop := match l with [] => True | d :: _ => d <> 0 end.

(** Value of a hexadecimal character, either case. *)
Definition hex_value (c : Z) : option Z :=
  if (48 <=? c) && (c <=? 57) then Some (c - 48)
  else if (97 <=? c) && (c <=? 102) then Some (c - 87)
  else if (65 <=? c) && (c <=? 70) then Some (c - 55)
  else None.
Definition is_hex (c : Z) : Prop := hex_value c <> None.
(** ASCII lower case. *)
Definition lower (c : Z) : Z := if (65 <=? c) && (c <=? 90) then c + 32 else c.

(** A text is read through an alphabet (list of character codes). *)
Definition spells (alphabet text digits : list Z) : Prop :=
  digits_ok (len alphabet) digits /\ text = map (fun d => nth (Z.to_nat d) alphabet 0) digits.

(** The character codes of a literal. *)
Definition codes (s : String.string) : list Z := map (fun a => Z.of_N (Ascii.N_of_ascii a)) (String.list_ascii_of_string s).
(** Published alphabets: base58 (Bitcoin), base64 (RFC 4648), Z85 (ZeroMQ RFC 32), bech32 (BIP173). *)
Definition alphabet58 : list Z := codes "123456789ABCDEFGHJKLMNPQRSTUVWXYZabcdefghijkmnopqrstuvwxyz"%string.
Definition alphabet64 : list Z := codes "ABCDEFGHIJKLMNOPQRSTUVWXYZabcdefghijklmnopqrstuvwxyz0123456789+/"%string.
Definition alphabet85 : list Z :=
  codes "0123456789abcdefghijklmnopqrstuvwxyzABCDEFGHIJKLMNOPQRSTUVWXYZ.-:+=^!/*?&<>()[]{}@%$#"%string.
Definition alphabet32 : list Z := codes "qpzry9x8gf2tvdw0s3jn54khce6mua7l"%string.

(** RFC 4648 section 4: three bytes are four digits; a final group of one or
    two bytes is zero-filled to whole digits and padded with '='. *)
Inductive rfc4648 : list Z -> list Z -> Prop :=
| rfc_nil : rfc4648 [] []
| rfc_one a ds text : spells alphabet64 text ds -> len ds = 2 ->
    radix_value 64 ds = a * 2 ^ 4 -> rfc4648 [a] (text ++ codes "=="%string)
| rfc_two a b ds text : spells alphabet64 text ds -> len ds = 3 ->
    radix_value 64 ds = radix_value 256 [a; b] * 2 ^ 2 -> rfc4648 [a; b] (text ++ codes "="%string)
| rfc_three a b c ds text rest restext : spells alphabet64 text ds -> len ds = 4 ->
    radix_value 64 ds = radix_value 256 [a; b; c] -> rfc4648 rest restext -> rfc4648 (a :: b :: c :: rest) (text ++ restext).
(** Z85: four bytes are five digits. *)
Inductive z85 : list Z -> list Z -> Prop :=
| z85_nil : z85 [] []
| z85_group a b c d ds text rest restext : spells alphabet85 text ds -> len ds = 5 ->
    radix_value 85 ds = radix_value 256 [a; b; c; d] -> z85 rest restext -> z85 (a :: b :: c :: d :: rest) (text ++ restext).
