(** Specification of bech32 words and of witness and base58check addresses,
    independent of the model. *)
From Coq Require Import String.
From Verif Require Import Base Bytes BitStreamSpec RadixSpec BechField.

(** * Polynomials over the 32 element field (BIP173) *)
(** Product of two five bit polynomials over GF(2), reduced by z^5 + z^3 + 1. *)
Definition carryless (a b : Z) : Z :=
  fold_left (fun acc i => if Z.testbit b i then Z.lxor acc (Z.shiftl a i) else acc) [0; 1; 2; 3; 4] 0.
Definition reduce (p : Z) : Z :=
  fold_left (fun acc i => if Z.testbit acc (5 + i) then Z.lxor acc (Z.shiftl 41 i) else acc) [4; 3; 2; 1; 0] p.
(** Coefficient lists are highest degree first. *)
Definition coefficient (l : list gf) (n : nat) : gf := nth n (rev l) G0.
(** x^6 + 29 x^5 + 22 x^4 + 20 x^3 + 21 x^2 + 29 x + 18 *)
Definition generator : list gf := map zg [1; 29; 22; 20; 21; 29; 18].
Definition times_generator (q : list gf) (n : nat) : gf :=
  fold_right gadd G0 (map (fun i => if (i <=? n)%nat then gmul (coefficient generator i) (coefficient q (n - i)) else G0) (seq 0 7)).
(** word = q * generator + remainder, for some q. *)
Definition congruent (word remainder : list gf) : Prop :=
  exists q, forall n, coefficient word n = gadd (times_generator q n) (coefficient remainder n).
(** Human readable part expansion, and the word that is checked. *)
Definition expand (prefix : list Z) : list Z := map (fun c => c / 32) prefix ++ [0] ++ map (fun c => c mod 32) prefix.
Definition bech32_word (prefix symbols : list Z) : list gf := map zg (1 :: expand prefix ++ symbols).
(** The residue: 1 for version 0 (BIP173), 0x2bc830a3 otherwise (BIP350), as six symbols. *)
Definition groups (c : Z) : list Z := map (fun i => (c / 32 ^ i) mod 32) [5; 4; 3; 2; 1; 0].
Definition residue (version : Z) : list gf := map zg (groups (if version =? 0 then 1 else 0x2bc830a3)).
(** A word of symbols under a prefix: version first, last six symbols make the residue. *)
Definition code_word (prefix : list Z) (symbols : list Z) : Prop :=
  digits_ok 32 symbols /\ congruent (bech32_word prefix symbols) (residue (hd 0 symbols)).

(** Number of places at which two strings of one length differ. *)
Fixpoint substitutions (a b : list Z) : nat :=
  match a, b with
  | x :: a', y :: b' => if x =? y then substitutions a' b' else S (substitutions a' b')
  | _, _ => O
  end.

(** * Witness addresses *)
(** The symbols hold the bytes followed by [pad] zero bits. *)
Definition holds_bytes (symbols bytes : list Z) (pad : Z) : Prop :=
  bytes_ok bytes /\ 5 * len symbols = 8 * len bytes + pad /\
  flat_map (fun v => low_bits v 5) symbols = flat_map (fun v => low_bits v 8) bytes ++ repeat false (Z.to_nat pad).
(** Program sizes: 2 to 40 bytes, 20 or 32 for version 0, 32 for version 1. *)
Definition program_rule (version : Z) (program : list Z) : Prop :=
  0 <= version <= 16 /\ 2 <= len program <= 40 /\
  (version = 0 -> len program = 20 \/ len program = 32) /\ (version = 1 -> len program = 32).
(** Prefixes: 1 to 78 characters from 33 to 126, no upper case. *)
Definition prefix_rule (prefix : list Z) : Prop :=
  1 <= len prefix <= 78 /\ Forall (fun c => 33 <= c <= 126) prefix /\ map lower prefix = prefix.
Definition upper_letter (c : Z) : Prop := 65 <= c <= 90.
Definition lower_letter (c : Z) : Prop := 97 <= c <= 122.
(** The text of a witness address with at most [slack] unused (zero) bits. *)
Definition witness_text (slack : Z) (text prefix : list Z) (version : Z) (program : list Z) : Prop :=
  len text <= 90 /\ Forall (fun c => 0 <= c < 128) text /\
  (Forall (fun c => ~ upper_letter c) text \/ Forall (fun c => ~ lower_letter c) text) /\
  prefix_rule prefix /\ program_rule version program /\
  exists data check payload pad,
    map lower text = prefix ++ codes "1"%string ++ payload /\
    spells alphabet32 payload (version :: data ++ check) /\
    len check = 6 /\ code_word prefix (version :: data ++ check) /\
    0 <= pad <= slack /\ holds_bytes data program pad /\ len data <= 64.

(** * base58check *)
(** prefix byte, 20 byte hash, first four bytes of the double hash. *)
Definition base58check (hash : list Z -> list Z) (prefix : Z) (key : list Z) : list Z :=
  prefix :: key ++ firstn 4 (hash (prefix :: key)).
