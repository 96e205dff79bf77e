(** FIPS 180-4 (Secure Hash Standard), as in the published text: SHA-1, SHA-256
    and SHA-512 of a message of whole bytes.  Independent of the model. *)
From Verif Require Import Base Bytes.

(** 2.2.2, 3.2: operations on [w]-bit words. *)
Definition ADD (w x y : Z) : Z := (x + y) mod 2 ^ w.
Definition NOT (w x : Z) : Z := 2 ^ w - 1 - x.
Definition SHR (n x : Z) : Z := Z.shiftr x n.
Definition ROTR (w n x : Z) : Z := Z.lor (Z.shiftr x n) ((Z.shiftl x (w - n)) mod 2 ^ w).
Definition ROTL (w n x : Z) : Z := Z.lor ((Z.shiftl x n) mod 2 ^ w) (Z.shiftr x (w - n)).
Definition XOR := Z.lxor.
Definition AND := Z.land.

(** 4.1: Ch, Parity, Maj, the sigmas. *)
Definition Ch (w x y z : Z) : Z := XOR (AND x y) (AND (NOT w x) z).
Definition Parity (x y z : Z) : Z := XOR (XOR x y) z.
Definition Maj (x y z : Z) : Z := XOR (XOR (AND x y) (AND x z)) (AND y z).
Definition SIGMA (w a b c x : Z) : Z := XOR (XOR (ROTR w a x) (ROTR w b x)) (ROTR w c x).
Definition SMALL (w a b c x : Z) : Z := XOR (XOR (ROTR w a x) (ROTR w b x)) (SHR c x).

(** 4.2, 5.3: the constants are the first bits of the fractional parts of the
    cube roots (K) and square roots (H) of the first primes. *)
Fixpoint root_bits (e : Z) (n : Z) (bits : nat) (r : Z) : Z :=
  match bits with
  | O => r
  | S b => let t := r + 2 ^ Z.of_nat b in root_bits e n b (if t ^ e <=? n then t else r)
  end.
(** The integer part of the [e]-th root of [p] scaled by [2^w], modulo [2^w]. *)
Definition root_fraction (e w p : Z) : Z := root_bits e (p * 2 ^ (e * w)) (Z.to_nat w + 9) 0 mod 2 ^ w.
Definition is_prime (n : nat) : bool := forallb (fun d => negb (Nat.eqb (n mod d) 0)) (seq 2 (n - 2)).
Definition primes : list Z := map Z.of_nat (filter is_prime (seq 2 408)).

Definition SHA1_K (t : nat) : Z :=
  if Nat.ltb t 20 then 0x5a827999 else if Nat.ltb t 40 then 0x6ed9eba1
  else if Nat.ltb t 60 then 0x8f1bbcdc else 0xca62c1d6.
Definition SHA1_H : list Z := [0x67452301; 0xefcdab89; 0x98badcfe; 0x10325476; 0xc3d2e1f0].
Definition SHA2_K (w : Z) (t : nat) : Z := root_fraction 3 w (nth t primes 0).
Definition SHA2_H (w : Z) : list Z := map (root_fraction 2 w) (firstn 8 primes).

(** 5.1: padding, [B] bytes per block and [C] bytes of big-endian bit length:
    the bit 1, then the least number of zeros. *)
Definition padding (B C : Z) (length_ : Z) : list Z :=
  128 :: repeat 0 (Z.to_nat ((B - C - 1 - length_) mod B)) ++ be_bytes (Z.to_nat C) (8 * length_).
(** 5.2: parsing into blocks of words. *)
Fixpoint split_every {X} (fuel n : nat) (l : list X) : list (list X) :=
  match fuel, l with
  | _, [] => []
  | O, _ => []
  | S f, _ => firstn n l :: split_every f n (skipn n l)
  end.
Definition split {X} (n : nat) (l : list X) : list (list X) := split_every (length l) n l.
Definition words (w : Z) (block : list Z) : list Z := map be_value (split (Z.to_nat (w / 8)) block).

(** 6.x.2 step 1: the message schedule, [next] giving W_t from the words before. *)
Fixpoint expand (next : list Z -> Z) (n : nat) (W : list Z) : list Z :=
  match n with O => W | S n' => expand next n' (W ++ [next W]) end.
Definition back (W : list Z) (k : nat) : Z := nth (length W - k) W 0.

(** 6.1.2: SHA-1 *)
Definition SHA1_schedule (M : list Z) : list Z :=
  expand (fun W => ROTL 32 1 (XOR (XOR (XOR (back W 3) (back W 8)) (back W 14)) (back W 16))) 64 M.
Definition SHA1_f (t : nat) : Z -> Z -> Z -> Z :=
  if Nat.ltb t 20 then Ch 32 else if Nat.ltb t 40 then Parity else if Nat.ltb t 60 then Maj else Parity.
Definition SHA1_step (W : list Z) (v : list Z) (t : nat) : list Z :=
  match v with
  | [a; b; c; d; e] =>
    let T := ADD 32 (ADD 32 (ADD 32 (ADD 32 (ROTL 32 5 a) (SHA1_f t b c d)) e) (SHA1_K t)) (nth t W 0) in
    [T; a; ROTL 32 30 b; c; d]
  | _ => v
  end.
Fixpoint sum_words (w : Z) (a b : list Z) : list Z :=
  match a, b with x :: a', y :: b' => ADD w x y :: sum_words w a' b' | _, _ => [] end.
Definition SHA1_block (h : list Z) (block : list Z) : list Z :=
  sum_words 32 (fold_left (SHA1_step (SHA1_schedule (words 32 block))) (seq 0 80) h) h.

(** 6.2.2, 6.4.2: SHA-256 and SHA-512 (rotation amounts of 4.1.2, 4.1.3). *)
Record sha2 := mksha2 { bits : Z; steps : nat;
  SIGMA0 : Z -> Z; SIGMA1 : Z -> Z; sigma_0 : Z -> Z; sigma_1 : Z -> Z }.
Definition SHA256_params : sha2 :=
  mksha2 32 64 (SIGMA 32 2 13 22) (SIGMA 32 6 11 25) (SMALL 32 7 18 3) (SMALL 32 17 19 10).
Definition SHA512_params : sha2 :=
  mksha2 64 80 (SIGMA 64 28 34 39) (SIGMA 64 14 18 41) (SMALL 64 1 8 7) (SMALL 64 19 61 6).
Definition SHA2_schedule (P : sha2) (M : list Z) : list Z :=
  expand (fun W => let add := ADD (bits P) in
    add (add (add (sigma_1 P (back W 2)) (back W 7)) (sigma_0 P (back W 15))) (back W 16)) (steps P - 16) M.
Definition SHA2_step (P : sha2) (W : list Z) (v : list Z) (t : nat) : list Z :=
  let add := ADD (bits P) in
  match v with
  | [a; b; c; d; e; f; g; h] =>
    let T1 := add (add (add (add h (SIGMA1 P e)) (Ch (bits P) e f g)) (SHA2_K (bits P) t)) (nth t W 0) in
    let T2 := add (SIGMA0 P a) (Maj a b c) in
    [add T1 T2; a; b; c; add d T1; e; f; g]
  | _ => v
  end.
Definition SHA2_block (P : sha2) (h : list Z) (block : list Z) : list Z :=
  sum_words (bits P) (fold_left (SHA2_step P (SHA2_schedule P (words (bits P) block))) (seq 0 (steps P)) h) h.

(** The digest: the blocks of the padded message, folded from the initial hash
    value, and the words of the result in big-endian order. *)
Definition digest (w : Z) (h : list Z) : list Z := flat_map (be_bytes (Z.to_nat (w / 8))) h.
Definition blocks (B C : Z) (message : list Z) : list (list Z) :=
  split (Z.to_nat B) (message ++ padding B C (len message)).
Definition SHA1 (message : list Z) : list Z :=
  digest 32 (fold_left SHA1_block (blocks 64 8 message) SHA1_H).
Definition SHA256 (message : list Z) : list Z :=
  digest 32 (fold_left (SHA2_block SHA256_params) (blocks 64 8 message) (SHA2_H 32)).
Definition SHA512 (message : list Z) : list Z :=
  digest 64 (fold_left (SHA2_block SHA512_params) (blocks 128 16 message) (SHA2_H 64)).
