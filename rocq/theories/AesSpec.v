(** FIPS 197: AES with a 256 bit key (Nk = 8, Nr = 14). *)
From Verif Require Import Base.

(** 4.2: bytes as polynomials over GF(2) modulo x^8 + x^4 + x^3 + x + 1. *)
Definition xtime (b : Z) : Z := Z.lxor (2 * b mod 256) (if Z.testbit b 7 then 0x1b else 0).
Fixpoint xtimes (n : nat) (b : Z) : Z := match n with O => b | S n' => xtime (xtimes n' b) end.
Definition gmul (a b : Z) : Z :=
  fold_left (fun acc i => Z.lxor acc (if Z.testbit a (Z.of_nat i) then xtimes i b else 0)) (seq 0 8) 0.
(** The multiplicative inverse of b is b^254 (and that of 0 is 0). *)
Definition ginv (b : Z) : Z :=
  let b2 := gmul b b in let b4 := gmul b2 b2 in let b8 := gmul b4 b4 in let b16 := gmul b8 b8 in
  let b32 := gmul b16 b16 in let b64 := gmul b32 b32 in let b128 := gmul b64 b64 in
  gmul b128 (gmul b64 (gmul b32 (gmul b16 (gmul b8 (gmul b4 b2))))).
(** 5.1.1: the affine transformation, and the S-box. *)
Definition bit (b : Z) (i : Z) : bool := Z.testbit b (i mod 8).
Definition affine (b : Z) : Z :=
  fold_left (fun acc i =>
    acc + (if xorb (xorb (xorb (xorb (xorb (bit b i) (bit b (i + 4))) (bit b (i + 5))) (bit b (i + 6))) (bit b (i + 7))) (bit 0x63 i) then 2 ^ i else 0))
    [0; 1; 2; 3; 4; 5; 6; 7] 0.
Definition sbox_table : list Z := map (fun b => affine (ginv (Z.of_nat b))) (seq 0 256).
Definition SBOX (b : Z) : Z := nth (Z.to_nat b) sbox_table 0.

(** 3.4: the state is the 16 bytes, column by column: s[r, c] is byte r + 4c. *)
Definition at_ (s : list Z) (r c : nat) : Z := nth (r + 4 * c) s 0.
Definition make (f : nat -> nat -> Z) : list Z := map (fun i => f (Nat.modulo i 4) (Nat.div i 4)) (seq 0 16).
Definition SubBytes (s : list Z) : list Z := map SBOX s.
Definition ShiftRows (s : list Z) : list Z := make (fun r c => at_ s r (Nat.modulo (c + r) 4)).
Definition MixColumns (s : list Z) : list Z :=
  make (fun r c =>
    Z.lxor (Z.lxor (Z.lxor (gmul 2 (at_ s r c)) (gmul 3 (at_ s (Nat.modulo (r + 1) 4) c))) (at_ s (Nat.modulo (r + 2) 4) c)) (at_ s (Nat.modulo (r + 3) 4) c)).
Definition xor_bytes (a b : list Z) : list Z := map (fun p => Z.lxor (fst p) (snd p)) (combine a b).

(** 5.2: key expansion, words are four bytes. *)
Definition RotWord (w : list Z) : list Z := match w with [a; b; c; d] => [b; c; d; a] | _ => w end.
Definition SubWord (w : list Z) : list Z := map SBOX w.
Definition Rcon (i : nat) : list Z := [xtimes (i - 1) 1; 0; 0; 0].
Definition next_word (ws : list (list Z)) : list Z :=
  let i := length ws in
  let temp := nth (i - 1) ws [] in
  let temp := if Nat.eqb (Nat.modulo i 8) 0 then xor_bytes (SubWord (RotWord temp)) (Rcon (Nat.div i 8))
              else if Nat.eqb (Nat.modulo i 8) 4 then SubWord temp else temp in
  xor_bytes (nth (i - 8) ws []) temp.
Fixpoint key_words (n : nat) (ws : list (list Z)) : list (list Z) :=
  match n with O => ws | S n' => key_words n' (ws ++ [next_word ws]) end.
Fixpoint chop (l : list Z) : list (list Z) :=
  match l with a :: b :: c :: d :: l' => [a; b; c; d] :: chop l' | _ => [] end.
(** The 60 words of the key schedule, and the round keys. *)
Definition KeyExpansion (key : list Z) : list (list Z) := key_words 52 (chop key).
Definition round_key (ws : list (list Z)) (r : nat) : list Z := concat (firstn 4 (skipn (4 * r) ws)).
Definition AddRoundKey (ws : list (list Z)) (r : nat) (s : list Z) : list Z := xor_bytes s (round_key ws r).
(** 5.1: the cipher. *)
Definition Cipher (key block : list Z) : list Z :=
  let ws := KeyExpansion key in
  let s := fold_left (fun s r => AddRoundKey ws r (MixColumns (ShiftRows (SubBytes s)))) (seq 1 13) (AddRoundKey ws 0 block) in
  AddRoundKey ws 14 (ShiftRows (SubBytes s)).
