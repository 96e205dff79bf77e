(** Model of the RIPEMD algorithms: include/bitcoin/system/hash/rmd and
    impl/hash/rmd/algorithm.ipp (normal words only: the code has no vector form). *)
From Verif Require Import Base Bytes ShaModel AccModel.

(** hash/rmd/rmd160.hpp:32-48 k160::get *)
Definition rk160 : list Z :=
  [0x00000000; 0x5a827999; 0x6ed9eba1; 0x8f1bbcdc; 0xa953fd4e; 0x50a28be6; 0x5c4dd124; 0x6d703ef3;
   0x7a6d76e9; 0x00000000].

(** hash/rmd/rmd160.hpp:50-66 k160::word *)
Definition rw160 : list Z :=
  [0; 1; 2; 3; 4; 5; 6; 7; 8; 9; 10; 11; 12; 13; 14; 15;
   7; 4; 13; 1; 10; 6; 15; 3; 12; 0; 9; 5; 2; 14; 11; 8;
   3; 10; 14; 4; 9; 15; 8; 1; 2; 7; 0; 6; 13; 11; 5; 12;
   1; 9; 11; 10; 0; 8; 12; 4; 13; 3; 7; 15; 14; 5; 6; 2;
   4; 0; 5; 9; 7; 12; 2; 10; 14; 1; 3; 8; 11; 6; 15; 13;
   5; 14; 7; 0; 9; 2; 11; 4; 13; 6; 15; 8; 1; 10; 3; 12;
   6; 11; 3; 7; 0; 13; 5; 10; 14; 15; 8; 12; 4; 9; 1; 2;
   15; 5; 1; 3; 7; 14; 6; 9; 11; 8; 12; 2; 10; 0; 4; 13;
   8; 6; 4; 1; 3; 11; 15; 0; 5; 12; 2; 13; 9; 7; 10; 14;
   12; 15; 10; 4; 1; 5; 8; 7; 6; 2; 13; 14; 0; 3; 9; 11].

(** hash/rmd/rmd160.hpp:68-84 k160::rot *)
Definition rr160 : list Z :=
  [11; 14; 15; 12; 5; 8; 7; 9; 11; 13; 14; 15; 6; 7; 9; 8;
   7; 6; 8; 13; 11; 9; 7; 15; 7; 12; 15; 9; 11; 7; 13; 12;
   11; 13; 6; 7; 14; 9; 13; 15; 14; 8; 13; 6; 5; 12; 7; 5;
   11; 12; 14; 15; 14; 15; 9; 8; 9; 14; 5; 6; 8; 6; 5; 12;
   9; 15; 5; 11; 6; 8; 13; 12; 5; 12; 13; 14; 11; 8; 5; 6;
   8; 9; 9; 11; 13; 15; 15; 5; 7; 7; 8; 11; 14; 14; 12; 6;
   9; 13; 15; 7; 12; 8; 9; 11; 7; 7; 12; 7; 6; 15; 13; 11;
   9; 7; 15; 11; 8; 6; 6; 14; 12; 13; 5; 14; 13; 13; 7; 5;
   15; 5; 8; 11; 14; 14; 6; 14; 6; 9; 12; 9; 12; 5; 15; 8;
   8; 5; 12; 9; 12; 5; 14; 6; 8; 13; 6; 5; 15; 13; 11; 11].

(** hash/rmd/rmd160.hpp:87-104 h160::get *)
Definition rh160 : list Z :=
  [0x67452301; 0xefcdab89; 0x98badcfe; 0x10325476; 0xc3d2e1f0].

(** hash/rmd/rmd128.hpp:32-46 k128::get *)
Definition rk128 : list Z :=
  [0x00000000; 0x5a827999; 0x6ed9eba1; 0x8f1bbcdc; 0x50a28be6; 0x5c4dd124; 0x6d703ef3; 0x00000000].

(** hash/rmd/rmd128.hpp:48-62 k128::word *)
Definition rw128 : list Z :=
  [0; 1; 2; 3; 4; 5; 6; 7; 8; 9; 10; 11; 12; 13; 14; 15;
   7; 4; 13; 1; 10; 6; 15; 3; 12; 0; 9; 5; 2; 14; 11; 8;
   3; 10; 14; 4; 9; 15; 8; 1; 2; 7; 0; 6; 13; 11; 5; 12;
   1; 9; 11; 10; 0; 8; 12; 4; 13; 3; 7; 15; 14; 5; 6; 2;
   5; 14; 7; 0; 9; 2; 11; 4; 13; 6; 15; 8; 1; 10; 3; 12;
   6; 11; 3; 7; 0; 13; 5; 10; 14; 15; 8; 12; 4; 9; 1; 2;
   15; 5; 1; 3; 7; 14; 6; 9; 11; 8; 12; 2; 10; 0; 4; 13;
   8; 6; 4; 1; 3; 11; 15; 0; 5; 12; 2; 13; 9; 7; 10; 14].

(** hash/rmd/rmd128.hpp:64-78 k128::rot *)
Definition rr128 : list Z :=
  [11; 14; 15; 12; 5; 8; 7; 9; 11; 13; 14; 15; 6; 7; 9; 8;
   7; 6; 8; 13; 11; 9; 7; 15; 7; 12; 15; 9; 11; 7; 13; 12;
   11; 13; 6; 7; 14; 9; 13; 15; 14; 8; 13; 6; 5; 12; 7; 5;
   11; 12; 14; 15; 14; 15; 9; 8; 9; 14; 5; 6; 8; 6; 5; 12;
   8; 9; 9; 11; 13; 15; 15; 5; 7; 7; 8; 11; 14; 14; 12; 6;
   9; 13; 15; 7; 12; 8; 9; 11; 7; 7; 12; 7; 6; 15; 13; 11;
   9; 7; 15; 11; 8; 6; 6; 14; 12; 13; 5; 14; 13; 13; 7; 5;
   15; 5; 8; 11; 14; 14; 6; 14; 6; 9; 12; 9; 12; 5; 15; 8].

(** hash/rmd/rmd128.hpp:81-97 h128::get *)
Definition rh128 : list Z :=
  [0x67452301; 0xefcdab89; 0x98badcfe; 0x10325476].

(** The template parameter RMD (hash/rmd/rmd.hpp, rmd128.hpp, rmd160.hpp). *)
Record rmd := mkrmd { r_strength : Z; r_rounds : nat; r_K : list Z; r_word : list Z; r_rot : list Z; r_H : list Z }.
Definition rmd160 := mkrmd 160 160 rk160 rw160 rr160 rh160.
Definition rmd128 := mkrmd 128 128 rk128 rw128 rr128 rh128.
Definition r_state_words (A : rmd) : nat := if r_strength A =? 128 then 4 else 5.

Section Rmd.
Variable A : rmd.
Let W := zops 32.
Let at0 (l : list Z) (i : nat) : Z := nth i l 0.

(** algorithm.ipp:37-70 *)
Definition f0 (x y z : Z) : Z := wxor W (wxor W x y) z.
Definition f1 (x y z : Z) : Z := wor W (wand W x y) (wand W (wnot W x) z).
Definition f2 (x y z : Z) : Z := wxor W (wor W x (wnot W y)) z.
Definition f3 (x y z : Z) : Z := wor W (wand W x z) (wand W y (wnot W z)).
Definition f4 (x y z : Z) : Z := wxor W x (wor W y (wnot W z)).
(** 75-108 functor (K::columns = 16) *)
Definition r_functor (r : nat) : Z -> Z -> Z -> Z :=
  let fn := (r / 16)%nat in
  if r_strength A =? 128 then
    if Nat.eqb fn 0 || Nat.eqb fn 7 then f0 else if Nat.eqb fn 1 || Nat.eqb fn 6 then f1
    else if Nat.eqb fn 2 || Nat.eqb fn 5 then f2 else f3
  else
    if Nat.eqb fn 0 || Nat.eqb fn 9 then f0 else if Nat.eqb fn 1 || Nat.eqb fn 8 then f1
    else if Nat.eqb fn 2 || Nat.eqb fn 7 then f2 else if Nat.eqb fn 3 || Nat.eqb fn 6 then f3 else f4.
(** 110-163 round *)
Definition r_index (r i : nat) : nat := ((r_rounds A + i - r) mod r_state_words A)%nat.
Definition r_mixed (r : nat) (a b c d x : Z) : Z :=
  wrol W (at0 (r_rot A) r) (wadd W (wadd W (wadd W a (r_functor r b c d)) x) (at0 (r_K A) (r / 16))).
Definition r_round (words s : list Z) (r : nat) : list Z :=
  let a := at0 s (r_index r 0) in let b := at0 s (r_index r 1) in let c := at0 s (r_index r 2) in
  let d := at0 s (r_index r 3) in let x := at0 words (Z.to_nat (at0 (r_word A) r)) in
  if r_strength A =? 128 then upd (r_index r 0) (r_mixed r a b c d x) s
  else
    let e := at0 s (r_index r 4) in
    upd (r_index r 2) (wrol W 10 c) (upd (r_index r 0) (wadd W (r_mixed r a b c d x) e) s).
(** 264-287 summarize *)
Definition r_summarize (s l r : list Z) : list Z :=
  let add3 i j k := wadd W (wadd W (at0 s i) (at0 l j)) (at0 r k) in
  if r_strength A =? 128 then [add3 1 2 3; add3 2 3 0; add3 3 0 1; add3 0 1 2]%nat
  else [add3 1 2 3; add3 2 3 4; add3 3 4 0; add3 4 0 1; add3 0 1 2]%nat.
(** 165-262 compress: the left rounds from 0, the right rounds from half the
    rounds (interleaved in the code, on separate states). *)
Definition r_compress (state words : list Z) : list Z :=
  let half := (r_rounds A / 2)%nat in
  r_summarize state (fold_left (r_round words) (seq 0 half) state) (fold_left (r_round words) (seq half half) state).

(** 293-407 input, output: little-endian words. *)
Definition r_words (bytes : list Z) : list Z := map le_value (chunks 4 (length bytes / 4) bytes).
Definition r_input (words bytes : list Z) : list Z := write_at 0 (r_words bytes) words.
Definition r_output (state : list Z) : list Z := flat_map (le_bytes 4) state.
Definition r_zero : list Z := repeat 0 16.
(** 412-531 block_pad, chunk_pad, stream_pad, pad_one, pad_half, pad_n (count_t
    is 64 bits). *)
Definition r_pad_one : list Z := upd 14 512 (upd 0 128 r_zero).
Definition r_pad_half (words : list Z) : list Z := write_at 8 (upd 6 256 (upd 0 128 (repeat 0 8))) words.
Definition r_pad_n (words : list Z) (blocks : Z) : list Z :=
  let bits := (blocks * 64 * 8) mod 2 ^ 64 in
  upd 15 (bits / 2 ^ 32) (upd 14 (bits mod 2 ^ 32) (write_at 0 (upd 0 128 (repeat 0 14)) words)).
(** 536-597 hash *)
Definition r_iterate (state : list Z) (blocks : list (list Z)) : list Z * list Z :=
  fold_left (fun (p : list Z * list Z) block =>
    let words := r_input (snd p) block in (r_compress (fst p) words, words)) blocks (state, r_zero).
Definition r_hash_blocks (blocks : list (list Z)) : list Z :=
  let (state, words) := r_iterate (r_H A) blocks in r_output (r_compress state (r_pad_n words (len blocks))).
Definition r_hash_block (block : list Z) : list Z :=
  r_output (r_compress (r_compress (r_H A) (r_input r_zero block)) r_pad_one).
Definition r_hash_half (half : list Z) : list Z := r_output (r_compress (r_H A) (r_pad_half (r_input r_zero half))).
(** 599-640 accumulate, finalize, normalize *)
Definition r_accumulate (state : list Z) (blocks : list (list Z)) : list Z := fst (r_iterate state blocks).
Definition r_finalize (state : list Z) (blocks : Z) : list Z := r_output (r_compress state (r_pad_n r_zero blocks)).
End Rmd.

(** The accumulator's Algorithm (hash/rmd/algorithm.hpp:72-84 count_bits = 64,
    limit_bits = maximum<count_t> - count_bits, big_end_count = false). *)
Definition rmd_algorithm (A : rmd) : algorithm :=
  mkalgorithm 64 8 false ((2 ^ 64 - 1 - 64) / 8) (r_H A) (r_accumulate A) r_output (r_finalize A) (r_hash_half A)
    (r_hash_block A) (r_hash_blocks A) (r_hash_blocks A).
