(** ChaCha20 (RFC 8439, section 2).  Independent of the model. *)
From Verif Require Import Base Bytes ShaSpec RmdSpec.

(** 2.1 The quarter round. *)
Definition QR (q : Z * Z * Z * Z) : Z * Z * Z * Z :=
  let '(a, b, c, d) := q in
  let a := plus a b in let d := rol 16 (XOR d a) in
  let c := plus c d in let b := rol 12 (XOR b c) in
  let a := plus a b in let d := rol 8 (XOR d a) in
  let c := plus c d in let b := rol 7 (XOR b c) in
  (a, b, c, d).
(** 2.3 inner_block: a column round and a diagonal round. *)
Definition columns (x : list Z) : list Z :=
  let n i := nth i x 0 in
  let '(x0, x4, x8, x12) := QR (n 0%nat, n 4%nat, n 8%nat, n 12%nat) in
  let '(x1, x5, x9, x13) := QR (n 1%nat, n 5%nat, n 9%nat, n 13%nat) in
  let '(x2, x6, x10, x14) := QR (n 2%nat, n 6%nat, n 10%nat, n 14%nat) in
  let '(x3, x7, x11, x15) := QR (n 3%nat, n 7%nat, n 11%nat, n 15%nat) in
  [x0; x1; x2; x3; x4; x5; x6; x7; x8; x9; x10; x11; x12; x13; x14; x15].
Definition diagonals (x : list Z) : list Z :=
  let n i := nth i x 0 in
  let '(x0, x5, x10, x15) := QR (n 0%nat, n 5%nat, n 10%nat, n 15%nat) in
  let '(x1, x6, x11, x12) := QR (n 1%nat, n 6%nat, n 11%nat, n 12%nat) in
  let '(x2, x7, x8, x13) := QR (n 2%nat, n 7%nat, n 8%nat, n 13%nat) in
  let '(x3, x4, x9, x14) := QR (n 3%nat, n 4%nat, n 9%nat, n 14%nat) in
  [x0; x1; x2; x3; x4; x5; x6; x7; x8; x9; x10; x11; x12; x13; x14; x15].
Definition inner_block (x : list Z) : list Z := diagonals (columns x).
(** 2.3 the block function: "expand 32-byte k", the key, the counter, the nonce. *)
Definition constants : list Z := le_words [101; 120; 112; 97; 110; 100; 32; 51; 50; 45; 98; 121; 116; 101; 32; 107].
Definition chacha_state (key nonce : list Z) (counter : Z) : list Z :=
  constants ++ le_words key ++ [counter] ++ le_words nonce.
Definition chacha_block (key nonce : list Z) (counter : Z) : list Z :=
  let s := chacha_state key nonce counter in
  flat_map (le_bytes 4) (map (fun p => plus (fst p) (snd p)) (combine (Nat.iter 10 inner_block s) s)).
(** 2.4 The key stream from initial counter [counter], a byte at a time; the
    32-bit counter wraps. *)
Definition stream_byte (key nonce : list Z) (counter : Z) (i : nat) : Z :=
  nth (i mod 64) (chacha_block key nonce ((counter + Z.of_nat (i / 64)) mod 2 ^ 32)) 0.
Definition keystream (key nonce : list Z) (counter : Z) (from size : nat) : list Z :=
  map (stream_byte key nonce counter) (seq from size).
