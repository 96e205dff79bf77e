(** Specification: SipHash-2-4 (Aumasson and Bernstein), over 64 bit numbers. *)
From Verif Require Import Base Bytes.

Definition plus (a b : Z) : Z := (a + b) mod 2 ^ 64.
Definition rol (r x : Z) : Z := (x * 2 ^ r) mod 2 ^ 64 + x / 2 ^ (64 - r).
Definition words4 := (Z * Z * Z * Z)%type.
(** Figure 2.1 of the paper. *)
Definition round (v : words4) : words4 :=
  let '(v0, v1, v2, v3) := v in
  let v0 := plus v0 v1 in let v1 := rol 13 v1 in let v1 := Z.lxor v1 v0 in let v0 := rol 32 v0 in
  let v2 := plus v2 v3 in let v3 := rol 16 v3 in let v3 := Z.lxor v3 v2 in
  let v0 := plus v0 v3 in let v3 := rol 21 v3 in let v3 := Z.lxor v3 v0 in
  let v2 := plus v2 v1 in let v1 := rol 17 v1 in let v1 := Z.lxor v1 v2 in let v2 := rol 32 v2 in
  (v0, v1, v2, v3).
Definition absorb (v : words4) (m : Z) : words4 :=
  let '(v0, v1, v2, v3) := v in
  let '(v0, v1, v2, v3) := round (round (v0, v1, v2, Z.lxor v3 m)) in
  (Z.lxor v0 m, v1, v2, v3).
(** The message as 64 bit little endian words: zeros up to one byte less than a
    multiple of eight, then the length modulo 256 as the last byte. *)
Definition padded (m : list Z) : list Z := m ++ repeat 0 (Z.to_nat (7 - len m mod 8)) ++ [len m mod 256].
Definition word (m : list Z) (i : nat) : Z := le_value (firstn 8 (skipn (8 * i) (padded m))).
Definition words (m : list Z) : list Z := map (word m) (seq 0 (Z.to_nat (len m / 8 + 1))).
(** "somepseudorandomlygeneratedbytes" *)
Definition magic (i : nat) : Z :=
  be_value (firstn 8 (skipn (8 * i)
    [115; 111; 109; 101; 112; 115; 101; 117; 100; 111; 114; 97; 110; 100; 111; 109;
     108; 121; 103; 101; 110; 101; 114; 97; 116; 101; 100; 98; 121; 116; 101; 115])).
Definition siphash24 (k0 k1 : Z) (m : list Z) : Z :=
  let v := (Z.lxor k0 (magic 0), Z.lxor k1 (magic 1), Z.lxor k0 (magic 2), Z.lxor k1 (magic 3)) in
  let '(v0, v1, v2, v3) := fold_left absorb (words m) v in
  let '(v0, v1, v2, v3) := round (round (round (round (v0, v1, Z.lxor v2 255, v3)))) in
  Z.lxor (Z.lxor (Z.lxor v0 v1) v2) v3.
