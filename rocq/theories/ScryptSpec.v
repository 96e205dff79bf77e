(** scrypt (RFC 7914) with Salsa20/8 (Bernstein's quarterround form).
    Independent of the model. *)
From Verif Require Import Base Bytes ShaSpec RmdSpec KdfSpec.

(** The Salsa20 specification: quarterround, columnround, rowround. *)
Definition quarterround (y : Z * Z * Z * Z) : Z * Z * Z * Z :=
  let '(y0, y1, y2, y3) := y in
  let z1 := XOR y1 (rol 7 (plus y0 y3)) in
  let z2 := XOR y2 (rol 9 (plus z1 y0)) in
  let z3 := XOR y3 (rol 13 (plus z2 z1)) in
  let z0 := XOR y0 (rol 18 (plus z3 z2)) in
  (z0, z1, z2, z3).
Definition rowround (y : list Z) : list Z :=
  let n i := nth i y 0 in
  let '(z0, z1, z2, z3) := quarterround (n 0%nat, n 1%nat, n 2%nat, n 3%nat) in
  let '(z5, z6, z7, z4) := quarterround (n 5%nat, n 6%nat, n 7%nat, n 4%nat) in
  let '(z10, z11, z8, z9) := quarterround (n 10%nat, n 11%nat, n 8%nat, n 9%nat) in
  let '(z15, z12, z13, z14) := quarterround (n 15%nat, n 12%nat, n 13%nat, n 14%nat) in
  [z0; z1; z2; z3; z4; z5; z6; z7; z8; z9; z10; z11; z12; z13; z14; z15].
Definition columnround (x : list Z) : list Z :=
  let n i := nth i x 0 in
  let '(y0, y4, y8, y12) := quarterround (n 0%nat, n 4%nat, n 8%nat, n 12%nat) in
  let '(y5, y9, y13, y1) := quarterround (n 5%nat, n 9%nat, n 13%nat, n 1%nat) in
  let '(y10, y14, y2, y6) := quarterround (n 10%nat, n 14%nat, n 2%nat, n 6%nat) in
  let '(y15, y3, y7, y11) := quarterround (n 15%nat, n 3%nat, n 7%nat, n 11%nat) in
  [y0; y1; y2; y3; y4; y5; y6; y7; y8; y9; y10; y11; y12; y13; y14; y15].
Definition doubleround (x : list Z) : list Z := rowround (columnround x).
(** RFC 7914 section 3, on 64 bytes. *)
Definition Salsa20_8 (block : list Z) : list Z :=
  let x := le_words block in
  flat_map (le_bytes 4) (map (fun p => plus (fst p) (snd p)) (combine (Nat.iter 4 doubleround x) x)).

(** Section 4: scryptBlockMix on 2r blocks of 64 bytes. *)
Fixpoint mixes (X : list Z) (B : list (list Z)) : list (list Z) :=
  match B with [] => [] | b :: B => let T := Salsa20_8 (xor_bytes X b) in T :: mixes T B end.
Fixpoint evens {X} (l : list X) : list X := match l with x :: _ :: l => x :: evens l | [x] => [x] | [] => [] end.
Fixpoint odds {X} (l : list X) : list X := match l with _ :: y :: l => y :: odds l | _ => [] end.
Definition BlockMix (B : list (list Z)) : list (list Z) := let Y := mixes (last B []) B in evens Y ++ odds Y.
(** Section 5: scryptROMix. *)
Definition Integerify (B : list (list Z)) : Z := le_value (last B []).
Definition V (B : list (list Z)) (i : nat) : list (list Z) := Nat.iter i BlockMix B.
Definition xor_blocks (a b : list (list Z)) : list (list Z) := map (fun p => xor_bytes (fst p) (snd p)) (combine a b).
Definition ROMix (N : nat) (B : list (list Z)) : list (list Z) :=
  Nat.iter N (fun X => BlockMix (xor_blocks X (V B (Z.to_nat (Integerify X mod Z.of_nat N))))) (Nat.iter N BlockMix B).
(** Section 6. *)
Definition Scrypt (P S : list Z) (N r p dkLen : nat) : list Z :=
  let B := split (128 * r) (PBKDF2 SHA256 64 32 P S 1 (p * 128 * r)) in
  let B' := map (fun b => concat (ROMix N (split 64 b))) B in
  PBKDF2 SHA256 64 32 P (concat B') 1 dkLen.
