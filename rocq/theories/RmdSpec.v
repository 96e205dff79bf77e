(** RIPEMD-160 and RIPEMD-128 (Dobbertin, Bosselaers, Preneel: "RIPEMD-160, a
    strengthened version of RIPEMD", appendices A and B).  Independent of the
    model. *)
From Verif Require Import Base Bytes ShaSpec.

Definition OR := Z.lor.
Definition plus (x y : Z) : Z := ADD 32 x y.
Definition rol (n x : Z) : Z := ROTL 32 n x.
Definition inv (x : Z) : Z := NOT 32 x.

(** Nonlinear functions, by round of sixteen steps. *)
Definition F (round : nat) (x y z : Z) : Z :=
  match round with
  | 0%nat => XOR (XOR x y) z
  | 1%nat => OR (AND x y) (AND (inv x) z)
  | 2%nat => XOR (OR x (inv y)) z
  | 3%nat => OR (AND x z) (AND y (inv z))
  | _ => XOR x (OR y (inv z))
  end.
(** Added constants: integer parts of 2^30 times the square roots (left) and
    cube roots (right) of 2, 3, 5, 7. *)
Definition square (p : Z) : Z := Z.sqrt (p * 2 ^ 60).
Definition cube (p : Z) : Z := root_bits 3 (p * 2 ^ 90) 32 0.
Definition K_left (round : nat) : Z :=
  match round with 0%nat => 0 | 1%nat => square 2 | 2%nat => square 3 | 3%nat => square 5 | _ => square 7 end.
(** The right line ends with the constant 0: after five rounds for 160, four for 128. *)
Definition K_right (rounds_ round : nat) : Z :=
  if Nat.eqb round (rounds_ - 1) then 0 else cube (nth round [2; 3; 5; 7] 0).
(** Message words: rho, and pi(i) = 9i + 5 mod 16. *)
Definition rho : list nat := [7; 4; 13; 1; 10; 6; 15; 3; 12; 0; 9; 5; 2; 14; 11; 8]%nat.
Definition pi (i : nat) : nat := ((9 * i + 5) mod 16)%nat.
Definition rho_power (n i : nat) : nat := Nat.iter n (fun j => nth j rho 0%nat) i.
Definition left_word (j : nat) : nat := rho_power (j / 16) (j mod 16).
Definition right_word (j : nat) : nat := rho_power (j / 16) (pi (j mod 16)).
(** Shift of a message word in a round (the same in both lines). *)
Definition shifts : list (list Z) :=
  [[11; 14; 15; 12; 5; 8; 7; 9; 11; 13; 14; 15; 6; 7; 9; 8];
   [12; 13; 11; 15; 6; 9; 9; 7; 12; 15; 11; 13; 7; 8; 7; 7];
   [13; 15; 14; 11; 7; 7; 6; 8; 13; 14; 13; 12; 5; 5; 6; 9];
   [14; 11; 12; 14; 8; 6; 5; 5; 15; 12; 15; 14; 9; 9; 8; 6];
   [15; 12; 13; 13; 9; 5; 8; 6; 14; 11; 12; 11; 8; 6; 5; 5]].
Definition shift (round word : nat) : Z := nth word (nth round shifts []) 0.

(** One step of RIPEMD-160 and of RIPEMD-128, on five and four variables. *)
Definition step160 (f : Z -> Z -> Z -> Z) (s x k : Z) (v : list Z) : list Z :=
  match v with
  | [a; b; c; d; e] => [e; plus (rol s (plus (plus (plus a (f b c d)) x) k)) e; b; rol 10 c; d]
  | _ => v
  end.
Definition step128 (f : Z -> Z -> Z -> Z) (s x k : Z) (v : list Z) : list Z :=
  match v with
  | [a; b; c; d] => [d; rol s (plus (plus (plus a (f b c d)) x) k); b; c]
  | _ => v
  end.
Definition line (rounds_ : nat) (step : (Z -> Z -> Z -> Z) -> Z -> Z -> Z -> list Z -> list Z) (right : bool)
    (X v : list Z) (j : nat) : list Z :=
  let round := (j / 16)%nat in
  let word := if right then right_word j else left_word j in
  step (F (if right then rounds_ - 1 - round else round)) (shift round word) (nth word X 0)
    (if right then K_right rounds_ round else K_left round) v.

Definition le_words (block : list Z) : list Z := map le_value (split 4 block).
Definition RMD160_block (h block : list Z) : list Z :=
  let X := le_words block in
  let l := fold_left (line 5 step160 false X) (seq 0 80) h in
  let r := fold_left (line 5 step160 true X) (seq 0 80) h in
  match h, l, r with
  | [h0; h1; h2; h3; h4], [a; b; c; d; e], [a'; b'; c'; d'; e'] =>
    [plus (plus h1 c) d'; plus (plus h2 d) e'; plus (plus h3 e) a'; plus (plus h4 a) b'; plus (plus h0 b) c']
  | _, _, _ => h
  end.
Definition RMD128_block (h block : list Z) : list Z :=
  let X := le_words block in
  let l := fold_left (line 4 step128 false X) (seq 0 64) h in
  let r := fold_left (line 4 step128 true X) (seq 0 64) h in
  match h, l, r with
  | [h0; h1; h2; h3], [a; b; c; d], [a'; b'; c'; d'] =>
    [plus (plus h1 c) d'; plus (plus h2 d) a'; plus (plus h3 a) b'; plus (plus h0 b) c']
  | _, _, _ => h
  end.
(** MD4 padding: bit 1, least zeros, the bit length as a 64-bit little-endian number. *)
Definition md4_padding (n : Z) : list Z :=
  128 :: repeat 0 (Z.to_nat ((64 - 8 - 1 - n) mod 64)) ++ le_bytes 8 (8 * n).
Definition le_digest (h : list Z) : list Z := flat_map (le_bytes 4) h.
Definition md4_blocks (message : list Z) : list (list Z) := split 64 (message ++ md4_padding (len message)).
Definition RIPEMD160 (message : list Z) : list Z := le_digest (fold_left RMD160_block (md4_blocks message) SHA1_H).
Definition RIPEMD128 (message : list Z) : list Z :=
  le_digest (fold_left RMD128_block (md4_blocks message) (firstn 4 SHA1_H)).
