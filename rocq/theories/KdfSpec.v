(** Keyed hashing and key derivation: RFC 2104, RFC 8018, RFC 5869, RFC 7914 and
    BIP340 tagged hashes, over a hash function.  Independent of the model. *)
From Verif Require Import Base Bytes ShaSpec RmdSpec.

Definition xor_bytes (a b : list Z) : list Z := map (fun p => Z.lxor (fst p) (snd p)) (combine a b).
Definition ceil_div (a b : nat) : nat := ((a + b - 1) / b)%nat.

Section Kdf.
Variable Hf : list Z -> list Z.  (* the hash function *)
Variable B hLen : nat.           (* its block and digest bytes *)

(** RFC 2104: H(K xor opad, H(K xor ipad, text)), K zero padded to B bytes and
    hashed first when longer. *)
Definition hmac_key (key : list Z) : list Z :=
  let k := if Nat.leb (length key) B then key else Hf key in k ++ repeat 0 (B - length k).
Definition HMAC (key text : list Z) : list Z :=
  Hf (xor_bytes (hmac_key key) (repeat 0x5c B) ++ Hf (xor_bytes (hmac_key key) (repeat 0x36 B) ++ text)).

(** RFC 8018 5.2: U_1 = PRF(P, S || INT(i)), U_j = PRF(P, U_(j-1)),
    F = U_1 xor ... xor U_c. *)
Fixpoint U (P S : list Z) (i : Z) (j : nat) : list Z :=
  match j with
  | O => HMAC P (S ++ be_bytes 4 i)
  | Datatypes.S j => HMAC P (U P S i j)
  end.
Fixpoint xor_sum (first : list Z) (rest : list (list Z)) : list Z :=
  match rest with [] => first | u :: rest => xor_sum (xor_bytes first u) rest end.
Definition F_block (P S : list Z) (c : nat) (i : Z) : list Z := xor_sum (U P S i 0) (map (U P S i) (seq 1 (c - 1))).
Definition PBKDF2 (P S : list Z) (c dkLen : nat) : list Z :=
  firstn dkLen (concat (map (fun i => F_block P S c (Z.of_nat i)) (seq 1 (ceil_div dkLen hLen)))).

(** RFC 5869. *)
Definition HKDF_extract (salt ikm : list Z) : list Z := HMAC salt ikm.
Fixpoint T (prk info : list Z) (n : nat) : list Z :=
  match n with O => [] | S m => HMAC prk (T prk info m ++ info ++ [Z.of_nat n]) end.
Definition HKDF_expand (prk info : list Z) (L : nat) : list Z :=
  firstn L (concat (map (T prk info) (seq 1 (ceil_div L hLen)))).
Definition HKDF (salt ikm info : list Z) (L : nat) : list Z := HKDF_expand (HKDF_extract salt ikm) info L.
End Kdf.

(** BIP340: SHA256(SHA256(tag) || SHA256(tag) || x). *)
Definition tagged (tag x : list Z) : list Z := SHA256 (SHA256 tag ++ SHA256 tag ++ x).
