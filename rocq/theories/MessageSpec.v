(** What a signed message is. *)
From Coq Require Import String.
From Verif Require Import Base Bytes StreamModel RadixModel EcModel HdModel WifModel.

(** The coordinates of the multiples of the generator are below the field size,
    and the opposite point has the same x and the other parity of y. *)
Definition coordinates_ok (c : curve) : Prop := forall k, 0 < k < order ->
  be_value (tl (mulG c k)) < 2 ^ 256 - 2 ^ 32 - 977 /\ mulG c (order - k) = (5 - hd 0 (mulG c k)) :: tl (mulG c k).
(** (r, s) is an ECDSA signature of the number [m] by the key q*G: some nonce point
    k*G has x coordinate r modulo the order and s*k = m + r*q.  The recovery
    identifier tells which point: its bit 0 is the parity of y (2 or 3 begins the
    serialization), its bit 1 whether x is not below the order. *)
Definition signed (c : curve) (m q r s id : Z) : Prop := 0 < r < order /\ 0 < s < order /\ exists k, 0 < k < order /\
  be_value (tl (mulG c k)) = r + (id / 2) * order /\ hd 0 (mulG c k) = 2 + id mod 2 /\ (s * k) mod order = (m + r * q) mod order.
(** The serialization of the key q*G. *)
Definition key_bytes (c : curve65) (compressed : bool) (q : Z) : list Z := if compressed then mulG (c33 c) q else mulU c q.
(** The bytes of a message signature. *)
Definition signature_bytes (id : Z) (compressed : bool) (r s : Z) : list Z := (27 + id + (if compressed then 4 else 0)) :: be_bytes 32 r ++ be_bytes 32 s.
(** What is hashed: each string with its length. *)
Definition counted (s : list Z) : list Z := write_variable (len s) ++ s.
Definition preimage (message : list Z) : list Z := counted (chars "Bitcoin Signed Message:" ++ [10]) ++ counted message.
