(** Model of src/crypto/secp256k1/{math,keys}.cpp: wrappers of the elliptic curve
    library.  The library itself (libsecp256k1) is not modelled: its behaviour is
    the documented one, over a [curve] given by the compressed serialization of
    the multiples of the generator and its inverse.  secp256k1 has prime order
    and cofactor one, so every point other than the identity is k*G for exactly
    one 0 < k < n. *)
From Verif Require Import Base Bytes.

(** SEC 2: the group order. *)
Definition order : Z := 0xFFFFFFFFFFFFFFFFFFFFFFFFFFFFFFFEBAAEDCE6AF48A03BBFD25E8CD0364141.

Record curve := mkcurve { mulG : Z -> list Z; dlog : list Z -> option Z }.
(** The 33 byte serializations and the multiples of G correspond. *)
Definition curve_ok (c : curve) : Prop :=
  (forall k, 0 < k < order -> length (mulG c k) = 33%nat /\ bytes_ok (mulG c k) /\ (hd 0 (mulG c k) = 2 \/ hd 0 (mulG c k) = 3) /\ dlog c (mulG c k) = Some k) /\
  (forall p k, dlog c p = Some k -> 0 < k < order /\ mulG c k = p).

Section Ec.
Variable c : curve.
(** secp256k1_ec_seckey_verify; keys.cpp:78-82 *)
Definition verify_secret (s : list Z) : bool := (0 <? be_value s) && (be_value s <? order).
(** keys.cpp:84-89 verify_point (compressed) *)
Definition verify_point (p : list Z) : bool := match dlog c p with Some _ => true | None => false end.
(** keys.cpp:36-42, 63-67 secret_to_public: secp256k1_ec_pubkey_create *)
Definition secret_to_public (s : list Z) : option (list Z) :=
  if verify_secret s then Some (mulG c (be_value s)) else None.
Definition to_secret (k : Z) : option (list Z) := if k mod order =? 0 then None else Some (be_bytes 32 (k mod order)).
Definition to_point (k : Z) : option (list Z) := if k mod order =? 0 then None else Some (mulG c (k mod order)).
(** math.cpp:109-114: secp256k1_ec_seckey_tweak_add fails for an invalid key, a
    tweak not below the order, or a zero sum. *)
Definition secret_add (s t : list Z) : option (list Z) :=
  if verify_secret s && (be_value t <? order) then to_secret (be_value s + be_value t) else None.
(** math.cpp:64-71, 96-100: parse, secp256k1_ec_pubkey_tweak_add, serialize. *)
Definition point_tweak (p t : list Z) : option (list Z) :=
  match dlog c p with
  | Some k => if be_value t <? order then to_point (k + be_value t) else None
  | None => None
  end.
(** math.cpp:159-164: secp256k1_ec_seckey_tweak_mul also fails for a zero tweak. *)
Definition secret_mul (s t : list Z) : option (list Z) :=
  if verify_secret s && verify_secret t then to_secret (be_value s * be_value t) else None.
(** math.cpp:74-81, 147-151 *)
Definition point_mul (p t : list Z) : option (list Z) :=
  match dlog c p with
  | Some k => if verify_secret t then to_point (k * be_value t) else None
  | None => None
  end.
(** math.cpp:169-173: secp256k1_ec_seckey_negate *)
Definition secret_neg (s : list Z) : option (list Z) :=
  if verify_secret s then to_secret (- be_value s) else None.
(** math.cpp:84-91, 175-179 *)
Definition point_neg (p : list Z) : option (list Z) :=
  match dlog c p with Some k => to_point (- k) | None => None end.
(** math.cpp:116-119, 127-143 ec_sum: secp256k1_ec_pubkey_combine *)
Definition point_sum (ps : list (list Z)) : option (list Z) :=
  match ps with
  | [] => None
  | _ => (fix go (l : list (list Z)) (sum : Z) : option (list Z) :=
            match l with
            | [] => to_point sum
            | p :: l' => match dlog c p with Some k => go l' (sum + k) | None => None end
            end) ps 0
  end.
Definition point_add (p q : list Z) : option (list Z) := point_sum [p; q].
End Ec.
