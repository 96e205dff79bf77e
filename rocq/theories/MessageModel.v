(** Model of src/wallet/message.cpp (signed messages) and of
    src/crypto/secp256k1/recover.cpp over libsecp256k1's recovery module.  The
    library's group operations are those of the curve of EcModel.v: a point is a
    multiple of the generator, and its coordinates are read from its serialization. *)
From Coq Require Import String.
From Verif Require Import Base Bytes MathModel StreamModel RadixModel AddressModel EcModel HdModel WifModel PrimeProofs.

(** the field of the curve *)
Definition field_size : Z := 2 ^ 256 - 2 ^ 32 - 977.
(** secp256k1_scalar_inverse: Fermat's exponent *)
Definition inverse (a : Z) : Z := powmod a (Z.to_pos (order - 2)) order.

Section Message.
Variable c : curve65.
(** RFC 6979 (secp256k1_nonce_function_rfc6979): the first nonce of the sequence of
    the secret and the hash for which the signature is not zero *)
Variable nonce : list Z -> list Z -> Z.
Variables (hash short_hash : list Z -> list Z).  (* SHA-256 twice; SHA-256 then RIPEMD-160 *)

(** coordinates: x, and whether y is odd *)
Definition point_x (k : Z) : Z := be_value (tl (mulG (c33 c) k)).
Definition point_odd (k : Z) : bool := hd 0 (mulG (c33 c) k) =? 3.
(** recover.cpp:56-77; secp256k1_ecdsa_sig_sign: low s, the recovery identifier
    follows the negation *)
Definition sign_recoverable (secret digest : list Z) : option (list Z * Z) :=
  if negb (verify_secret secret) then None
  else let k := nonce secret digest in
       let x := point_x k in
       let r := x mod order in
       let s := (inverse k * (be_value digest + r * be_value secret)) mod order in
       let high := order / 2 <? s in
       let low := if high then order - s else s in
       let id := (if x >=? order then 2 else 0) + (if xorb (point_odd k) high then 1 else 0) in
       if (r =? 0) || (low =? 0) then None else Some (be_bytes 32 r ++ be_bytes 32 low, id).
(** recover.cpp:38-50; secp256k1_ecdsa_recoverable_signature_parse_compact,
    secp256k1_ecdsa_sig_recover: the multiple of the generator recovered *)
Definition recover_scalar (signature : list Z) (id : Z) (digest : list Z) : option Z :=
  let r := be_value (firstn 32 signature) in
  let s := be_value (skipn 32 signature) in
  if (r >=? order) || (s >=? order) || (r =? 0) || (s =? 0) then None
  else if Z.testbit id 1 && (r >=? field_size - order) then None
  else let x := if Z.testbit id 1 then r + order else r in
       match dlog (c33 c) ((if Z.testbit id 0 then 3 else 2) :: be_bytes 32 x) with
       | None => None
       | Some k => let q := (inverse r * (s * k - be_value digest)) mod order in
                   if q =? 0 then None else Some q
       end.
(** recover.cpp:79-91 recover_public: compressed, uncompressed *)
Definition recover_public (compressed : bool) (signature : list Z) (id : Z) (digest : list Z) : option (list Z) :=
  match recover_scalar signature id digest with
  | Some q => Some (if compressed then mulG (c33 c) q else mulU c q)
  | None => None
  end.

(** message.cpp:36-50 hash_message *)
Definition message_prefix : list Z := chars "Bitcoin Signed Message:" ++ [10].
Definition message_text (message : list Z) : list Z := write_variable (len message_prefix) ++ message_prefix ++ write_variable (len message) ++ message.
Definition hash_message (message : list Z) : list Z := hash (message_text message).
(** 29-32, 79-89 recovery_id_to_magic *)
Definition max_recovery_id : Z := 3.
Definition magic_compressed : Z := 31.
Definition magic_uncompressed : Z := 27.
Definition recovery_id_to_magic (id : Z) (compressed : bool) : option Z :=
  if id >? max_recovery_id then None else Some (id + (if compressed then magic_compressed else magic_uncompressed)).
(** 91-111 magic_to_recovery_id *)
Definition magic_to_recovery_id (magic : Z) : option (Z * bool) :=
  if (magic <? magic_uncompressed) || (magic >? magic_compressed + max_recovery_id) then None
  else let id := magic - magic_uncompressed in
       let compressed := id >=? magic_compressed - magic_uncompressed in
       Some (if compressed then id - (magic_compressed - magic_uncompressed) else id, compressed).
(** 128-141 sign_message *)
Definition sign_message_secret (message secret : list Z) (compressed : bool) : option (list Z) :=
  match sign_recoverable secret (hash_message message) with
  | None => None
  | Some (signature, id) => match recovery_id_to_magic id compressed with
                            | Some magic => Some (magic :: signature)
                            | None => None
                            end
  end.
(** 113-117 from a private key *)
Definition sign_message (message : list Z) (k : ecprv) : option (list Z) := sign_message_secret message (e_secret k) (e_compress k).
(** 119-126 from wif text (ec_private.hpp: the default address version is zero) *)
Definition sign_message_wif (message text : list Z) : option (list Z) :=
  let secret := private_from_wif hash text 0 in
  if scalar_bool (e_secret secret) then sign_message message secret else None.
(** 52-77 recover, 143-160 verify_message *)
Definition verify_message (message address signature : list Z) : bool :=
  match magic_to_recovery_id (hd 0 signature) with
  | None => false
  | Some (id, compressed) =>
      match recover_public compressed (tl signature) id (hash_message message) with
      | Some point => list_eqb (short_hash point) (payment_hash address)
      | None => false
      end
  end.
End Message.
