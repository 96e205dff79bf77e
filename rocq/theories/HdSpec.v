(** BIP32 hierarchical deterministic keys.  A point is written as the multiple
    of the generator that it is, so point(a) + point(b) is point(a + b). *)
From Verif Require Import Base Bytes EcModel.

Section Bip32.
Variable c : curve.
Variable HMAC_SHA512 : list Z -> list Z -> list Z.  (* key, data *)
Variable HASH160 : list Z -> list Z.
Variable HASH256 : list Z -> list Z.

Definition ser32 := be_bytes 4.
Definition ser256 := be_bytes 32.
Definition serP (k : Z) : list Z := mulG c k.       (* serP(point(k)) *)
Definition left32 (l : list Z) : list Z := firstn 32 l.
Definition right32 (l : list Z) : list Z := skipn 32 l.
Definition parse256 := be_value.

(** Child key derivation: the child key and chain code, or none. *)
Definition CKDpriv (k : Z) (chain : list Z) (i : Z) : option (Z * list Z) :=
  let I := if i >=? 2 ^ 31 then HMAC_SHA512 chain ([0] ++ ser256 k ++ ser32 i)
           else HMAC_SHA512 chain (serP k ++ ser32 i) in
  let ki := (parse256 (left32 I) + k) mod order in
  if (parse256 (left32 I) >=? order) || (ki =? 0) then None else Some (ki, right32 I).
(** The parent public key is point(K), K unknown to the caller. *)
Definition CKDpub (K : Z) (chain : list Z) (i : Z) : option (Z * list Z) :=
  if i >=? 2 ^ 31 then None
  else let I := HMAC_SHA512 chain (serP K ++ ser32 i) in
       let Ki := (parse256 (left32 I) + K) mod order in
       if (parse256 (left32 I) >=? order) || (Ki =? 0) then None else Some (Ki, right32 I).
Definition master (seed_key seed : list Z) : option (Z * list Z) :=
  let I := HMAC_SHA512 seed_key seed in
  if (parse256 (left32 I) =? 0) || (parse256 (left32 I) >=? order) then None else Some (parse256 (left32 I), right32 I).
(** Key fingerprint: the first 32 bits of HASH160 of the public key. *)
Definition fingerprint_of (k : Z) : Z := be_value (firstn 4 (HASH160 (serP k))).
(** Serialization format, with its checksum. *)
Definition checked58 (payload : list Z) : list Z := payload ++ firstn 4 (HASH256 payload).
Definition serialized (version depth parent child : Z) (chain key : list Z) : list Z :=
  checked58 (ser32 version ++ [depth] ++ ser32 parent ++ ser32 child ++ chain ++ key).
End Bip32.
