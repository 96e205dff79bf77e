(** Model of src/wallet/keys/{ec_private,ec_public,ec_scalar,ec_point}.cpp. *)
From Coq Require Import String.
From Verif Require Import Base Bytes MathModel RadixModel AddressModel EcModel HdModel.

(** The curve with its 65 byte serializations (uncompressed, first byte 4);
    [udlog] parses 65 bytes (libsecp256k1 also parses the hybrid forms). *)
Record curve65 := mkcurve65 { c33 : curve; mulU : Z -> list Z; udlog : list Z -> option Z }.
Definition curve65_ok (c : curve65) : Prop :=
  curve_ok (c33 c) /\
  (forall k, 0 < k < order -> length (mulU c k) = 65%nat /\ bytes_ok (mulU c k) /\ hd 0 (mulU c k) = 4 /\ udlog c (mulU c k) = Some k) /\
  (forall p k, udlog c p = Some k -> 0 < k < order /\ (hd 0 p = 4 -> mulU c k = p)).

(** ** Scalars: ec_scalar.cpp.  A scalar is its 32 bytes. *)
Definition scalar_null : list Z := null32.
(** 173-177 operator bool *)
Definition scalar_bool (s : list Z) : bool := negb (list_eqb s null32).
Definition or_null (r : option (list Z)) : list Z := match r with Some s => s | None => scalar_null end.
(** 111-118 unary minus; 123-130 +; 132-135 -; 137-144 * *)
Definition scalar_neg (s : list Z) : list Z := or_null (secret_neg s).
Definition scalar_add (l r : list Z) : list Z := or_null (secret_add l r).
Definition scalar_sub (l r : list Z) : list Z := scalar_add l (scalar_neg r).
Definition scalar_mul (l r : list Z) : list Z := or_null (secret_mul l r).
(** 69-87 from_int64; None where absolute has undefined behaviour *)
Definition scalar_of_int64 (v : Z) : option (list Z) :=
  if v =? 0 then Some scalar_null
  else match absolute i64 v with
       | Some a => let secret := repeat 0 24 ++ be_bytes 8 a in
                   Some (if v >? 0 then secret else scalar_neg secret)
       | None => None
       end.

(** ** Points: ec_point.cpp.  A point is its 33 bytes. *)
Section Point.
Variable c : curve.
Definition point_null : list Z := repeat 0 33.
(** 33-36 is_valid; 196-199 operator bool *)
Definition point_bool (p : list Z) : bool := negb (hd 0 p =? 0).
Definition or_off (r : option (list Z)) : list Z := match r with Some s => s | None => point_null end.
(** 110-120 unary minus *)
Definition ec_point_neg (p : list Z) : list Z := if point_bool p then or_off (point_neg c p) else point_null.
(** 125-135 +; 137-143 -; 145-155 * *)
Definition ec_point_add (l r : list Z) : list Z := if point_bool l && point_bool r then or_off (point_add c l r) else point_null.
Definition ec_point_sub (l r : list Z) : list Z := if point_bool l && point_bool r then ec_point_add l (ec_point_neg r) else point_null.
Definition ec_point_mul (l : list Z) (r : list Z) : list Z := if point_bool l && scalar_bool r then or_off (point_mul c l r) else point_null.
End Point.

(** ** Private keys: ec_private.cpp *)
Record ecprv := mkecprv { e_secret : list Z; e_compress : bool; e_versions : Z }.
(** 34-42 *)
Definition compressed_sentinel : Z := 1.
(** ec_private.hpp:63-76 *)
Definition to_address_version (v : Z) : Z := v mod 256.
Definition to_wif_version (v : Z) : Z := (v / 256) mod 256.
Definition to_versions (address wif : Z) : Z := Z.lor ((wif * 256) mod 2 ^ 16) address.
(** 49-52 from a scalar; 44-47 default; 74-78 from a secret *)
Definition private_from_scalar (s : list Z) (address : Z) : ecprv := mkecprv s true address.
Definition no_ecprv : ecprv := private_from_scalar scalar_null 0.
Definition private_from_secret (s : list Z) (versions : Z) (compress : bool) : ecprv := mkecprv s compress versions.

Section Wif.
Variable hash : list Z -> list Z.  (* bitcoin_hash *)
(** 83-94 is_wif *)
Definition is_wif (d : list Z) : bool :=
  if negb (len d =? 38) && negb (len d =? 37) then false
  else if negb (verify_checksum hash d) then false
  else (len d =? 37) || (nth 33 d 0 =? compressed_sentinel).
(** 119-128, 130-139 *)
Definition from_wif (d : list Z) (address : Z) (compress : bool) : ecprv :=
  if is_wif d then private_from_secret (firstn 32 (skipn 1 d)) (to_versions address (hd 0 d)) compress else no_ecprv.
(** 99-117 from_string *)
Definition private_from_wif (text : list Z) (address : Z) : ecprv :=
  match decode_base58 text with
  | Some d => if is_wif d then from_wif d address (len d =? 38) else no_ecprv
  | None => no_ecprv
  end.
(** 158-175 encoded *)
Definition wif_encoded (k : ecprv) : list Z :=
  let prefix := to_wif_version (e_versions k) in
  if e_compress k then encode_base58 (insert_checksum hash 4 ([prefix] ++ e_secret k ++ [compressed_sentinel] ++ repeat 0 4))
  else encode_base58 (insert_checksum hash 4 ([prefix] ++ e_secret k ++ repeat 0 4)).
End Wif.
(** 141-153 from_entropy; hd_private's default prefixes are not observable here *)
Definition private_from_seed (c : curve) (hmac512 : list Z -> list Z -> list Z) (entropy : list Z) (version : Z) : ecprv :=
  let key := private_from_entropy c hmac512 entropy 0 in
  if p_valid (v_public key) then private_from_secret (v_secret key) version true else no_ecprv.

(** ** Public keys: ec_public.cpp, keys.cpp:93-132 *)
Record ecpub := mkecpub { k_point : list Z; k_compress : bool }.
Definition no_ecpub : ecpub := mkecpub point_null true.
Definition is_compressed_key (p : list Z) : bool := (len p =? 33) && ((hd 0 p =? 2) || (hd 0 p =? 3)).
Definition is_uncompressed_key (p : list Z) : bool := (len p =? 65) && (hd 0 p =? 4).
Definition is_public_key (p : list Z) : bool := is_compressed_key p || is_uncompressed_key p.
Section Public.
Variable c : curve65.
(** keys.cpp:47-61 compress, decompress *)
Definition compress (p : list Z) : option (list Z) := match udlog c p with Some k => Some (mulG (c33 c) k) | None => None end.
Definition decompress (p : list Z) : option (list Z) := match dlog (c33 c) p with Some k => Some (mulU c k) | None => None end.
(** 98-117 from_data *)
Definition ecpub_from_data (d : list Z) : ecpub :=
  if negb (is_public_key d) then no_ecpub
  else if is_compressed_key d then mkecpub d true
  else match compress d with Some p => mkecpub p false | None => no_ecpub end.
(** 119-130 from_point *)
Definition ecpub_from_point (p : list Z) (compressed : bool) : ecpub :=
  if negb (is_public_key p) then no_ecpub
  else match compress p with Some q => mkecpub q compressed | None => no_ecpub end.
(** 89-96 from_string *)
Definition ecpub_from_string (text : list Z) : ecpub :=
  match decode_base16 text with Some d => ecpub_from_data d | None => no_ecpub end.
(** 180-187 to_uncompressed; 156-178 to_data *)
Definition ecpub_to_uncompressed (k : ecpub) : option (list Z) := if point_bool (k_point k) then decompress (k_point k) else None.
Definition ecpub_to_data (k : ecpub) : option (list Z) :=
  if negb (point_bool (k_point k)) then None
  else if k_compress k then Some (k_point k) else ecpub_to_uncompressed k.
(** 135-144 encoded: where to_uncompressed fails the array is not initialized,
    the text is then indeterminate: None. *)
Definition ecpub_encoded (k : ecpub) : option (list Z) :=
  if k_compress k then Some (encode_base16 (k_point k))
  else match ecpub_to_uncompressed k with Some u => Some (encode_base16 u) | None => None end.
(** ec_private.cpp:203-213 to_public; ec_public.cpp:81-87 from_private *)
Definition ecprv_to_public (k : ecprv) : ecpub :=
  if negb (scalar_bool (e_secret k)) then no_ecpub
  else match secret_to_public (c33 c) (e_secret k) with Some p => mkecpub p (e_compress k) | None => no_ecpub end.
(** payment_address.cpp:105-117 from_public; 97-103 from_private *)
Definition ecpub_address (short_hash hash : list Z -> list Z) (k : ecpub) (prefix : Z) : option (list Z) :=
  if negb (point_bool (k_point k)) then None
  else match ecpub_to_data k with Some d => Some (payment_of hash (short_hash d) prefix) | None => None end.
Definition ecprv_address (short_hash hash : list Z -> list Z) (k : ecprv) : option (list Z) :=
  if negb (scalar_bool (e_secret k)) then None
  else ecpub_address short_hash hash (ecprv_to_public k) (to_address_version (e_versions k)).
End Public.
