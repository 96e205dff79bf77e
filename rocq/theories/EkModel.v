(** Model of src/wallet/keys/encrypted_keys.cpp (BIP38) and of
    parse_encrypted_keys/*.cpp: encrypted private keys, tokens and confirmation
    codes, over the curve of WifModel.v and the AES of AesModel.v.  The three
    scrypt functions, the hashes and Unicode normalization are parameters. *)
From Verif Require Import Base Bytes RadixModel AddressModel EcModel WifModel AesModel.

(** impl/data/data_array.ipp:154-172 xor_data, xor_offset *)
Definition xor_offset (size offset1 offset2 : nat) (a b : list Z) : list Z :=
  map (fun i => Z.lxor (nth (i + offset1) a 0) (nth (i + offset2) b 0)) (seq 0 size).
(** slice<begin, end> *)
Definition slice (b e : nat) (l : list Z) : list Z := firstn (e - b) (skipn b l).

Section Ek.
Variable c : curve65.
(** double sha256; ripemd160 of sha256; to_canonical_composition of a passphrase *)
Variable hash short_hash normal : list Z -> list Z.
(** encrypted_keys.cpp:107-126: scrypt of (data, salt), 32, 64 and 64 bytes *)
Variable scrypt_token scrypt_pair scrypt_private : list Z -> list Z -> list Z.

(** 47-63 address_hash, address_salt *)
Definition address_hash (address : list Z) : list Z := hash (encode_base58 address).
Definition point_address (point : list Z) (version : Z) (compressed : bool) : option (list Z) := ecpub_address c short_hash hash (mkecpub point compressed) version.
Definition secret_address (secret : list Z) (version : Z) (compressed : bool) : option (list Z) := ecprv_address c short_hash hash (private_from_secret secret version compressed).
Definition address_salt (address : option (list Z)) : option (list Z) := match address with Some a => Some (firstn 4 (address_hash a)) | None => None end.
(** 79-99 address_validate *)
Definition address_validate (salt : list Z) (address : option (list Z)) : bool :=
  match address with Some a => list_eqb (firstn (length salt) (address_hash a)) salt | None => false end.
(** 104-124 point_hash, point_sign *)
Definition point_hash (point : list Z) : list Z := slice 1 33 point.
Definition point_sign (byte : Z) (hash : list Z) : Z := Z.lxor byte (Z.land (last hash 0) 1).
(** 151-180 set_flags; ek_flag: 4, 32, 0xc0 *)
Definition set_flags (compressed lot_sequence multiplied : bool) : Z :=
  Z.lor (Z.lor (if compressed then 32 else 0) (if lot_sequence then 4 else 0)) (if negb multiplied then 192 else 0).
(** parse_encrypted_key.ipp; parse_encrypted_private.cpp 58-67 multiplied *)
Definition f_compressed (flags : Z) : bool := negb (Z.land flags 32 =? 0).
Definition f_lot_sequence (flags : Z) : bool := negb (Z.land flags 4 =? 0).
Definition f_multiplied (flags : Z) : bool := Z.land flags 192 =? 0.
Definition owner_salt (lot_sequence : bool) (entropy : list Z) : list Z := if lot_sequence then firstn 4 entropy else entropy.
(** insert_checksum of the slices *)
Definition checked (payload : list Z) : list Z := insert_checksum hash 4 (payload ++ repeat 0 4).

(** ** Private keys: prefix 2, flags 1, salt 4, entropy 8, data 8 + 16, checksum 4;
    parse_encrypted_private.cpp *)
Definition private_prefix (version : Z) (multiplied : bool) : list Z := [1; ((if multiplied then 0x43 else 0x42) + version) mod 256].
Definition pk_flags (k : list Z) : Z := nth 2 k 0.
Definition pk_salt (k : list Z) : list Z := slice 3 7 k.
Definition pk_entropy (k : list Z) : list Z := slice 7 15 k.
Definition pk_data1 (k : list Z) : list Z := slice 15 23 k.
Definition pk_data2 (k : list Z) : list Z := slice 23 39 k.
Definition pk_valid (k : list Z) : bool := list_eqb (slice 0 1 k) [1] && verify_checksum_array hash 4 k.
Definition pk_version (k : list Z) : Z := (nth 1 k 0 - (if f_multiplied (pk_flags k) then 0x43 else 0x42)) mod 256.

(** 337-367 encrypt *)
Definition ek_encrypt (secret passphrase : list Z) (version : Z) (compressed : bool) : option (list Z) :=
  match address_salt (secret_address secret version compressed) with
  | None => None
  | Some salt =>
      let derived := scrypt_private (normal passphrase) salt in
      let first := firstn 32 derived in let second := skipn 32 derived in
      let encrypted1 := encrypt_ecb (xor_offset 16 0 0 secret first) second in
      let encrypted2 := encrypt_ecb (xor_offset 16 16 16 secret first) second in
      Some (checked (private_prefix version false ++ [set_flags compressed false false] ++ salt ++ encrypted1 ++ encrypted2))
  end.
(** 411-432 decrypt_secret *)
Definition decrypt_secret (k passphrase : list Z) : option (list Z) :=
  let derived := scrypt_private (normal passphrase) (pk_salt k) in
  let encrypt1 := decrypt_ecb (pk_entropy k ++ pk_data1 k) (skipn 32 derived) in
  let encrypt2 := decrypt_ecb (pk_data2 k) (skipn 32 derived) in
  let secret := xor_offset 32 0 0 (encrypt1 ++ encrypt2) (firstn 32 derived) in
  if address_validate (pk_salt k) (secret_address secret (pk_version k) (f_compressed (pk_flags k))) then Some secret else None.
(** 372-409 decrypt_multiplied *)
Definition decrypt_multiplied (k passphrase : list Z) : option (list Z) :=
  let flags := pk_flags k in
  let secret := scrypt_token (normal passphrase) (owner_salt (f_lot_sequence flags) (pk_entropy k)) in
  let secret := if f_lot_sequence flags then hash (secret ++ pk_entropy k) else secret in
  match secret_to_public (c33 c) secret with
  | None => None
  | Some point =>
      let derived := scrypt_pair point (pk_salt k ++ pk_entropy k) in
      let first := firstn 32 derived in let second := skipn 32 derived in
      let decrypt2 := xor_offset 16 0 16 (decrypt_ecb (pk_data2 k) second) first in
      let extended := decrypt_ecb (pk_data1 k ++ firstn 8 decrypt2) second in
      let decrypt1 := xor_offset 16 0 0 extended first in
      let factor := hash (decrypt1 ++ skipn 8 decrypt2) in
      match secret_mul secret factor with
      | None => None
      | Some secret => if address_validate (pk_salt k) (secret_address secret (pk_version k) (f_compressed flags)) then Some secret else None
      end
  end.
(** 434-453 decrypt: secret, version, compressed *)
Definition ek_decrypt (k passphrase : list Z) : option (list Z * Z * bool) :=
  if negb (pk_valid k) then None
  else match (if f_multiplied (pk_flags k) then decrypt_multiplied k passphrase else decrypt_secret k passphrase) with
       | Some secret => Some (secret, pk_version k, f_compressed (pk_flags k))
       | None => None
       end.

(** ** Tokens: prefix 8, entropy 8, point 33, checksum 4; parse_encrypted_token.cpp *)
Definition token_magic : list Z := [0x2c; 0xe9; 0xb3; 0xe1; 0xff; 0x39; 0xe2].
Definition token_prefix (lot_sequence : bool) : list Z := token_magic ++ [if lot_sequence then 0x51 else 0x53].
Definition tk_lot_sequence (t : list Z) : bool := nth 7 t 0 =? 0x51.
Definition tk_entropy (t : list Z) : list Z := slice 8 16 t.
Definition tk_point (t : list Z) : list Z := slice 16 17 t ++ slice 17 49 t.
Definition tk_valid (t : list Z) : bool :=
  list_eqb (slice 0 7 t) token_magic && ((nth 7 t 0 =? 0x53) || tk_lot_sequence t) && verify_checksum_array hash 4 t.
(** 276-301 create_token (private) *)
Definition create_token_with (passphrase salt entropy prefix : list Z) : option (list Z) :=
  let lot_sequence := (length salt =? 4)%nat in
  let factor := scrypt_token (normal passphrase) salt in
  let factor := if lot_sequence then hash (factor ++ entropy) else factor in
  match secret_to_public (c33 c) factor with
  | None => None
  | Some point => Some (checked (prefix ++ entropy ++ point))
  end.
(** 304-313 *)
Definition create_token (passphrase entropy : list Z) : option (list Z) := create_token_with passphrase entropy entropy (token_prefix false).
(** 316-330: the result and the token, [out] the caller's *)
Definition create_token_lot (out passphrase salt : list Z) (lot sequence : Z) : bool * list Z :=
  if (lot >? 1048575) || (sequence >? 4095) then (false, out)
  else let lot_sequence := Z.lor (wrap u32 (Z.shiftl lot 12)) sequence in
       let entropy := salt ++ be_bytes 4 lot_sequence in
       (true, match create_token_with passphrase salt entropy (token_prefix true) with Some t => t | None => out end).

(** ** Confirmation codes: prefix 5, flags 1, salt 4, entropy 8, sign 1, data 32,
    checksum 4; parse_encrypted_public.cpp *)
Definition public_magic : list Z := [0x64; 0x3b; 0xf6; 0xa8].
Definition public_prefix (version : Z) : list Z := public_magic ++ [(0x9a + version) mod 256].
Definition pb_flags (k : list Z) : Z := nth 5 k 0.
Definition pb_salt (k : list Z) : list Z := slice 6 10 k.
Definition pb_entropy (k : list Z) : list Z := slice 10 18 k.
Definition pb_sign (k : list Z) : Z := nth 18 k 0.
Definition pb_data (k : list Z) : list Z := slice 19 51 k.
Definition pb_valid (k : list Z) : bool := list_eqb (slice 0 4 k) public_magic && verify_checksum_array hash 4 k.
Definition pb_version (k : list Z) : Z := (nth 4 k 0 - 0x9a) mod 256.
(** 204-233 create_public_key *)
Definition create_public_key (flags : Z) (salt entropy derived1 derived2 secret : list Z) (version : Z) : option (list Z) :=
  match secret_to_public (c33 c) secret with
  | None => None
  | Some point =>
      let h := point_hash point in
      let encrypted1 := encrypt_ecb (xor_offset 16 0 0 h derived1) derived2 in
      let encrypted2 := encrypt_ecb (xor_offset 16 16 16 h derived1) derived2 in
      Some (checked (public_prefix version ++ [flags] ++ salt ++ entropy ++ [point_sign (hd 0 point) derived2] ++ encrypted1 ++ encrypted2))
  end.
(** 177-201 create_private_key *)
Definition create_private_key (flags : Z) (salt entropy derived1 derived2 seed : list Z) (version : Z) : list Z :=
  let encrypt1 := encrypt_ecb (xor_offset 16 0 0 seed derived1) derived2 in
  let combined := slice 8 16 encrypt1 ++ slice 16 24 seed in
  let encrypt2 := encrypt_ecb (xor_offset 16 0 16 combined derived1) derived2 in
  checked (private_prefix version true ++ [flags] ++ salt ++ entropy ++ firstn 8 encrypt1 ++ encrypt2).
(** 236-269 create_key_pair: private, confirmation code, point *)
Definition create_key_pair (token seed : list Z) (version : Z) (compressed : bool) : option (list Z * list Z * list Z) :=
  if negb (tk_valid token) then None
  else
    let point := tk_point token in
    let factor := hash seed in
    match point_mul (c33 c) point factor with
    | None => None
    | Some product =>
        match address_salt (point_address product version compressed) with
        | None => None
        | Some salt =>
            let derived := scrypt_pair point (salt ++ tk_entropy token) in
            let flags := set_flags compressed (tk_lot_sequence token) true in
            match create_public_key flags salt (tk_entropy token) (firstn 32 derived) (skipn 32 derived) factor version with
            | None => None
            | Some code => Some (create_private_key flags salt (tk_entropy token) (firstn 32 derived) (skipn 32 derived) seed version, code, product)
            end
        end
    end.
(** 458-503 decrypt (confirmation code): point, version, compressed *)
Definition ek_confirm (k passphrase : list Z) : option (list Z * Z * bool) :=
  if negb (pb_valid k) then None
  else
    let lot_sequence := f_lot_sequence (pb_flags k) in
    let factor := scrypt_token (normal passphrase) (owner_salt lot_sequence (pb_entropy k)) in
    let factor := if lot_sequence then hash (factor ++ pb_entropy k) else factor in
    match secret_to_public (c33 c) factor with
    | None => None
    | Some point =>
        let derived := scrypt_pair point (pb_salt k ++ pb_entropy k) in
        let first := firstn 32 derived in let second := skipn 32 derived in
        let decrypt1 := xor_offset 16 0 0 (decrypt_ecb (firstn 16 (pb_data k)) second) first in
        let decrypt2 := xor_offset 16 0 16 (decrypt_ecb (skipn 16 (pb_data k)) second) first in
        match point_mul (c33 c) (point_sign (pb_sign k) second :: decrypt1 ++ decrypt2) factor with
        | None => None
        | Some product => if address_validate (pb_salt k) (point_address product (pb_version k) (f_compressed (pb_flags k)))
                          then Some (product, pb_version k, f_compressed (pb_flags k)) else None
        end
    end.
End Ek.
