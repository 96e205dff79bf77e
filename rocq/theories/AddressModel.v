(** Model of src/hash/checksum.cpp, impl/hash/checksum.ipp,
    impl/wallet/addresses/checked.ipp, src/wallet/addresses/witness_address.cpp
    and payment_address.cpp (parsing and encoding). *)
From Coq Require Import String.
From Verif Require Import Base Bytes RadixModel.

(** * bech32 (src/hash/checksum.cpp:72-201) *)
(** unicode/ascii.cpp:55-67 ascii_to_lower, of one character *)
Definition to_lower_char (c : Z) : Z := if is_ascii_upper c then c + 32 else c.
Definition ascii_to_lower (l : list Z) : list Z := map to_lower_char l.
(** uint5_t: truncation to five bits *)
Definition u5 (v : Z) : Z := v mod 32.
(** 72-87 bech32_expand_prefix (ASCII prefix) *)
Definition bech32_expand_prefix (prefix : list Z) : list Z :=
  let lower := ascii_to_lower prefix in
  map (fun c => u5 (Z.shiftr c 5)) lower ++ [0] ++ map u5 lower.
(** 89-99 bech32_expand_checksum *)
Definition bech32_expand_checksum (checksum : Z) : list Z :=
  map (fun s => u5 (Z.shiftr checksum s)) [25; 20; 15; 10; 5; 0].
(** 101-120 bech32_checksum: one iteration of the loop, and the loop *)
Definition bech32_step (checksum value : Z) : Z :=
  let coeficient := Z.shiftr checksum 25 in
  let checksum := Z.lxor (Z.shiftl (Z.land checksum 33554431) 5) value in
  let checksum := if Z.testbit coeficient 0 then Z.lxor checksum 0x3b6a57b2 else checksum in
  let checksum := if Z.testbit coeficient 1 then Z.lxor checksum 0x26508e6d else checksum in
  let checksum := if Z.testbit coeficient 2 then Z.lxor checksum 0x1ea119fa else checksum in
  let checksum := if Z.testbit coeficient 3 then Z.lxor checksum 0x3d4233dd else checksum in
  if Z.testbit coeficient 4 then Z.lxor checksum 0x2a1462b3 else checksum.
Definition bech32_checksum (data : list Z) : Z := fold_left bech32_step data 1.
(** 122-127 bech32_constant *)
Definition bech32_constant (version : Z) : Z := if version =? 0 then 1 else 0x2bc830a3.
(** 136-146 bech32_append_checksum *)
Definition bech32_append_checksum (data prefix : list Z) (version : Z) : list Z :=
  let prefixed := bech32_expand_prefix prefix ++ data in
  let checksum := Z.lxor (bech32_checksum (prefixed ++ repeat 0 6)) (bech32_constant version) in
  data ++ bech32_expand_checksum checksum.
(** 148-154 bech32_verify_checksum *)
Definition bech32_verify_checksum (checked prefix : list Z) (version : Z) : bool :=
  bech32_checksum (bech32_expand_prefix prefix ++ checked) =? bech32_constant version.
(** 156-169 bech32_build_checked *)
Definition bech32_build_checked (version : Z) (program prefix : list Z) : list Z :=
  if version >=? 32 then []
  else bech32_append_checksum (u5 version :: base32_unpack program) prefix version.
(** 171-188 bech32_verify_checked: version and program on success *)
Definition bech32_verify_checked (prefix checked : list Z) : option (Z * list Z) :=
  if len checked <? 7 then None
  else let version := hd 0 checked in
       let program := base32_pack (firstn (Z.to_nat (len checked - 7)) (skipn 1 checked)) in
       if bech32_verify_checksum checked prefix version then Some (version, program) else None.

(** * witness_address.cpp *)
Definition is_ascii (l : list Z) : bool := forallb (fun c => c <? 128) l.
(** 122-129 is_valid_program, 132-135 is_valid_version *)
Definition is_valid_program (program : list Z) : bool := (len program >=? 2) && (len program <=? 40).
Definition is_valid_version (version : Z) : bool := version <=? 16.
(** 138-147 has_invalid_prefix_character: char is signed, '!' = 33, '~' = 126 *)
Definition has_invalid_prefix_character (prefix : list Z) : bool :=
  existsb (fun c => (signed_char c <? 33) || (signed_char c >? 126)) prefix.
Definition list_eqb (a b : list Z) : bool := if list_eq_dec Z.eq_dec a b then true else false.
(** 150-178 parse_prefix: valid or not (the error codes are not distinguished) *)
Definition mainnet : list Z := chars "bc"%string.
Definition testnet : list Z := chars "tb"%string.
Definition parse_prefix (prefix : list Z) (strict : bool) : bool :=
  if negb (is_ascii prefix) then false
  else if negb (list_eqb (ascii_to_lower prefix) prefix) then false
  else if len prefix <? 1 then false
  else if len prefix >? 90 - 2 - 4 - 6 then false
  else if has_invalid_prefix_character prefix then false
  else if strict && negb (list_eqb prefix mainnet) && negb (list_eqb prefix testnet) then false
  else true.
(** 180-215 parse_program *)
Inductive program_type := v0_p2kh | v0_p2sh | v1_taproot | unknown_program | invalid_program.
Definition parse_program (version : Z) (program : list Z) (strict : bool) : program_type :=
  if negb (is_valid_version version) || negb (is_valid_program program) then invalid_program
  else if version =? 0 then
    (if len program =? 20 then v0_p2kh else if len program =? 32 then v0_p2sh else invalid_program)
  else if version =? 1 then
    (if len program =? 32 then v1_taproot else invalid_program)
  else if strict then invalid_program else unknown_program.
(** std::string::rfind of the separator, and the two parts around it *)
Fixpoint split_last (sep : Z) (l : list Z) : option (list Z * list Z) :=
  match l with
  | [] => None
  | c :: r => match split_last sep r with
              | Some (a, b) => Some (c :: a, b)
              | None => if c =? sep then Some ([], r) else None
              end
  end.
Record waddress := mkwa { wprefix : list Z; wversion : Z; wprogram : list Z }.
Definition valid_type (t : program_type) : bool := match t with invalid_program => false | _ => true end.
(** 218-268 parse_address.  Outer None: base32 table overrun. *)
Definition parse_address (address : list Z) (strict : bool) : option (option waddress) :=
  if negb (is_ascii address) then Some None
  else if has_mixed_ascii_case address then Some None
  else if len address >? 90 then Some None
  else match split_last 49 (ascii_to_lower address) with
  | None => Some None
  | Some (prefix, payload) =>
    if negb (parse_prefix prefix strict) then Some None
    else if len payload <? 1 + 4 + 6 then Some None
    else if len payload >? 1 + 64 + 6 then Some None
    else match decode_base32_chunk payload with
    | None => None
    | Some None => Some None
    | Some (Some checked) =>
      match bech32_verify_checked prefix checked with
      | None => Some None
      | Some (version, program) =>
        if negb (is_valid_version version) then Some None
        else if negb (valid_type (parse_program version program strict)) then Some None
        else Some (Some (mkwa prefix version program))
      end
    end
  end.
(** 289-308 from_parameters *)
Definition from_parameters (program : list Z) (version : Z) (prefix : list Z) : option waddress :=
  if negb (parse_prefix prefix false) then None
  else if valid_type (parse_program version program false) then Some (mkwa prefix version program) else None.
(** 385-393 encoded (of a valid address) *)
Definition encoded (a : waddress) : list Z :=
  wprefix a ++ [49] ++ encode_base32_chunk (bech32_build_checked (wversion a) (wprogram a) (wprefix a)).

(** * bitcoin checksum and base58check addresses *)
Section Check.
(** bitcoin_hash (double sha256), 32 bytes *)
Variable hash : list Z -> list Z.
(** checksum.cpp:33-36 bitcoin_checksum *)
Definition bitcoin_checksum (data : list Z) : Z := le_value (firstn 4 (hash data)).
(** 45-50 append_checksum *)
Definition append_checksum (data : list Z) : list Z := data ++ le_bytes 4 (bitcoin_checksum data).
(** 52-65 verify_checksum (data_chunk) *)
Definition verify_checksum (data : list Z) : bool :=
  if len data <? 4 then false
  else let size := (length data - 4)%nat in
       le_value (skipn size data) =? bitcoin_checksum (firstn size data).
(** impl/hash/checksum.ipp:33-60 insert_checksum<Size, Checksum>: the last
    [check] bytes of the array are overwritten. *)
Definition insert_checksum (check : nat) (data : list Z) : list Z :=
  let payload := firstn (length data - check) data in payload ++ firstn check (hash payload).
(** 62-84 verify_checksum<Size, Checksum> *)
Definition verify_checksum_array (check : nat) (data : list Z) : bool :=
  let n := (length data - check)%nat in
  list_eqb (firstn check (hash (firstn n data))) (skipn n data).
(** checked.ipp:63-71 from_payload: build_array of the slices, zero filled,
    then insert_checksum *)
Definition checked_from (check : nat) (prefix payload : list Z) : list Z :=
  insert_checksum check (prefix ++ payload ++ repeat 0 check).
(** checked.ipp:109-130 properties *)
Definition checked_prefix (p : nat) (value : list Z) : list Z := firstn p value.
Definition checked_payload (p n : nat) (value : list Z) : list Z := firstn n (skipn p value).
(** payment_address.cpp:78-94 from_string (payment = checked<1, 20, 4>) *)
Definition payment_from_string (address : list Z) : option (list Z) :=
  do decoded <- decode_base58_array 25 address;
  if verify_checksum_array 4 decoded then Some decoded else None.
(** 72-76 from hash and prefix; 138-141 encoded; 146-154 prefix, hash *)
Definition payment_of (short_hash : list Z) (prefix : Z) : list Z := checked_from 4 [prefix] short_hash.
Definition payment_encoded (value : list Z) : list Z := encode_base58 value.
Definition payment_prefix (value : list Z) : Z := hd 0 (checked_prefix 1 value).
Definition payment_hash (value : list Z) : list Z := checked_payload 1 20 value.
End Check.
