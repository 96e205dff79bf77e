(** Model of src/wallet/keys/stealth.cpp and of
    src/wallet/addresses/{stealth_sender,stealth_receiver,stealth_address}.cpp,
    over the curve of EcModel.v and given hash functions. *)
From Coq Require Import String.
From Verif Require Import Base Bytes MathModel RadixModel AddressModel EcModel OpModel PatternModel BinModel.

Section Stealth.
Variable c : curve.
(** sha256; double sha256; sha512; hmac-sha256 (data, key); ripemd160 of sha256 *)
Variable sha256 hash sha512 : list Z -> list Z.
Variable hmac256 : list Z -> list Z -> list Z.
Variable short_hash : list Z -> list Z.

(** crypto/secp256k1/keys.cpp:94-97 is_even_key *)
Definition is_even_key (p : list Z) : bool := hd 0 p =? 2.
(** stealth.cpp:34-38 is_stealth_script *)
Definition is_stealth_script (s : script) : bool :=
  is_pay_null_data_pattern s && (len (data (nth_op 1 s)) >=? 32).
(** 40-52 to_stealth_prefix *)
Definition to_stealth_prefix (s : script) : option Z :=
  if is_stealth_script s then Some (le_value (firstn 4 (hash (script_to_data false s)))) else None.
(** 56-77 create_ephemeral_key: [fuel] counts the nonces left below 255 *)
Fixpoint ephemeral_loop (fuel : nat) (nonce : Z) (seed : list Z) : option (list Z) :=
  match fuel with
  | O => None
  | S f => let secret := hmac256 (nonce :: seed) (chars "Stealth seed"%string) in
           match secret_to_public c secret with
           | Some p => if is_even_key p then Some secret else ephemeral_loop f (nonce + 1) seed
           | None => ephemeral_loop f (nonce + 1) seed
           end
  end.
Definition create_ephemeral_key (seed : list Z) : option (list Z) := ephemeral_loop 255 0 seed.
(** 109-134: the nonces from [nonce] on, [p] of them, wrapping at 2^32; the loop
    body for one nonce, its script if the filter matches.  (The doubling only
    makes the count of 2^32 - 1 a small term.) *)
Definition mine_one (filter : binary) (front : list Z) (nonce : Z) : option script :=
  let s := to_pay_null_data (front ++ le_bytes 4 nonce) in
  match to_stealth_prefix s with
  | Some out => match binary_from_data (b_bits filter) (le_bytes 4 out) with
                | Some b => if binary_equal filter b then Some s else None
                | None => None
                end
  | None => None
  end.
Fixpoint mine (p : positive) (filter : binary) (front : list Z) (nonce : Z) : option script + Z :=
  let twice q n := match mine q filter front n with inr n' => mine q filter front n' | r => r end in
  match p with
  | xH => match mine_one filter front nonce with Some s => inl (Some s) | None => inr (wrap u32 (nonce + 1)) end
  | xO q => twice q nonce
  | xI q => match mine_one filter front nonce with Some s => inl (Some s) | None => twice q (wrap u32 (nonce + 1)) end
  end.
(** 89-138 create_stealth_script; max_pad = 80 - 32 - 4 = 44 *)
Definition create_stealth_script (secret : list Z) (filter : binary) (seed : list Z) : option script :=
  let bytes := sha512 seed in
  let pad_size := nth 63 bytes 0 mod 44 in
  match secret_to_public c secret with
  | None => None
  | Some point =>
      if negb (is_even_key point) then None
      else let front := tl point ++ firstn (Z.to_nat pad_size) bytes in
           let start := le_value (firstn 4 (skipn 44 bytes)) in
           match mine (2 ^ 32 - 1) filter front (wrap u32 (start + 1)) with inl r => r | inr _ => None end
  end.
(** 80-86 create_stealth_data *)
Definition create_stealth_data (filter : binary) (seed : list Z) : option (list Z * script) :=
  match create_ephemeral_key seed with
  | Some secret => match create_stealth_script secret filter seed with Some s => Some (secret, s) | None => None end
  | None => None
  end.
(** 140-156, 158-168 extract_ephemeral_key *)
Definition extract_ephemeral_key (s : script) : option (list Z) :=
  if is_stealth_script s then Some (2 :: firstn 32 (data (nth_op 1 s))) else None.
Definition extract_unsigned_key (s : script) : option (list Z) :=
  if is_stealth_script s then Some (firstn 32 (data (nth_op 1 s))) else None.
(** 170-179 shared_secret *)
Definition shared_secret (secret point : list Z) : option (list Z) :=
  match point_mul c point secret with Some p => Some (sha256 p) | None => None end.
(** 181-195 uncover_stealth (points); 197-211 (secrets) *)
Definition uncover_point (ephemeral_or_scan scan_or_ephemeral spend : list Z) : option (list Z) :=
  match shared_secret scan_or_ephemeral ephemeral_or_scan with Some shared => point_tweak c spend shared | None => None end.
Definition uncover_secret (ephemeral_or_scan scan_or_ephemeral spend : list Z) : option (list Z) :=
  match shared_secret scan_or_ephemeral ephemeral_or_scan with Some shared => secret_add spend shared | None => None end.

(** ** stealth_address.cpp; None is the invalid address *)
Record saddress := mksaddr { a_filter : binary; a_scan : list Z; a_spends : list (list Z); a_sigs : Z; a_version : Z }.
(** 179-206 from_stealth (corrects signatures and spend keys) *)
Definition from_stealth (filter : binary) (scan : list Z) (spends : list (list Z)) (signatures version : Z) : option saddress :=
  let spenders := match spends with [] => [scan] | _ => spends end in
  let size := len spenders in
  if size >? 255 then None
  else if b_bits filter >? 32 then None
  else Some (mksaddr filter scan spenders (if (signatures =? 0) || (signatures >? size) then wrap u8 size else signatures) version).
(** 145-156: [n] keys of 33 bytes *)
Fixpoint take_keys (n : nat) (l : list Z) : list (list Z) * list Z :=
  match n with
  | O => ([], l)
  | S n' => let (ks, r) := take_keys n' (skipn 33 l) in (firstn 33 l :: ks, r)
  end.
(** 103-176 from_stealth (the parser); min_address_size 42.  The reads are within
    the size tests before them. *)
Definition parse_stealth (decoded : list Z) : option saddress :=
  if (len decoded <? 42) || negb (verify_checksum hash decoded) then None
  else
    let version := nth 0 decoded 0 in
    let options := nth 1 decoded 0 in
    if options >? 1 then None
    else
      let scan := firstn 33 (skipn 2 decoded) in
      let count := nth 35 decoded 0 in
      if len decoded <? 42 + count * 33 then None
      else
        let (keys, r) := take_keys (Z.to_nat count) (skipn 36 decoded) in
        let signatures := nth 0 r 0 in
        let filter_bits := nth 1 r 0 in
        if filter_bits >? 32 then None
        else
          let filter_bytes := (filter_bits + 7) / 8 in
          if negb (len decoded =? 42 + count * 33 + filter_bytes) then None
          else
            do filter <- binary_from_data filter_bits (firstn (Z.to_nat filter_bytes) (skipn 2 r));
            from_stealth filter scan ((if options =? 1 then [scan] else []) ++ keys) signatures version.
(** 94-101 from_string *)
Definition stealth_from_string (text : list Z) : option saddress :=
  match decode_base58 text with Some d => parse_stealth d | None => None end.
(** 295-300 reuse_key; 259-290 to_chunk; 229-232 encoded *)
Definition reuse_key (a : saddress) : bool := existsb (fun k => list_eqb k (a_scan a)) (a_spends a).
Definition stealth_to_chunk (a : saddress) : list Z :=
  append_checksum hash
    ([a_version a] ++ [if reuse_key a then 1 else 0] ++ a_scan a ++
     [wrap u8 (wrap u8 (len (a_spends a)) - (if reuse_key a then 1 else 0))] ++
     concat (filter (fun k => negb (list_eqb k (a_scan a))) (a_spends a)) ++
     [a_sigs a] ++ [wrap u8 (b_bits (a_filter a))] ++ b_bytes (a_filter a)).
Definition stealth_encoded (a : saddress) : list Z := encode_base58 (stealth_to_chunk a).

(** ** stealth_sender.cpp 57-79 initialize: the script and the payment address;
    payment_address.cpp:104-115 of a compressed point *)
Definition paid (point : list Z) (version : Z) : list Z := payment_of hash (short_hash point) version.
Definition sender_with_key (ephemeral : list Z) (a : saddress) (seed : list Z) (filter : binary) (version : Z) : option (script * list Z) :=
  match secret_to_public c ephemeral with
  | None => None
  | Some _ =>
      match a_spends a with
      | [spend] =>
          match uncover_point (a_scan a) ephemeral spend with
          | None => None
          | Some sender_public =>
              match create_stealth_script ephemeral filter seed with
              | Some s => Some (s, paid sender_public version)
              | None => None
              end
          end
      | _ => None
      end
  end.
(** 31-39 *)
Definition sender (a : saddress) (seed : list Z) (filter : binary) (version : Z) : option (script * list Z) :=
  match create_ephemeral_key seed with Some e => sender_with_key e a seed filter version | None => None end.

(** ** stealth_receiver.cpp 32-45 constructor: its stealth address; 58-76 *)
Definition receiver_address (scan spend : list Z) (filter : binary) : option saddress :=
  match secret_to_public c scan, secret_to_public c spend with
  | Some scan_public, Some spend_public => from_stealth filter scan_public [spend_public] 0 0x2a
  | _, _ => None
  end.
(** spend_public_ is set only if both are valid (uninitialised otherwise) *)
Definition derive_address (scan spend ephemeral_public : list Z) (version : Z) : option (list Z) :=
  match secret_to_public c scan, secret_to_public c spend with
  | Some _, Some B => match uncover_point ephemeral_public scan B with Some p => Some (paid p version) | None => None end
  | _, _ => None
  end.
Definition derive_private (scan spend ephemeral_public : list Z) : option (list Z) := uncover_secret ephemeral_public scan spend.
End Stealth.
