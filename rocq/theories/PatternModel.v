(** Model of the script templates (impl/chain/script_patterns.ipp,
    src/chain/script_extract.cpp) and of the address extraction of
    src/wallet/addresses/payment_address.cpp. *)
From Verif Require Import Base Bytes NumberModel OpModel ValidModel AddressModel.

(** src/crypto/secp256k1/keys.cpp:99-138: by size and first byte only *)
Definition is_compressed_key (d : list Z) : bool := (len d =? 33) && ((hd 0 d =? 2) || (hd 0 d =? 3)).
Definition is_uncompressed_key (d : list Z) : bool := (len d =? 65) && (hd 0 d =? 4).
Definition is_public_key (d : list Z) : bool := is_compressed_key d || is_uncompressed_key d.
Definition is_endorsement (d : list Z) : bool := (len d >=? 9) && (len d <=? 73).
(** src/chain/operation.cpp:501-517 as_unsigned32 (integer<4>; its undefined
    case is unreachable, data below 2^32 bytes) *)
Definition as_unsigned32 (o : op) : option Z :=
  if is_nonnegative_op (code o) then Some (if code o =? 0 then 0 else code o - 80)
  else if is_payload (code o) then
    match integer_from_chunk 4 (data o) with
    | Some (true, v) => if v <? 0 then None else Some v
    | _ => None
    end
  else None.

(** ** Templates (script_patterns.ipp) *)
(** 47-57 *)
Definition is_push_only_pattern (s : script) : bool := forallb (fun o => is_push (code o)) s.
(** 117-124, max_null_data_size 80 *)
Definition is_pay_null_data_pattern (s : script) : bool :=
  match s with [a; b] => (code a =? 106) && is_minimal_push b && (len (data b) <=? 80) | _ => false end.
(** 134-140 *)
Definition is_pay_public_key_pattern (s : script) : bool :=
  match s with [a; b] => is_public_key (data a) && (code b =? 172) | _ => false end.
(** 142-150 *)
Definition is_pay_key_hash_pattern (s : script) : bool :=
  match s with
  | [a; b; c; d; e] => (code a =? 118) && (code b =? 169) && (len (data c) =? 20) && (code d =? 136) && (code e =? 172)
  | _ => false
  end.
(** 172-194 *)
Definition is_pay_witness_key_hash_pattern (s : script) : bool :=
  match s with [a; b] => (code a =? 0) && (code b =? 20) | _ => false end.
Definition is_pay_witness_script_hash_pattern (s : script) : bool :=
  match s with [a; b] => (code a =? 0) && (code b =? 32) | _ => false end.
Definition is_pay_witness_taproot_pattern (s : script) : bool :=
  match s with [a; b] => (code a =? 81) && (code b =? 32) | _ => false end.
(** 320-341: signature and key counts 1 to 20 (max_multisig_public_keys) *)
Definition multisig_number (o : op) : Z :=
  match as_unsigned32 o with Some v => if (v <? 1) || (v >? 20) then 0 else v | None => 0 end.
Definition nth_op (n : nat) (s : script) : op := nth n s (mkop 0 [] false).
Definition is_pay_multisig_pattern (s : script) : bool :=
  if (len s <? 4) || negb (code (last s (mkop 0 [] false)) =? 174) then false
  else let m := multisig_number (nth_op 0 s) in
       let n := multisig_number (nth_op (length s - 2) s) in
       negb (m =? 0) && negb (n =? 0) && negb (m >? n) && (n =? len s - 3).
(** 345-356, 358-363, 368-374, 378-384 *)
Definition is_sign_multisig_pattern (s : script) : bool :=
  match s with
  | a :: _ :: _ => (code a =? 0) && forallb (fun o => is_endorsement (data o)) (tl s)
  | _ => false
  end.
Definition is_sign_public_key_pattern (s : script) : bool :=
  match s with [a] => is_endorsement (data a) | _ => false end.
Definition is_sign_key_hash_pattern (s : script) : bool :=
  match s with [a; b] => is_endorsement (data a) && is_public_key (data b) | _ => false end.
Definition is_sign_script_hash_pattern (s : script) : bool :=
  match s with
  | [] => false
  | _ => is_push_only_pattern s && negb (len (data (last s (mkop 0 [] false))) =? 0)
  end.
Inductive pattern :=
| pay_key_hash | pay_script_hash | pay_null_data | pay_public_key | pay_multisig
| pay_witness_key_hash | pay_witness_script_hash | pay_witness_v1_taproot
| sign_key_hash | sign_script_hash | sign_public_key | sign_multisig | non_standard.
(** script_extract.cpp:69-96 output_pattern, 100-116 input_pattern, 61-65 pattern *)
Definition output_pattern (s : script) : pattern :=
  if is_pay_key_hash_pattern s then pay_key_hash
  else if is_pay_script_hash_pattern s then pay_script_hash
  else if is_pay_null_data_pattern s then pay_null_data
  else if is_pay_public_key_pattern s then pay_public_key
  else if is_pay_multisig_pattern s then pay_multisig
  else if is_pay_witness_key_hash_pattern s then pay_witness_key_hash
  else if is_pay_witness_script_hash_pattern s then pay_witness_script_hash
  else if is_pay_witness_taproot_pattern s then pay_witness_v1_taproot
  else non_standard.
Definition input_pattern (s : script) : pattern :=
  if is_sign_key_hash_pattern s then sign_key_hash
  else if is_sign_script_hash_pattern s then sign_script_hash
  else if is_sign_public_key_pattern s then sign_public_key
  else if is_sign_multisig_pattern s then sign_multisig
  else non_standard.
Definition script_pattern (s : script) : pattern :=
  match output_pattern s with non_standard => input_pattern s | p => p end.

(** ** Builders (script_patterns.ipp:386-496); operation(data, false) is a
    nominal push, an empty list is the empty script *)
Definition push (d : list Z) : op := from_push_data d false.
Definition opc (c : Z) : op := mkop c [] false.
Definition to_pay_null_data (d : list Z) : script := if len d >? 80 then [] else [opc 106; push d].
Definition to_pay_public_key (d : list Z) : script := if negb (is_public_key d) then [] else [push d; opc 172].
Definition to_pay_key_hash (h : list Z) : script := [opc 118; opc 169; push h; opc 136; opc 172].
Definition to_pay_script_hash (h : list Z) : script := [opc 169; push h; opc 135].
Definition to_pay_multisig (m : Z) (points : list (list Z)) : script :=
  let n := len points in
  if (m <? 1) || (m >? n) || (n <? 1) || (n >? 16) then []
  else if negb (forallb is_public_key points) then []
  else opc (m + 80) :: map push points ++ [opc (n + 80); opc 174].
Definition to_pay_witness (version : Z) (d : list Z) : script := [opc (if version =? 0 then 0 else version + 80); push d].

(** ** Addresses of scripts (payment_address.cpp).  A value is the 25 byte
    payment; None is the invalid address. *)
Section Extract.
(** double hash; ripemd160 of sha256; what ec_public{data} serializes for data
    in public key form (None: not a point) *)
Variable hash : list Z -> list Z.
Variable short_hash : list Z -> list Z.
Variable point_data : list Z -> option (list Z).
(** 161-173 output_script *)
Definition output_script (value : list Z) (p2kh_prefix p2sh_prefix : Z) : script :=
  if payment_prefix value =? p2kh_prefix then to_pay_key_hash (payment_hash value)
  else if payment_prefix value =? p2sh_prefix then to_pay_script_hash (payment_hash value)
  else [].
(** 290-320 extract_output: unsafe_array_cast reads 20 bytes *)
Definition extract_output (s : script) (p2kh_prefix p2sh_prefix : Z) : option (list Z) :=
  match output_pattern s with
  | pay_key_hash => Some (payment_of hash (firstn 20 (data (nth_op 2 s))) p2kh_prefix)
  | pay_script_hash => Some (payment_of hash (firstn 20 (data (nth_op 1 s))) p2sh_prefix)
  | _ => None
  end.
(** keys/ec_public.cpp:87-107 from_data; payment_address.cpp:104-115 from_public *)
Definition from_public (d : list Z) (prefix : Z) : option (list Z) :=
  if negb (is_public_key d) then None
  else match point_data d with Some p => Some (payment_of hash (short_hash p) prefix) | None => None end.
(** 238-286 extract_input *)
Definition extract_input (s : script) (p2kh_prefix p2sh_prefix : Z) : list (option (list Z)) :=
  match input_pattern s with
  | sign_key_hash => [from_public (data (nth_op 0 s)) p2kh_prefix]
  | sign_script_hash => [Some (payment_of hash (short_hash (data (last s (mkop 0 [] false)))) p2sh_prefix)]
  | _ => []
  end.
(** 226-235 extract *)
Definition extract (s : script) (p2kh_prefix p2sh_prefix : Z) : list (option (list Z)) :=
  match extract_input s p2kh_prefix p2sh_prefix with
  | [] => [extract_output s p2kh_prefix p2sh_prefix]
  | l => l
  end.
End Extract.
