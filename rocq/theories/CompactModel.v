(** Model of include/bitcoin/system/impl/radix/base_2n.ipp (base256e),
    include/bitcoin/system/impl/chain/compact.ipp and the proof-of-work parts of
    src/chain/header.cpp.  uint256_t (fixed width, unchecked) is Z with explicit
    truncation to 256 bits. *)
From Verif Require Import Base Bytes MathModel ChainModel.

(** base_2n.ipp:37-55 expand, with base 256, precision 24, span 256 (factor 8,
    e_max 32, e_width 8; base_2n.hpp:61-69).  shift is uint32_t. *)
Definition base256e_expand (exponential : Z) : Z :=
  let shift := wrap u32 (Z.shiftr exponential 24 * 8) in
  let mantissa := Z.land exponential (Z.ones 24) in
  if (shift <? 0) || (256 <? shift) then 0
  else if 24 <? shift then wrap u256 (Z.shiftl mantissa (shift - 24))
  else Z.shiftr mantissa (24 - shift).
(** base_2n.ipp:61-81 compress; ceilinged_log<256>(uint256_t) dispatches to
    ceilinged_log256 (logarithm.ipp:98-108, 183-194). *)
Definition base256e_compress (number : Z) : Z :=
  if number =? 0 then 0
  else
    let shift := ceilinged_log256_uintx number * 8 in
    let mantissa := wrap u32 (if 24 <? shift then Z.shiftr number (shift - 24)
                              else wrap u256 (Z.shiftl number (24 - shift))) in
    Z.lor (wrap u32 (Z.shiftl (wrap u32 (shift / 8)) 24)) mantissa.

(** compact.ipp:61-71 to_compact, 73-81 from_compact (exponent is uint8_t). *)
Record parse := mkparse { negative : bool; exponent : Z; mantissa : Z }.
Definition to_compact (small : Z) : parse :=
  mkparse (Z.testbit small 23) (wrap u8 (Z.shiftr small 24)) (Z.land small (Z.ones 24)).
Definition from_compact (c : parse) : Z := Z.lor (wrap u32 (Z.shiftl (exponent c) 24)) (mantissa c).
(** compact.ipp:86-105 expand *)
Definition compact_expand (exponential : Z) : Z :=
  let c := to_compact exponential in
  if negative c then 0
  else
    let c := if (exponent c =? 32 + 1) && is_negated u32 (mantissa c) && (byte_width u32 (mantissa c) =? 3 - 1)
             then mkparse (negative c) (wrap u8 (exponent c - 1)) (wrap u32 (Z.shiftl (mantissa c) 8)) else c in
    base256e_expand (from_compact c).
(** compact.ipp:107-122 compress *)
Definition compact_compress (number : Z) : Z :=
  let c := to_compact (base256e_compress number) in
  let c := if negative c then mkparse false (wrap u8 (exponent c + 1)) (Z.shiftr (mantissa c) 8) else c in
  from_compact c.

(** header.cpp:225-247 proof: ++(~target / (target + 1)) in uint256_t; division
    by zero (target + 1 wrapping to zero) would throw: None. *)
Definition proof (bits : Z) : option Z :=
  let target := compact_expand bits in
  if target =? 0 then Some target
  else let d := wrap u256 (target + 1) in
       if d =? 0 then None else Some (wrap u256 ((2 ^ 256 - 1 - target) / d + 1)).

(** header.cpp:325-344 is_invalid_proof_of_work.  [cache] is the function-local
    static (initialised by the first call in the process); [digest] is the
    header hash or scrypt hash, read little-endian by to_uintx. *)
Definition is_invalid_proof_of_work (cache : option Z) (proof_of_work_limit bits : Z) (digest : list Z) : bool * option Z :=
  let limit := match cache with Some l => l | None => compact_expand proof_of_work_limit end in
  let target := compact_expand bits in
  ((target =? 0) || (limit <? target) || (target <? le_value digest), Some limit).
(** header.cpp:349-357 is_futuristic_timestamp; [now] is wall_clock::now() and
    [cache] its function-local static limit; both in seconds. *)
Definition is_futuristic_timestamp (cache : option Z) (timestamp_limit_seconds now timestamp : Z) : bool * option Z :=
  let two_hours := match cache with Some l => l | None => timestamp_limit_seconds end in
  (now + two_hours <? timestamp, Some two_hours).
(** header.cpp:362-371 check (the statics are the process state). *)
Record statics := mkstatics { s_limit : option Z; s_time : option Z }.
Inductive hcode := HSuccess | HInvalidPow | HFuturistic.
Definition header_check (hash scrypt_hash : list Z -> list Z) (st : statics)
    (timestamp_limit_seconds proof_of_work_limit : Z) (scrypt : bool) (now : Z) (h : header) : hcode * statics :=
  let data := header_to_data h in
  let digest := if scrypt then scrypt_hash data else hash data in
  let (bad, l) := is_invalid_proof_of_work (s_limit st) proof_of_work_limit (h_bits h) digest in
  let st := mkstatics l (s_time st) in
  if bad then (HInvalidPow, st)
  else let (late, t) := is_futuristic_timestamp (s_time st) timestamp_limit_seconds now (h_time h) in
       let st := mkstatics (s_limit st) t in
       if late then (HFuturistic, st) else (HSuccess, st).
