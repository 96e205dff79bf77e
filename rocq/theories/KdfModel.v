(** Model of include/bitcoin/system/impl/hash/{hmac,pbkd,hkdf,functions}.ipp. *)
From Verif Require Import Base Bytes ShaModel AccModel RmdModel.

Section Kdf.
Variable A : algorithm.
Variable checked : bool.
Variable hlen : nat.  (* array_count<Algorithm::digest_t> *)

(** hmac.hpp:63-65 inner_, outer_ *)
Record hmac := mkhmac { inner_ : acc; outer_ : acc }.
(** hmac.ipp:86-99 xor_n *)
Definition xor_n (pad key : list Z) : list Z :=
  fold_left (fun pad i => upd i (Z.lxor (nth i pad 0) (nth i key 0)) pad) (seq 0 (length key)) pad.
(** 104-128 inner_pad, outer_pad; 130-146 xor_key *)
Definition xor_key (h : hmac) (key : list Z) : hmac :=
  mkhmac (snd (write A checked (inner_ h) (xor_n (repeat 0x36 (block_bytes A)) key)))
         (snd (write A checked (outer_ h) (xor_n (repeat 0x5c (block_bytes A)) key))).
(** 34-52 constructor *)
Definition hmac_make (key : list Z) : hmac :=
  let h := mkhmac (construct A) (construct A) in
  if len key <=? Z.of_nat (block_bytes A) then xor_key h key
  else xor_key h (hash A checked key).
(** 54-62 write; 64-76 flush *)
Definition hmac_write (h : hmac) (data : list Z) : hmac :=
  mkhmac (snd (write A checked (inner_ h) data)) (outer_ h).
Definition hmac_flush (h : hmac) : list Z :=
  let (digest, _) := flush A checked (inner_ h) in
  fst (flush A checked (snd (write A checked (outer_ h) digest))).
(** 153-163 code *)
Definition hmac_code (data key : list Z) : list Z := hmac_flush (hmac_write (hmac_make key) data).

(** pbkd.ipp:35-45 xor_n *)
Definition xor_into (to from : list Z) : list Z :=
  fold_left (fun to i => upd i (Z.lxor (nth i to 0) (nth i from 0)) to) (seq 0 (length to)) to.
(** 57-133 key: [size] is the template's Size; size_t loop counters do not wrap
    (Size <= (2^32 - 1) * hlen). *)
Definition ceilinged (a b : nat) : nat := (a / b + (if Nat.eqb (a mod b) 0 then 0 else 1))%nat.
Definition pbkd_block (hmac_p hmac_ps : hmac) (count i : nat) : list Z :=
  let u := hmac_flush (hmac_write hmac_ps (be_bytes 4 (Z.of_nat i))) in
  snd (fold_left (fun (p : list Z * list Z) (_ : nat) =>
    let u := hmac_flush (hmac_write hmac_p (fst p)) in (u, xor_into (snd p) u)) (seq 2 (count - 1)) (u, u)).
Definition pbkd_key (size : nat) (password salt : list Z) (count : nat) : list Z :=
  let l := ceilinged size hlen in
  let r := (size - (l - 1) * hlen)%nat in
  let hmac_p := hmac_make password in
  let hmac_ps := hmac_write hmac_p salt in
  flat_map (fun i => firstn (if Nat.eqb i l then r else hlen) (pbkd_block hmac_p hmac_ps count i)) (seq 1 l).

(** hkdf.ipp:34-40 extract *)
Definition hkdf_extract (material salt : list Z) : list Z := hmac_code material salt.
(** 42-70 expand: the loop counter is a uint8_t; None is a loop still running
    after [fuel] passes. *)
Fixpoint hkdf_loop (fuel : nat) (blocks remain : nat) (key info : list Z) (block : Z) (t out : list Z) : option (list Z) :=
  match fuel with
  | O => None
  | S fuel =>
    if block <=? Z.of_nat blocks then
      let mac := hmac_make key in
      let mac := if block =? 1 then mac else hmac_write mac t in
      let mac := hmac_write mac info in
      let mac := hmac_write mac [block] in
      let t := hmac_flush mac in
      hkdf_loop fuel blocks remain key info ((block + 1) mod 256) t
        (out ++ firstn (if block =? Z.of_nat blocks then remain else hlen) t)
    else Some out
  end.
Definition hkdf_expand (fuel : nat) (size : nat) (key info : list Z) : option (list Z) :=
  let blocks := ceilinged size hlen in
  hkdf_loop fuel blocks (size - (blocks - 1) * hlen)%nat key info 1 (repeat 0 hlen) [].
(** 72-90 key *)
Definition hkdf_key (fuel : nat) (size : nat) (material salt info : list Z) : option (list Z) :=
  hkdf_expand fuel size (hkdf_extract material salt) info.
End Kdf.

(** functions.ipp: the named hash functions, for one vector configuration. *)
Section Functions.
Variables (checked s8 : bool) (widths : list nat).
Let S256 := sha_algorithm sha256 s8 widths.
Let D256 := sha_double sha256 s8 widths.
Let R160 := rmd_algorithm rmd160.
(** 104-115 sha256_hash2 *)
Definition sha256_hash2 (left right : list Z) : list Z :=
  fst (flush S256 checked (snd (write S256 checked (snd (write S256 checked (construct S256) left)) right))).
(** 138-142 bitcoin_short_hash: rmd160::hash of half a block; 144-148 bitcoin_short_chunk *)
Definition bitcoin_short_hash (data : list Z) : list Z := r_hash_half rmd160 (hash S256 checked data).
Definition bitcoin_short_chunk (data : list Z) : list Z := hash_array R160 checked (hash S256 checked data).
(** 151-160 bitcoin_hash, 162-166 bitcoin_hash(left, right), 168-179 bitcoin_hash2 *)
Definition bitcoin_hash (data : list Z) : list Z := double_hash S256 checked D256 data.
Definition bitcoin_hash_pair (left right : list Z) : list Z := double_halves sha256 s8 left right.
Definition bitcoin_hash2 (left right : list Z) : list Z :=
  fst (double_flush S256 checked D256 (snd (write S256 checked (snd (write S256 checked (construct S256) left)) right))).
(** 187-196 tagged_hash *)
Definition tagged_hash (tag message : list Z) : list Z :=
  let h := hash S256 checked tag in
  fst (flush S256 checked (snd (write S256 checked (snd (write S256 checked (snd (write S256 checked (construct S256) h)) h)) message))).
(** 239-249 djb2_hash, 253-257 hash_combine (size_t is 64 bits) *)
Definition djb2_hash (data : list Z) : Z :=
  fold_left (fun h b => ((h * 2 ^ 5) mod 2 ^ 64 + h + b) mod 2 ^ 64) data 5381.
Definition hash_combine (left right : Z) : Z := Z.lxor left ((right * 2) mod 2 ^ 64).
End Functions.
