(** The compact ("bits") encoding of the Satoshi client, as a specification:
    arith_uint256::SetCompact with the validity rule of CheckProofOfWork, and
    arith_uint256::GetCompact. *)
From Verif Require Import Base.

Definition c_size (c : Z) : Z := c / 2 ^ 24.
Definition c_word (c : Z) : Z := c mod 2 ^ 23.
Definition c_sign (c : Z) : bool := Z.testbit c 23.
Definition c_negative (c : Z) : bool := negb (c_word c =? 0) && c_sign c.
Definition c_overflow (c : Z) : bool :=
  negb (c_word c =? 0) &&
  ((34 <? c_size c) || ((0xff <? c_word c) && (33 <? c_size c)) || ((0xffff <? c_word c) && (32 <? c_size c))).
Definition c_value (c : Z) : Z :=
  if c_size c <=? 3 then c_word c / 256 ^ (3 - c_size c) else c_word c * 256 ^ (c_size c - 3).
(** The target of a header's bits, zero if they are invalid. *)
Definition satoshi_target (c : Z) : Z := if c_negative c || c_overflow c then 0 else c_value c.

(** Number of significant bytes, and the encoder. *)
Definition byte_length (n : Z) : Z := if n =? 0 then 0 else Z.log2 n / 8 + 1.
Definition satoshi_compact (n : Z) : Z :=
  let size := byte_length n in
  let word := if size <=? 3 then n * 256 ^ (3 - size) else n / 256 ^ (size - 3) in
  if 2 ^ 23 <=? word then word / 256 + (size + 1) * 2 ^ 24 else word + size * 2 ^ 24.

Definition power_of_256 (n : Z) : Prop := exists k, 0 <= k /\ n = 256 ^ k.

(** The library is deliberately stricter (compact.ipp:37-47): it rejects the two
    encodings that the encoder never produces. *)
Definition beyond_encoder (c : Z) : bool := (c_size c =? 34) || ((c_size c =? 33) && (c_word c <? 0x8000)).
Definition target_of (c : Z) : Z := if beyond_encoder c then 0 else satoshi_target c.
(** Expected work of one block. *)
Definition work_of (c : Z) : Z := if target_of c =? 0 then 0 else 2 ^ 256 / (target_of c + 1).
(** Proof of work is insufficient. *)
Definition pow_bad (limit c : Z) (digest : Z) : Prop :=
  target_of c = 0 \/ target_of limit < target_of c \/ target_of c < digest.
