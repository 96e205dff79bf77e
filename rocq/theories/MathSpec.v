(** Independent specification vocabulary for the arithmetic properties
    (C49-C52): saturation, rounding direction, positional bit semantics. *)
From Verif Require Import Base.

(** [z] brought into the range of [T] by saturation. *)
Definition clamp (T : ity) (z : Z) : Z := Z.max (imin T) (Z.min (imax T) z).
Definition clamp_between (lo hi z : Z) : Z := Z.max lo (Z.min hi z).

(** [q] is a/b rounded towards minus infinity / plus infinity / zero, on exact
    integers, characterised by inequalities (b <> 0). *)
Definition is_floor (a b q : Z) : Prop :=
  if 0 <? b then q * b <= a < (q + 1) * b else (q + 1) * b < a <= q * b.
Definition is_ceil (a b q : Z) : Prop :=
  if 0 <? b then (q - 1) * b < a <= q * b else q * b <= a < (q - 1) * b.

(** [k] is the smallest/largest exponent with v <= b^k / b^k <= v. *)
Definition is_ceil_log (b v k : Z) : Prop :=
  0 <= k /\ v <= b ^ k /\ (0 < k -> b ^ (k - 1) < v).
Definition is_floor_log (b v k : Z) : Prop :=
  0 <= k /\ b ^ k <= v < b ^ (k + 1).

(** Bit i of the two's complement pattern of a value, independent of sign. *)
Definition bit (v i : Z) : bool := Z.testbit v i.
(** Byte i (little-endian numbering) of a non-negative value. *)
Definition byte_at (v i : Z) : Z := (v / 256 ^ i) mod 256.
