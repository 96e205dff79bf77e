(** Specification of script numbers (Bitcoin's CScriptNum): little-endian
    sign-and-magnitude byte vectors, and of boolean interpretation. *)
From Verif Require Import Base Bytes.

(** Clear the sign bit of the last byte. *)
Definition magnitude (l : list Z) : Z :=
  le_value (removelast l) + 256 ^ (len l - 1) * (last l 0 mod 128).
(** The number denoted by a byte vector. *)
Definition script_value (l : list Z) : Z :=
  if last l 0 <? 128 then magnitude l else - magnitude l.

(** No shorter vector denotes the same number: the last byte carries magnitude
    bits, or exists only because the byte before it has its top bit set. *)
Definition minimal (l : list Z) : Prop :=
  l = [] \/ last l 0 mod 128 <> 0 \/ (2 <= len l /\ 128 <= last (removelast l) 0).

(** CastToBool: some byte is non-zero, other than a lone trailing 0x80. *)
Definition truthy (l : list Z) : Prop :=
  exists i b, nth_error l i = Some b /\ b <> 0 /\ ~ (b = 128 /\ S i = length l).
