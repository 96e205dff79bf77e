(** Specification of bit strings: lists of booleans packed from the left. *)
From Verif Require Import Base Bytes BitStreamSpec BinModel.

(** The bytes hold the bits, the first in the high bit of the first byte, and
    zero bits after them. *)
Definition holds (b : binary) (l : list bool) : Prop :=
  b_bits b = len l /\ Forall byte_ok (b_bytes b) /\ len (b_bytes b) = (len l + 7) / 8 /\
  forall k, 0 <= k < 8 * len (b_bytes b) -> bit_at (b_bytes b) k = nth (Z.to_nat k) l false.
Definition bit_text (l : list bool) : list Z := map (fun v : bool => if v then 49 else 48) l.
