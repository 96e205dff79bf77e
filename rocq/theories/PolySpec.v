(** Poly1305 (RFC 8439 section 2.5).  Independent of the model. *)
From Verif Require Import Base Bytes ShaSpec.

Definition P1305 : Z := 2 ^ 130 - 5.
Definition clamp_r (r : Z) : Z := Z.land r 0x0ffffffc0ffffffc0ffffffc0fffffff.
(** "Read the block as a little-endian number; add one bit beyond the number of
    octets": the final block may be shorter than sixteen. *)
Definition block_number (b : list Z) : Z := le_value (b ++ [1]).
Definition poly_acc (r : Z) (bs : list (list Z)) : Z :=
  fold_left (fun acc b => ((acc + block_number b) * r) mod P1305) bs 0.
Definition Poly1305 (key msg : list Z) : list Z :=
  let r := clamp_r (le_value (firstn 16 key)) in
  let s := le_value (firstn 16 (skipn 16 key)) in
  le_bytes 16 ((poly_acc r (split 16 msg) + s) mod 2 ^ 128).
