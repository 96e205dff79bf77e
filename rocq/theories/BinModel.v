(** Model of bit strings: src/stream/binary.cpp, over the bit reader and writer of
    BitStreamModel.v. *)
From Verif Require Import Base Bytes MathModel StreamModel BitStreamModel.

(** binary.hpp:60-61 *)
Record binary := mkbinary { b_bits : Z; b_bytes : list Z }.
(** 33-41 is_binary, is_base2 *)
Definition is_base2 (text : list Z) : bool := forallb (fun c => (c =? 48) || (c =? 49)) text.
(** std::vector resize with a pad *)
Definition resize (data : list Z) (n : Z) : list Z := firstn (Z.to_nat n) data ++ repeat 0 (Z.to_nat n - length data).
(** mask_right_into of the last byte *)
Fixpoint mask_last (data : list Z) (n : Z) : list Z :=
  match data with
  | [] => []
  | [b] => [bit_and u8 b (mask_right u8 n)]
  | b :: r => b :: mask_last r n
  end.
(** 70-81 from_data *)
Definition binary_from_data (bits : Z) (data : list Z) : option binary :=
  do size <- ceilinged_divide u64 bits 8;
  let data := resize data size in
  do m <- ceilinged_modulo u64 bits 8;
  do n <- absolute i64 m;
  Some (mkbinary bits (mask_last data n)).
(** 83-97 from_string *)
Definition binary_from_string (text : list Z) : binary :=
  if is_base2 text then mkbinary (len text) (bout (bit_flush (fold_left (fun w c => write_bit (c =? 49) w) text bit_writer)))
  else mkbinary 0 [].
(** 102-115 encoded; [fuel] bounds the reads *)
Fixpoint encode_loop (fuel : nat) (reader : brd) : list Z :=
  match fuel with
  | O => []
  | S f => if bit_exhausted reader then []
           else let (v, reader) := read_bit reader in (if v then 49 else 48) :: encode_loop f reader
  end.
Definition binary_encoded (b : binary) : list Z :=
  resize (encode_loop (8 * length (b_bytes b)) (bit_reader (fresh (b_bytes b)))) (b_bits b).
(** 140-144 operator[]: None where the byte read is outside the bytes *)
Definition binary_index (b : binary) (index : Z) : option bool :=
  let byte := index / 8 in
  if byte <? b_bits b
  then do v <- nth_error (b_bytes b) (Z.to_nat byte); Some (get_left u8 v (index mod 8))
  else Some false.
(** 151-154 operator== *)
Definition binary_equal (a b : binary) : bool := if list_eq_dec Z.eq_dec (binary_encoded a) (binary_encoded b) then true else false.
