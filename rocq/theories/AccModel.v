(** Model of include/bitcoin/system/hash/accumulator.hpp and
    impl/hash/accumulator.ipp: streaming and one-shot hashing over an Algorithm.
    [data] lists stand for (size, pointer) pairs; size_t is 64 bits. *)
From Verif Require Import Base Bytes ShaModel.

(** The Algorithm interface the accumulator uses (hash/sha/algorithm.hpp:95-215,
    hash/rmd/algorithm.hpp:60-130). *)
Record algorithm := mkalgorithm {
  block_bytes : nat;                                   (* array_count<block_t> *)
  count_bytes : nat;                                   (* array_count<counter> *)
  big_end_count : bool;
  limit_bytes : Z;
  init : list Z;                                       (* H::get *)
  accumulate_blocks : list Z -> list (list Z) -> list Z; (* accumulate(state, iblocks) or (state, block) *)
  normalize : list Z -> list Z;
  finalize_state : list Z -> Z -> list Z;              (* finalize(state, blocks) *)
  hash_of_half : list Z -> list Z;
  hash_of_block : list Z -> list Z;
  hash_of_iblocks : list (list Z) -> list Z;
  hash_of_ablocks : list (list Z) -> list Z }.
(** The double hash interface, where the digest is half a block. *)
Record double_algorithm := mkdouble {
  second_of : list Z -> list Z;                        (* finalize_second(state) *)
  double_of_state : list Z -> Z -> list Z;             (* finalize_double(state, blocks) *)
  double_of_half : list Z -> list Z;
  double_of_block : list Z -> list Z;
  double_of_iblocks : list (list Z) -> list Z;
  double_of_ablocks : list (list Z) -> list Z }.

(** accumulator.hpp:166-169: size_, state_, buffer_ *)
Record acc := mkacc { size_ : Z; state_ : list Z; buffer_ : list Z }.

Section Accumulator.
Variable A : algorithm.
Variable checked : bool.
Definition B : Z := Z.of_nat (block_bytes A).
Definition C : Z := Z.of_nat (count_bytes A).

(** accumulator.ipp:35-62 next, gap, is_full, is_empty *)
Definition next (a : acc) : Z := size_ a mod B.
Definition gap (a : acc) : Z := B - next a.
Definition is_full (a : acc) : bool := next a =? 0.
Definition is_empty (a : acc) : bool := is_full a.
(** 64-78 is_buffer_overflow *)
Definition is_buffer_overflow (a : acc) (size : Z) : bool :=
  if checked then (limit_bytes A - size_ a) mod 2 ^ (8 * C) <? size else false.
(** 92-98 add_data(size, data) *)
Definition add_data (a : acc) (data : list Z) : acc :=
  mkacc ((size_ a + len data) mod 2 ^ 64) (state_ a) (write_at (Z.to_nat (next a)) data (buffer_ a)).
(** 100-125 accumulate *)
Definition accumulate (a : acc) (data : list Z) : option acc :=
  if negb (is_empty a) || (len data <? B) then None
  else
    let remain := len data mod B in
    let bytes := len data - remain in
    let blocks := chunks (block_bytes A) (Z.to_nat (bytes / B)) data in
    let a := mkacc ((size_ a + bytes) mod 2 ^ 64) (accumulate_blocks A (state_ a) blocks) (buffer_ a) in
    Some (add_data a (skipn (Z.to_nat bytes) data)).
(** 80-90 add_data(accepted, size, data), 293-327 write *)
Definition write (a : acc) (data : list Z) : bool * acc :=
  if len data =? 0 then (true, a)
  else match accumulate a data with
  | Some a => (true, a)
  | None =>
    if is_buffer_overflow a (len data) then (false, a)
    else
      let accepted := Z.to_nat (Z.min (gap a) (len data)) in
      let a := add_data a (firstn accepted data) in
      if negb (is_full a) then (true, a)
      else
        let a := mkacc (size_ a) (accumulate_blocks A (state_ a) [buffer_ a]) (buffer_ a) in
        let data := skipn accepted data in
        match accumulate a data with
        | Some a => (true, a)
        | None => (true, add_data a data)
        end
  end.
(** 127-136 pad, 138-191 serialize (to_bits in size_t), 193-202 pad_size,
    204-214 stream_pad *)
Definition serialize (size : Z) : list Z :=
  let bits := (size * 8) mod 2 ^ 64 in
  if big_end_count A then be_bytes (count_bytes A) bits else le_bytes (count_bytes A) bits.
Definition pad_size (a : acc) : Z :=
  let singled := B - C in let doubled := B + singled in
  if next a <? singled then singled - next a else doubled - next a.
Definition stream_pad : list Z := 128 :: repeat 0 (block_bytes A - 1).
Definition pad (a : acc) : acc :=
  let size := size_ a in
  let a := snd (write a (firstn (Z.to_nat (pad_size a)) stream_pad)) in
  snd (write a (serialize size)).
(** 232-268 reset, constructors (buffer_ zero initialized) *)
Definition construct : acc := mkacc 0 (init A) (repeat 0 (block_bytes A)).
Definition reset_to (a : acc) (state : list Z) (blocks : Z) : acc := mkacc ((blocks * B) mod 2 ^ 64) state (buffer_ a).
Definition reset (a : acc) : acc := reset_to a (init A) 0.
Definition construct_at (state : list Z) (blocks : Z) : acc :=
  let a := mkacc ((blocks * B) mod 2 ^ 64) state (repeat 0 (block_bytes A)) in
  if checked && (is_buffer_overflow a ((blocks * B) mod 2 ^ 64) || (2 ^ 64 <=? blocks * B)) then reset a else a.

(** 331-364 flush; the digest and the accumulator left behind *)
Definition flush (a : acc) : list Z * acc :=
  if is_empty a then (finalize_state A (state_ a) (size_ a / B), a)
  else let a := pad a in (normalize A (state_ a), a).

(** 417-484 hash (data_array and data_chunk dispatch alike; an array of whole
    blocks uses the ablocks form, a pointer the iblocks form). *)
Definition blocks_of (data : list Z) : list (list Z) := chunks (block_bytes A) (Z.to_nat (len data / B)) data.
Definition stream_hash (data : list Z) : list Z := fst (flush (snd (write construct data))).
Definition hash (data : list Z) : list Z :=
  if len data =? 0 then hash_of_ablocks A []
  else if len data =? B / 2 then hash_of_half A data
  else if len data =? B then hash_of_block A data
  else if len data mod B =? 0 then hash_of_iblocks A (blocks_of data)
  else stream_hash data.
Definition hash_array (data : list Z) : list Z :=
  if len data =? 0 then hash_of_ablocks A []
  else if len data =? B / 2 then hash_of_half A data
  else if len data =? B then hash_of_block A data
  else if len data mod B =? 0 then hash_of_ablocks A (blocks_of data)
  else stream_hash data.

Variable D : double_algorithm.
(** 366-412 double_flush *)
Definition double_flush (a : acc) : list Z * acc :=
  if is_empty a then (double_of_state D (state_ a) (size_ a / B), a)
  else let a := pad a in (second_of D (state_ a), a).
(** 489-578 double_hash *)
Definition double_stream (data : list Z) : list Z := fst (double_flush (snd (write construct data))).
Definition double_hash (data : list Z) : list Z :=
  if len data =? 0 then double_of_ablocks D []
  else if len data =? B / 2 then double_of_half D data
  else if len data =? B then double_of_block D data
  else if len data mod B =? 0 then double_of_iblocks D (blocks_of data)
  else double_stream data.
Definition double_hash_array (data : list Z) : list Z :=
  if len data =? 0 then double_of_ablocks D []
  else if len data =? B / 2 then double_of_half D data
  else if len data =? B then double_of_block D data
  else if len data mod B =? 0 then double_of_ablocks D (blocks_of data)
  else double_stream data.
End Accumulator.

(** The SHA algorithms as the accumulator's Algorithm (hash/sha/algorithm.hpp:
    107-111 count_t, limit_bits = maximum<count_t> - count_bits, limit_bytes). *)
Definition sha_algorithm (S : sha) (sigma8 : bool) (widths : list nat) : algorithm :=
  mkalgorithm (block_size S) (2 * word_bytes S) true
    ((2 ^ (2 * word_bits S) - 1 - 2 * word_bits S) / 8)
    (H S) (iterate S sigma8 widths) (output S) (finalize S sigma8) (hash_half S sigma8)
    (fun block => hash_ablocks S sigma8 widths [block]) (hash_iblocks S sigma8 widths) (hash_ablocks S sigma8 widths).
Definition sha_double (S : sha) (sigma8 : bool) (widths : list nat) : double_algorithm :=
  mkdouble (finalize_second S sigma8) (finalize_double S sigma8) (double_half S sigma8) (double_block S sigma8)
    (double_ablocks S sigma8 widths) (double_ablocks S sigma8 widths).
