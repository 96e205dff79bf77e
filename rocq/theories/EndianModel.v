(** Model of the endian conversions: include/bitcoin/system/impl/endian/
    integers.ipp, integrals.ipp, swaps.ipp, nominal.ipp, minimal.ipp and
    unsafe.ipp.  [host_le] is is_little_endian of the build host. *)
From Verif Require Import Base Bytes MathModel.

(** integers.ipp:42-63 to_big_data: one byte integers write the front element
    only; otherwise fill the data from the back, value >>= 8 each step. *)
Fixpoint to_big_loop (n : nat) (v : Z) : list Z :=
  match n with O => [] | S m => to_big_loop m (Z.shiftr v 8) ++ [wrap u8 v] end.
Definition to_big_data (T : ity) (size : nat) (v : Z) : list Z :=
  if bits T =? 8 then
    match size with O => [] | S m => wrap u8 v :: repeat 0 m end
  else to_big_loop size v.

(** integers.ipp:66-88 to_little_data. *)
Fixpoint to_little_loop (n : nat) (v : Z) : list Z :=
  match n with O => [] | S m => wrap u8 v :: to_little_loop m (Z.shiftr v 8) end.
Definition to_little_data (T : ity) (size : nat) (v : Z) : list Z :=
  if bits T =? 8 then
    match size with O => [] | S m => wrap u8 v :: repeat 0 m end
  else to_little_loop size v.

(** One step of the accumulation loops: value <<= 8; value |= byte. *)
Definition from_step (T : ity) (value byte : Z) : Z :=
  wrap T (Z.lor (wrap T (Z.shiftl value 8)) (wrap T byte)).

(** integers.ipp:91-161 from_big_array/from_big_chunk (with length limit).  The
    unlimited overload is the case length = size. *)
Definition from_big_data (T : ity) (length : nat) (data : list Z) : Z :=
  if bits T =? 8 then wrap T (match data with [] => 0 | b :: _ => b end)
  else fold_left (from_step T) (firstn length data) 0.

(** integers.ipp:164-236 from_little_array/from_little_chunk. *)
Definition from_little_data (T : ity) (length : nat) (data : list Z) : Z :=
  if bits T =? 8 then wrap T (match data with [] => 0 | b :: _ => b end)
  else fold_left (from_step T) (rev (firstn length data)) 0.

(** impl/math/bytes.ipp byte<i>(value): the i-th byte, by shift and mask. *)
Definition byte_n (i : Z) (v : Z) : Z := wrap u8 (Z.shiftr v (8 * i)).

(** integrals.ipp:39-117 to_big/to_little (constexpr form, unrolled). *)
Definition to_little_const (width : nat) (v : Z) : list Z :=
  map (fun i => byte_n (Z.of_nat i) v) (seq 0 width).
Definition to_big_const (width : nat) (v : Z) : list Z :=
  map (fun i => byte_n (Z.of_nat i) v) (rev (seq 0 width)).

(** integrals.ipp:122-204 from_big/from_little (unrolled or of shifted bytes). *)
Fixpoint or_shifted (data : list Z) (shift : Z) : Z :=
  match data with
  | [] => 0
  | b :: t => Z.lor (Z.shiftl b shift) (or_shifted t (shift + 8))
  end.
Definition from_little_const (T : ity) (data : list Z) : Z := wrap T (or_shifted data 0).
Definition from_big_const (T : ity) (data : list Z) : Z := wrap T (or_shifted (rev data) 0).

(** byte_cast (data/data_array cast): the object representation of an unsigned
    integer of [width] bytes on the host, and its inverse. *)
Definition object_bytes (host_le : bool) (width : nat) (v : Z) : list Z :=
  if host_le then le_bytes width v else be_bytes width v.
Definition object_value (host_le : bool) (data : list Z) : Z :=
  if host_le then le_value data else be_value data.

(** impl/math/bytes.ipp byteswap for each supported width (1 byte: identity). *)
Definition byteswap (width : nat) (v : Z) : Z :=
  match width with
  | 2%nat => byte_swap16 v | 4%nat => byte_swap32 v | 8%nat => byte_swap64 v | _ => v
  end.
(** swaps.ipp:32-62 native_to_big_end/native_to_little_end (and from_). *)
Definition native_big (host_le : bool) (width : nat) (v : Z) : Z :=
  if host_le then byteswap width v else v.
Definition native_little (host_le : bool) (width : nat) (v : Z) : Z :=
  if host_le then v else byteswap width v.

(** nominal.ipp:34-98, runtime branch: cast and swap. *)
Definition to_big_endian (host_le : bool) (width : nat) (v : Z) : list Z :=
  object_bytes host_le width (native_big host_le width v).
Definition to_little_endian (host_le : bool) (width : nat) (v : Z) : list Z :=
  object_bytes host_le width (native_little host_le width v).
Definition from_big_endian (host_le : bool) (width : nat) (data : list Z) : Z :=
  native_big host_le width (object_value host_le data).
Definition from_little_endian (host_le : bool) (width : nat) (data : list Z) : Z :=
  native_little host_le width (object_value host_le data).

(** minimal.ipp:33-84 to_big_endian_size/to_little_endian_size: explicit array
    size, and chunk of byte_width(value) (the excess parameter only reserves). *)
Definition to_big_endian_size (T : ity) (size : nat) (v : Z) : list Z := to_big_data T size v.
Definition to_little_endian_size (T : ity) (size : nat) (v : Z) : list Z := to_little_data T size v.
Definition to_big_endian_chunk (T : ity) (v : Z) : list Z :=
  to_big_data T (Z.to_nat (byte_width T v)) v.
Definition to_little_endian_chunk (T : ity) (v : Z) : list Z :=
  to_little_data T (Z.to_nat (byte_width T v)) v.
