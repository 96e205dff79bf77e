(** Model of src/wallet/addresses/tiff.cpp: tiff::to_image. *)
From Verif Require Import Base Bytes.

(** write_2_bytes_big_endian, write_4_bytes_big_endian *)
Definition w2 (v : Z) : list Z := be_bytes 2 v.
Definition w4 (v : Z) : list Z := be_bytes 4 v.
(** tiff.cpp:106-117 the offsets: sizes of the header, directory count, entries *)
Definition directory0_offset : Z := 2 + 2 + 4.
Definition entry0_offset : Z := directory0_offset + 2.
Definition entry_size : Z := 2 + 2 + 4 + 4.
Definition x_resolution_offset : Z := entry0_offset + 10 * entry_size + 4 + 2.
Definition y_resolution_offset : Z := x_resolution_offset + 4 + 4.
Definition strip0_offset : Z := y_resolution_offset + 4 + 4 + 4.
(** 76-88 half, full, ratio: an entry of one value *)
Definition entry_half (tag value : Z) : list Z := w2 tag ++ w2 3 ++ w4 1 ++ w2 value ++ w2 0.
Definition entry_full (tag value : Z) : list Z := w2 tag ++ w2 4 ++ w4 1 ++ w4 value.
Definition entry_ratio (tag at_ : Z) : list Z := w2 tag ++ w2 5 ++ w4 1 ++ w4 at_.
(** 129 max_image_bytes *)
Definition max_image_bytes : Z := 4294967295.
(** 132-270 to_image; None = false (nothing is written) *)
Definition to_image (data : list Z) (width : Z) : option (list Z) :=
  if (width =? 0) || (len data =? 0) then None
  else if len data >? max_image_bytes then None
  else
    let size := len data in
    let row_bytes := (width + 7) / 8 in
    if negb (size mod row_bytes =? 0) then None
    else
      let rows := size / row_bytes in
      Some (w2 0x4d4d ++ w2 0x002a ++ w4 directory0_offset ++
        w2 10 ++
        entry_full 0x0100 width ++
        entry_full 0x0101 rows ++
        entry_half 0x0103 1 ++
        entry_half 0x0106 0 ++
        entry_full 0x0111 strip0_offset ++
        entry_full 0x0116 rows ++
        entry_full 0x0117 size ++
        entry_ratio 0x011a x_resolution_offset ++
        entry_ratio 0x011b y_resolution_offset ++
        entry_half 0x0128 1 ++
        w4 0 ++ w2 0 ++
        w4 72 ++ w4 1 ++ w4 72 ++ w4 1 ++
        w4 0xbaadf00d ++ data).
