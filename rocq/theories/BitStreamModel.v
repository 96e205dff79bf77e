(** Model of the bit streamers over the byte streamers of StreamModel:
    include/bitcoin/system/impl/stream/streamers/bit_reader.ipp and
    bit_writer.ipp.  The writer's sink has room (ostringstream / grown chunk). *)
From Verif Require Import Base Bytes MathModel StreamModel.

(** bit_reader.ipp:38-51: byte_ = pad() = 0, offset_ = byte_bits. *)
Record brd := mkbrd { bbase : rd; bbyte : Z; boff : Z }.
Definition bit_reader (s : rd) : brd := mkbrd s 0 8.
(** 191-197 shift *)
Definition bshift (b : brd) : Z := 8 - boff b.
(** 163-170 load: the pad byte stays when the read fails. *)
Definition load (b : brd) : brd := let (d, s) := do_read 1 (bbase b) in mkbrd s (hd 0 d) 0.
(** 172-180 reload *)
Definition reload (b : brd) : brd :=
  let (d, s) := do_read 1 (do_rewind 2 (bbase b)) in mkbrd s (hd 0 d) 8.
(** 57-65 read_bit *)
Definition read_bit (b : brd) : bool * brd :=
  let b := if bshift b =? 0 then load b else b in
  (get_left u8 (bbyte b) (boff b), mkbrd (bbase b) (bbyte b) (boff b + 1)).
(** 67-80 read_bits: bits = lesser(64, bits); from bit index bits-1 down. *)
Fixpoint read_bits_loop (bit : nat) (out : Z) (b : brd) : Z * brd :=
  match bit with
  | O => (out, b)
  | S n => let (v, b') := read_bit b in read_bits_loop n (set_right u64 out (Z.of_nat n) v) b'
  end.
Definition read_bits (bits : Z) (b : brd) : Z * brd := read_bits_loop (Z.to_nat (Z.min 64 bits)) 0 b.
(** 82-97 skip_bit, skip_bits *)
Definition skip_bit (b : brd) : brd :=
  let b := if bshift b =? 0 then load b else b in mkbrd (bbase b) (bbyte b) (boff b + 1).
Fixpoint skip_bits (n : nat) (b : brd) : brd :=
  match n with O => b | S m => skip_bits m (skip_bit b) end.
(** 99-114 rewind_bit, rewind_bits *)
Definition rewind_bit (b : brd) : brd :=
  let b := if boff b =? 0 then reload b else b in mkbrd (bbase b) (bbyte b) (boff b - 1).
Fixpoint rewind_bits (n : nat) (b : brd) : brd :=
  match n with O => b | S m => rewind_bits m (rewind_bit b) end.
(** 119-127 do_peek_byte: (byte_ << offset_) | (peek() >> shift()) as uint8_t. *)
Definition bit_peek_byte (b : brd) : Z * brd :=
  let (p, s) := peek_byte (bbase b) in
  let b' := mkbrd s (bbyte b) (boff b) in
  if boff b =? 0 then (p, b')
  else (wrap u8 (Z.lor (Z.shiftl (bbyte b) (boff b)) (Z.shiftr p (bshift b))), b').
(** 129-135 do_read_bytes *)
Fixpoint bit_read_bytes (n : nat) (b : brd) : list Z * brd :=
  match n with
  | O => ([], b)
  | S m => let (v, b1) := read_bits 8 b in let (l, b2) := bit_read_bytes m b1 in (wrap u8 v :: l, b2)
  end.
(** 152-159 get_exhausted; validity is the base stream's. *)
Definition bit_exhausted (b : brd) : bool :=
  if negb (good (bbase b)) then true else (bshift b =? 0) && exhausted (bbase b).
Definition bit_valid (b : brd) : bool := good (bbase b).

(** bit_writer.ipp: byte_ = pad() = 0, offset_ = 0. *)
Record bwr := mkbwr { bout : list Z; wbyte : Z; woff : Z }.
Definition bit_writer : bwr := mkbwr [] 0 0.
(** 99-105 unload *)
Definition unload (w : bwr) : bwr := mkbwr (bout w ++ [wbyte w]) 0 0.
(** 61-70 write_bit *)
Definition write_bit (v : bool) (w : bwr) : bwr :=
  let w := mkbwr (bout w) (set_left u8 (wbyte w) (woff w) v) (woff w + 1) in
  if 8 - woff w =? 0 then unload w else w.
(** 72-82 write_bits *)
Fixpoint write_bits_loop (bit : nat) (value : Z) (w : bwr) : bwr :=
  match bit with
  | O => w
  | S n => write_bits_loop n value (write_bit (get_right u64 value (Z.of_nat n)) w)
  end.
Definition write_bits (value bits : Z) (w : bwr) : bwr :=
  write_bits_loop (Z.to_nat (Z.min 64 bits)) value w.
(** 86-93 do_write_bytes *)
Definition bit_write_bytes (data : list Z) (w : bwr) : bwr :=
  fold_left (fun w b => write_bits b 8 w) data w.
(** 107-112 flusher (flush and destructor) *)
Definition bit_flush (w : bwr) : bwr := if woff w =? 0 then w else unload w.
