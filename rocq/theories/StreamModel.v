(** Model of the in-memory byte streams and streamers:
    include/bitcoin/system/impl/stream/iostream/istream.ipp, ostream.ipp and
    include/bitcoin/system/impl/stream/streamers/byte_reader.ipp, byte_writer.ipp.

    The istream<> state is a zipper over the source: [past] holds the bytes
    before position_ (nearest first), [rest] the bytes from position_ to end_.
    The iostate is one boolean: the reader only ever compares rdstate() with
    goodbit, and validate() (byte_reader.ipp:816-825) raises all the flags when
    any is set.  Sizes are size_t values as Z; callers respect the asserted
    contract size <= maximum (byte_reader.ipp:727, byte_writer.ipp:336). *)
From Verif Require Import Base Bytes MathModel.

Record rd := mkrd { past : list Z; rest : list Z; good : bool; lim : Z }.

Definition max_size_t : Z := 2 ^ 64 - 1.

(** istream.ipp:34-48 and byte_reader.ipp:70-80: a fresh unlimited reader. *)
Definition fresh (source : list Z) : rd := mkrd [] source true max_size_t.

Definition set_good (s : rd) (g : bool) : rd := mkrd (past s) (rest s) g (lim s).
Definition set_lim (s : rd) (l : Z) : rd := mkrd (past s) (rest s) (good s) l.

(** byte_reader.ipp:807-813 invalid, 826-831 clear, 857-861 limit. *)
Definition invalid (s : rd) : rd := set_good s false.
Definition clear (s : rd) : rd := set_good s true.
Definition set_limit (size : Z) (s : rd) : rd := set_lim s size.
Definition valid (s : rd) : bool := good s.
(** byte_reader.ipp:833-855 getter over istream.ipp:71-76 tellg. *)
Definition position (s : rd) : Z := len (past s).

(** byte_reader.ipp:863-875 limiter: true when the size exceeds the limit. *)
Definition limiter (size : Z) (s : rd) : bool * rd :=
  if size >? lim s then (true, invalid s) else (false, set_lim s (lim s - size)).

(** Move position_ forwards by n <= |rest| (istream.ipp position_ += bytes). *)
Definition advance (n : nat) (s : rd) : rd :=
  mkrd (rev (firstn n (rest s)) ++ past s) (skipn n (rest s)) (good s) (lim s).
Definition retreat (n : nat) (s : rd) : rd :=
  mkrd (skipn n (past s)) (rev (firstn n (past s)) ++ rest s) (good s) (lim s).

(** istream.ipp:140-158 read into a zero-initialised buffer of [size] bytes:
    overflow from a good state copies the available bytes and sets badbit. *)
Definition zeros (n : Z) : list Z := repeat 0 (Z.to_nat n).
Definition istream_read (size : Z) (s : rd) : list Z * rd :=
  if negb (good s) then (zeros size, s)
  else if size >? len (rest s)
  then (rest s ++ zeros (size - len (rest s)), invalid (advance (length (rest s)) s))
  else (firstn (Z.to_nat size) (rest s), advance (Z.to_nat size) s).

(** istream.ipp:78-125 seekg(offset, cur). *)
Definition istream_seek (offset : Z) (s : rd) : rd :=
  if negb (good s) then s
  else if (offset <? 0) && (offset <? - len (past s)) then invalid s
  else if (0 <? offset) && (offset >? len (rest s)) then invalid s
  else if 0 <=? offset then advance (Z.to_nat offset) s else retreat (Z.to_nat (- offset)) s.

(** byte_reader.ipp:713-732 do_read_bytes, every caller's buffer zero-filled. *)
Definition do_read (size : Z) (s : rd) : list Z * rd :=
  match limiter size s with
  | (true, s') => (zeros size, s')
  | (false, s') => istream_read size s'
  end.

(** byte_reader.ipp:877-899 seeker, 734-743 do_skip_bytes, 745-757
    do_rewind_bytes (size_t ceilinged_add). *)
Definition seeker (offset : Z) (s : rd) : rd :=
  if offset =? 0 then s else istream_seek offset s.
Definition do_skip (size : Z) (s : rd) : rd :=
  match limiter size s with (true, s') => s' | (false, s') => seeker size s' end.
Definition do_rewind (size : Z) (s : rd) : rd :=
  seeker (- size) (set_lim s
    (match ceilinged_add u64 (lim s) size with Some r => r | None => lim s end)).

(** byte_reader.ipp:759-785 get_exhausted: peek then clear, no net change. *)
Definition exhausted (s : rd) : bool :=
  if lim s =? 0 then true else if negb (good s) then true
  else match rest s with [] => true | _ => false end.

(** byte_reader.ipp:690-711 do_peek_byte (istream.ipp:127-138). *)
Definition peek_byte (s : rd) : Z * rd :=
  if lim s =? 0 then (0, invalid s)
  else if negb (good s) then (0, s)
  else match rest s with [] => (0, invalid s) | b :: _ => (b, s) end.

(** byte_reader.ipp:256-262 read_byte. *)
Definition read_byte (s : rd) : Z * rd :=
  let (b, s') := do_read 1 s in (hd 0 b, s').

(** byte_reader.ipp:147-158 read_little_endian<Integer, Size>: Size bytes placed
    at the low end of a zeroed integer; 89-100 read_big_endian likewise at the
    high end before the swap.  The host integer is read off the byte buffer by
    its positional value (EndianProofs relates this to the host swap). *)
Definition read_le (size : Z) (s : rd) : Z * rd :=
  let (b, s') := do_read size s in (le_value b, s').
Definition read_be (size : Z) (s : rd) : Z * rd :=
  let (b, s') := do_read size s in (be_value b, s').

(** byte_reader.ipp:202-225 read_variable. *)
Definition read_variable (s : rd) : Z * rd :=
  let (b, s1) := read_byte s in
  if b =? 255 then
    let (v, s2) := read_le 8 s1 in if v >? 4294967295 then (v, s2) else (0, invalid s2)
  else if b =? 254 then
    let (v, s2) := read_le 4 s1 in if v >? 65535 then (v, s2) else (0, invalid s2)
  else if b =? 253 then
    let (v, s2) := read_le 2 s1 in if v >=? 253 then (v, s2) else (0, invalid s2)
  else (b, s1).

(** byte_reader.ipp:227-241 read_size. *)
Definition read_size (limit : Z) (s : rd) : Z * rd :=
  let (v, s') := read_variable s in if v >? limit then (0, invalid s') else (v, s').

(** byte_reader.ipp:564-582 skip_variable. *)
Definition skip_variable (s : rd) : rd :=
  let (b, s1) := read_byte s in
  if b =? 255 then do_skip 8 s1 else if b =? 254 then do_skip 4 s1
  else if b =? 253 then do_skip 2 s1 else s1.

(** byte_reader.ipp:424-437 read_bytes(size). *)
Definition read_bytes (size : Z) (s : rd) : list Z * rd :=
  if size =? 0 then ([], s) else if negb (good s) then ([], s) else do_read size s.

(** byte_reader.ipp:377-390 read_bytes() to the end: count, rewind, read. *)
Fixpoint count_to_end (fuel : nat) (n : Z) (s : rd) : Z * rd :=
  match fuel with
  | O => (n, s)
  | S f => if exhausted s then (n, s) else count_to_end f (n + 1) (do_skip 1 s)
  end.
Definition read_all (s : rd) : list Z * rd :=
  let (n, s1) := count_to_end (length (rest s)) 0 s in read_bytes n (do_rewind n s1).

(** byte_reader.ipp:607-623 set_position. *)
Definition set_position (absolute : Z) (s : rd) : rd :=
  let s := clear s in
  if absolute =? position s then s
  else if absolute >? position s then do_skip (absolute - position s) s
  else do_rewind (position s - absolute) s.

(** byte_reader.ipp:905-953 line_length.  [char] is signed on the modelled
    platforms, so a terminator character c is compared as its promoted value
    while the byte read is unsigned: [byte_eq].  The loop is bounded by the
    source: each iteration consumes a byte or ends the loop by exhaustion. *)
Definition byte_eq (byte c : Z) : bool := byte =? wrap i8 c.
Fixpoint line_loop (fuel : nat) (end_ : list Z) (index length_ : Z) (s : rd) : option Z * rd :=
  match fuel with
  | O => (None, s)
  | S f =>
    if exhausted s then (None, s)
    else
      let (byte, s') := read_byte s in
      if byte_eq byte (nth (Z.to_nat index) end_ 0) then
        if index + 1 =? len end_ then (Some length_, s')
        else line_loop f end_ (index + 1) length_ s'
      else if negb (index =? 0) then
        if byte_eq byte (hd 0 end_) then line_loop f end_ 1 (length_ + index) s'
        else line_loop f end_ 0 (length_ + index + 1) s'
      else line_loop f end_ index (length_ + 1) s'
  end.
Definition line_length (end_ : list Z) (s : rd) : Z * rd :=
  match end_ with
  | [] => (0, invalid s)
  | _ => match line_loop (S (length (rest s))) end_ 0 0 s with
         | (Some n, s') => (n, s')
         | (None, s') => (0, invalid s')
         end
  end.
(** byte_reader.ipp:534-547 read_line. *)
Definition read_line (end_ : list Z) (s : rd) : list Z * rd :=
  let (size, s1) := line_length end_ s in
  if size =? 0 then ([], s1)
  else
    let s2 := do_rewind (size + len end_) s1 in
    let (out, s3) := do_read size s2 in
    (out, do_skip (len end_) s3).

(** byte_writer.ipp:184-206 write_variable over 331-343 do_write_bytes; the
    written bytes, on a sink with room.  write_little_endian<Integer,Size>
    (129-138) emits the first Size little-endian bytes. *)
Definition write_le (size : nat) (v : Z) : list Z := le_bytes size v.
Definition write_be (size : nat) (v : Z) : list Z := be_bytes size v.
Definition write_variable (value : Z) : list Z :=
  if value <? 253 then [wrap u8 value]
  else if value <=? 65535 then 253 :: write_le 2 (wrap u16 value)
  else if value <=? 4294967295 then 254 :: write_le 4 (wrap u32 value)
  else 255 :: write_le 8 value.
(** funclets / data: math/funclets.hpp:175-189 variable_size. *)
Definition variable_size (value : Z) : Z :=
  if value <? 253 then 1 else if value <=? 65535 then 3
  else if value <=? 4294967295 then 5 else 9.

(** ostream.ipp: a bounded sink (data_slab).  write past end sets badbit and
    writes nothing; once bad every write is ignored. *)
Record wr := mkwr { written : list Z; room : Z; wgood : bool }.
Definition sink (size : Z) : wr := mkwr [] size true.
Definition do_write (data : list Z) (w : wr) : wr :=
  if negb (wgood w) || (len data >? room w) then mkwr (written w) (room w) false
  else mkwr (written w ++ data) (room w - len data) true.
