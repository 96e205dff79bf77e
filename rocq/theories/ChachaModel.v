(** Model of src/crypto/chacha20.cpp and include/bitcoin/system/crypto/chacha20.hpp.
    A vector word is the list of its 32-bit lanes (4, 8 or 16). *)
From Verif Require Import Base Bytes ShaModel RmdModel.

(** chacha20.cpp:40-43 sigma *)
Definition sigma20 : list Z := [0x61707865; 0x3320646e; 0x79622d32; 0x6b206574].

Section Rounds.
Context {X : Type}.
Variable W : wops X.
(** chacha20.cpp:50-61 quarter *)
Definition quarter (x : list X) (q : nat * nat * nat * nat) : list X :=
  let '(a, b, c, d) := q in
  let x := upd a (wadd W (at_ W x a) (at_ W x b)) x in
  let x := upd d (wrol W 16 (wxor W (at_ W x d) (at_ W x a))) x in
  let x := upd c (wadd W (at_ W x c) (at_ W x d)) x in
  let x := upd b (wrol W 12 (wxor W (at_ W x b) (at_ W x c))) x in
  let x := upd a (wadd W (at_ W x a) (at_ W x b)) x in
  let x := upd d (wrol W 8 (wxor W (at_ W x d) (at_ W x a))) x in
  let x := upd c (wadd W (at_ W x c) (at_ W x d)) x in
  upd b (wrol W 7 (wxor W (at_ W x b) (at_ W x c))) x.
(** chacha20.cpp:64-75 double_round *)
Definition column_quarters : list (nat * nat * nat * nat) := [(0, 4, 8, 12); (1, 5, 9, 13); (2, 6, 10, 14); (3, 7, 11, 15)]%nat.
Definition diagonal_quarters : list (nat * nat * nat * nat) := [(0, 5, 10, 15); (1, 6, 11, 12); (2, 7, 8, 13); (3, 4, 9, 14)]%nat.
Definition double_round (x : list X) : list X := fold_left quarter (column_quarters ++ diagonal_quarters) x.
(** chacha20.cpp:79-85 summate, 87-119 rounds *)
Definition summate (start x : list X) (i : nat) : list X := upd i (wadd W (at_ W x i) (at_ W start i)) x.
Definition chacha_rounds (x : list X) : list X :=
  fold_left (summate x) (seq 0 16) (fold_left (fun x (_ : nat) => double_round x) (seq 0 10) x).
End Rounds.

(** chacha20.cpp:128-142 counters: the counter broadcast plus the lane number. *)
Definition counters (lanes : nat) (counter : Z) : list Z :=
  wadd (lops 32 lanes) (repeat counter lanes) (map Z.of_nat (seq 0 lanes)).

Section Transpose.
Context {X : Type}.
(** intrinsics/intel/intel_128.hpp:304-329, intel_256.hpp:328-354,
    intel_512.hpp:344-370: unpack_lo/unpack_hi of 32 and 64 bit words act on each
    128-bit tile (four 32-bit words, lowest first). *)
Definition tiles (v : list X) : list (list X) := chunks 4 (length v / 4) v.
Definition per_tile (f : list X -> list X -> list X) (a b : list X) : list X := concat (map2 f (tiles a) (tiles b)).
Definition lo32 (a b : list X) : list X :=
  match a, b with [a0; a1; a2; a3], [b0; b1; b2; b3] => [a0; b0; a1; b1] | _, _ => [] end.
Definition hi32 (a b : list X) : list X :=
  match a, b with [a0; a1; a2; a3], [b0; b1; b2; b3] => [a2; b2; a3; b3] | _, _ => [] end.
Definition lo64 (a b : list X) : list X :=
  match a, b with [a0; a1; a2; a3], [b0; b1; b2; b3] => [a0; a1; b0; b1] | _, _ => [] end.
Definition hi64 (a b : list X) : list X :=
  match a, b with [a0; a1; a2; a3], [b0; b1; b2; b3] => [a2; a3; b2; b3] | _, _ => [] end.
(** tile_lo/tile_hi: intel_128.hpp:331-339 (a, b), intel_256.hpp:356-365
    (_mm256_permute2x128_si256 0x20/0x31), intel_512.hpp:372-381
    (_mm512_shuffle_i32x4 0x88/0xdd). *)
Definition tile_lo (a b : list X) : list X :=
  match tiles a, tiles b with
  | [a0; a1], [b0; b1] => a0 ++ b0
  | [a0; a1; a2; a3], [b0; b1; b2; b3] => a0 ++ a2 ++ b0 ++ b2
  | _, _ => a
  end.
Definition tile_hi (a b : list X) : list X :=
  match tiles a, tiles b with
  | [a0; a1], [b0; b1] => a1 ++ b1
  | [a0; a1; a2; a3], [b0; b1; b2; b3] => a1 ++ a3 ++ b1 ++ b3
  | _, _ => b
  end.
(** chacha20.cpp:144-151 interleave32, 153-164 interleave64, 166-172 exchange *)
Definition row (i : nat) (rows : list (list X)) : list X := nth i rows [].
Definition interleave32 (from to : list (list X)) (i : nat) : list (list X) :=
  let to := upd (2 * i) (per_tile lo32 (row (2 * i) from) (row (2 * i + 1) from)) to in
  upd (2 * i + 1) (per_tile hi32 (row (2 * i) from) (row (2 * i + 1) from)) to.
Definition interleave64 (from to : list (list X)) (i : nat) : list (list X) :=
  let to := upd (4 * i) (per_tile lo64 (row (4 * i) from) (row (4 * i + 2) from)) to in
  let to := upd (4 * i + 1) (per_tile hi64 (row (4 * i) from) (row (4 * i + 2) from)) to in
  let to := upd (4 * i + 2) (per_tile lo64 (row (4 * i + 1) from) (row (4 * i + 3) from)) to in
  upd (4 * i + 3) (per_tile hi64 (row (4 * i + 1) from) (row (4 * i + 3) from)) to.
Definition exchange (span : nat) (from to : list (list X)) (i : nat) : list (list X) :=
  let to := upd i (tile_lo (row i from) (row (i + span) from)) to in
  upd (i + span) (tile_hi (row i from) (row (i + span) from)) to.
(** chacha20.cpp:174-238 transpose: the temporaries t, u, v start value-initialised
    ({}: here empty rows), row is overwritten. *)
Definition transpose_rows (lanes : nat) (rows : list (list X)) : list (list X) :=
  let zero := repeat [] lanes in
  if Nat.eqb lanes 4 then
    let t := fold_left (interleave32 rows) (seq 0 2) zero in
    fold_left (interleave64 t) (seq 0 1) zero
  else if Nat.eqb lanes 8 then
    let t := fold_left (interleave32 rows) (seq 0 4) zero in
    let u := fold_left (interleave64 t) (seq 0 2) zero in
    fold_left (exchange 4 u) (seq 0 4) rows
  else if Nat.eqb lanes 16 then
    let t := fold_left (interleave32 rows) (seq 0 8) zero in
    let u := fold_left (interleave64 t) (seq 0 4) zero in
    let v := fold_left (exchange 4 u) [0; 1; 2; 3; 8; 9; 10; 11]%nat zero in
    fold_left (exchange 8 v) (seq 0 8) rows
  else rows.
(** chacha20.cpp:242-263 transpose_groups: each group of [lanes] vectors in place. *)
Definition transpose_groups (lanes : nat) (x : list (list X)) : list (list X) :=
  concat (map (transpose_rows lanes) (chunks lanes (16 / lanes) x)).
(** chacha20.cpp:265-281 sequence *)
Definition sequence (lanes : nat) (x keystream : list (list X)) (lane : nat) : list (list X) :=
  let part := (16 / lanes)%nat in
  fold_left (fun k j => upd (part * lane + j) (row (lanes * j + lane) x) k) (seq 0 part) keystream.
(** chacha20.cpp:308-335, the part of xnext after the rounds. *)
Definition sequences (lanes : nat) (x : list (list X)) : list (list X) :=
  fold_left (sequence lanes (transpose_groups lanes x)) (seq 0 lanes) (repeat [] 16).
End Transpose.

(** chacha20.cpp:283-335 xnext: the state vectors of [lanes] sequential blocks. *)
Definition xstate (lanes : nat) (key nonce : list Z) (counter : Z) : list (list Z) :=
  map (fun w => repeat w lanes) (sigma20 ++ key) ++ [counters lanes counter] ++ map (fun w => repeat w lanes) nonce.
Definition xnext (lanes : nat) (key nonce : list Z) (counter : Z) : list (list Z) :=
  sequences lanes (chacha_rounds (lops 32 lanes) (xstate lanes key nonce counter)).

(** chacha20.hpp: key_, nonce_, counter_, buffer_, offset_ *)
Record chacha20 := mkchacha { c_key : list Z; c_nonce : list Z; c_counter : Z; c_buffer : list Z; c_offset : nat }.
Definition set_counter (n : Z) (c : chacha20) := mkchacha (c_key c) (c_nonce c) n (c_buffer c) (c_offset c).
(** One output byte: in.empty() selects the raw keystream, otherwise it is xored
    with the input.  in and out may be the same buffer: each byte is read before
    it is written, so output is modelled as appended to a list, whose length is
    the code's [byte]. *)
Definition mask (inp out stream : list Z) : list Z :=
  match inp with [] => stream | _ => map2 Z.lxor (firstn (length stream) (skipn (length out) inp)) stream end.

(** chacha20.cpp:339-371 xcrypt: the loop runs at most once per output byte ([fuel]). *)
Fixpoint xcrypt (fuel lanes size : nat) (inp : list Z) (s : chacha20 * list Z) : chacha20 * list Z :=
  match fuel with
  | O => s
  | S fuel =>
    let (c, out) := s in
    if (64 * lanes <=? size - length out)%nat then
      let bytes := flat_map (le_bytes 4) (concat (xnext lanes (c_key c) (c_nonce c) (c_counter c))) in
      xcrypt fuel lanes size inp (set_counter ((c_counter c + Z.of_nat lanes) mod 2 ^ 32) c, out ++ mask inp out bytes)
    else s
  end.

(** chacha20.cpp:377-390 set_key (the constructor too) *)
Definition set_key (key : list Z) (c : chacha20) : chacha20 :=
  mkchacha (map le_value (chunks 4 8 key)) [0; 0; 0] 0 (c_buffer c) 64.
Definition construct (key : list Z) : chacha20 := set_key key (mkchacha [] [] 0 (repeat 0 64) 64).
(** chacha20.cpp:392-401 seek *)
Definition seek (nonce32 nonce64 counter : Z) (c : chacha20) : chacha20 :=
  mkchacha (c_key c) [nonce32; nonce64 mod 2 ^ 32; Z.shiftr nonce64 32 mod 2 ^ 32] counter (c_buffer c) 64.
(** chacha20.cpp:403-419 next (always into buffer_) *)
Definition next (c : chacha20) : chacha20 :=
  let x := chacha_rounds (zops 32) (sigma20 ++ c_key c ++ [c_counter c] ++ c_nonce c) in
  mkchacha (c_key c) (c_nonce c) ((c_counter c + 1) mod 2 ^ 32) (flat_map (le_bytes 4) x) (c_offset c).

(** chacha20.cpp:427-430, 451-454: bytes from the buffered keystream while it
    lasts and output remains ([n] is size - byte). *)
Fixpoint consume (n : nat) (inp : list Z) (s : chacha20 * list Z) : chacha20 * list Z :=
  match n with
  | O => s
  | S n =>
    let (c, out) := s in
    if (c_offset c <? 64)%nat then
      consume n inp (mkchacha (c_key c) (c_nonce c) (c_counter c) (c_buffer c) (S (c_offset c)),
                     out ++ mask inp out [nth (c_offset c) (c_buffer c) 0])
    else s
  end.
(** chacha20.cpp:437-444 *)
Fixpoint whole (fuel size : nat) (inp : list Z) (s : chacha20 * list Z) : chacha20 * list Z :=
  match fuel with
  | O => s
  | S fuel =>
    let (c, out) := s in
    if (64 <=? size - length out)%nat then
      let c := next c in whole fuel size inp (c, out ++ mask inp out (c_buffer c))
    else s
  end.
Section Crypt.
(** The available extended words, widest first (have<xint512_t> and so on): a
    sublist of [16; 8; 4] lanes. *)
Variable widths : list nat.
(** chacha20.cpp:421-456 crypt *)
Definition crypt (inp : list Z) (size : nat) (c : chacha20) : chacha20 * list Z :=
  let s := consume size inp (c, []) in
  let s := fold_left (fun s lanes => xcrypt size lanes size inp s) widths s in
  let (c, out) := whole size size inp s in
  if (length out <? size)%nat then
    let c := next c in
    let c := mkchacha (c_key c) (c_nonce c) (c_counter c) (c_buffer c) 0 in
    consume (size - length out) inp (c, out)
  else (c, out).
(** chacha20.cpp:458-461 stream *)
Definition stream (size : nat) (c : chacha20) : chacha20 * list Z := crypt [] size c.
End Crypt.
