(** Model of src/crypto/chacha20_poly1305.cpp, fschacha20.cpp and
    fschacha20_poly1305.cpp.  [None] is undefined behaviour.  Cleansing of keys
    after use (key = {}) has no observable effect and is not modelled. *)
From Verif Require Import Base Bytes MathModel ShaModel PolyModel ChachaModel.

Section Aead.
(** The vector widths of chacha20 (32-bit lanes) and of poly1305 (64-bit lanes). *)
Variables cw pw : list nat.
(** chacha20_poly1305.cpp:40-43 padding *)
Definition padding (size : Z) : option Z := do r <- ceilinged_modulo u64 size 16; absolute i64 r.
(** a span of zero_pad: undefined beyond its sixteen bytes *)
Definition zero_span (n : Z) : option (list Z) := if (0 <=? n) && (n <=? 16) then Some (repeat 0 (Z.to_nat n)) else None.
(** chacha20_poly1305.cpp:58-82 authenticate *)
Definition authenticate (aad cipher : list Z) (c : chacha20) : option (chacha20 * list Z) :=
  let (c, key) := stream cw 32 c in
  do n1 <- padding (len aad); do pad1 <- zero_span n1;
  do n2 <- padding (len cipher); do pad2 <- zero_span n2;
  let mac := poly_make key in
  let mac := poly_write pw mac aad in
  let mac := poly_write pw mac pad1 in
  let mac := poly_write pw mac cipher in
  let mac := poly_write pw mac pad2 in
  let mac := poly_write pw mac (le_bytes 8 (len aad)) in
  let mac := poly_write pw mac (le_bytes 8 (len cipher)) in
  Some (c, poly_flush pw mac).
(** chacha20_poly1305.cpp:91-108 encrypt (84-89 has plain2 empty): the cipher
    buffer, sized by contract to both segments and the tag. *)
Definition encrypt (plain1 plain2 aad : list Z) (nonce32 nonce64 : Z) (c : chacha20) : option (chacha20 * list Z) :=
  let c := seek nonce32 nonce64 1 c in
  let (c, text1) := crypt cw plain1 (length plain1) c in
  let (c, text2) := crypt cw plain2 (length plain2) c in
  let c := seek nonce32 nonce64 0 c in
  do r <- authenticate aad (text1 ++ text2) c;
  Some (fst r, (text1 ++ text2) ++ snd r).
(** chacha20_poly1305.cpp:110-140 decrypt: the plain buffer, sized by contract to
    the cipher less the tag, and the return value. *)
Definition decrypt (aad : list Z) (nonce32 nonce64 : Z) (cipher : list Z) (c : chacha20) : option (chacha20 * list Z * bool) :=
  let size := (length cipher - 16)%nat in
  let text := firstn size cipher in
  let c := seek nonce32 nonce64 0 c in
  do r <- authenticate aad text c;
  let (c, expected) := (r : chacha20 * list Z) in
  let actual := skipn size cipher in
  let difference := fold_left (fun d i => Z.lor d (Z.lxor (nth i expected 0) (nth i actual 0))) (seq 0 16) 0 in
  if difference =? 0 then
    let c := seek nonce32 nonce64 1 c in
    let (c, plain) := crypt cw text size c in Some (c, plain, true)
  else Some (c, repeat 0 size, false).
(** chacha20_poly1305.cpp:142-148 stream *)
Definition aead_stream (nonce32 nonce64 : Z) (size : nat) (c : chacha20) : chacha20 * list Z :=
  stream cw size (seek nonce32 nonce64 1 c).

(** fschacha20.hpp: cipher_, interval_, chunks_, rekeys_; fschacha20_poly1305.hpp:
    interval_, aead_, packets_, rekeys_. *)
Record fs := mkfs { fs_cipher : chacha20; fs_interval : Z; fs_count : Z; fs_rekeys : Z }.
Definition fs_construct (key : list Z) (interval : Z) : fs := mkfs (construct key) interval 0 0.
(** fschacha20.cpp:37-52 crypt *)
Definition fs_chunk (inp : list Z) (f : fs) : fs * list Z :=
  let (c, out) := crypt cw inp (length inp) (fs_cipher f) in
  let count := (fs_count f + 1) mod 2 ^ 32 in
  if count =? fs_interval f then
    let (c, key) := stream cw 32 c in
    let c := set_key key c in
    let rekeys := (fs_rekeys f + 1) mod 2 ^ 64 in
    (mkfs (seek 0 rekeys 0 c) (fs_interval f) 0 rekeys, out)
  else (mkfs c (fs_interval f) count (fs_rekeys f), out).
(** fschacha20_poly1305.cpp:40-53 next *)
Definition fs_next (c : chacha20) (f : fs) : fs :=
  let count := (fs_count f + 1) mod 2 ^ 32 in
  if count =? fs_interval f then
    let (c, key) := aead_stream 0xffffffff (fs_rekeys f) 32 c in
    mkfs (set_key key c) (fs_interval f) 0 ((fs_rekeys f + 1) mod 2 ^ 64)
  else mkfs c (fs_interval f) count (fs_rekeys f).
(** fschacha20_poly1305.cpp:55-67 encrypt *)
Definition fs_seal (plain1 plain2 aad : list Z) (f : fs) : option (fs * list Z) :=
  do r <- encrypt plain1 plain2 aad (fs_count f) (fs_rekeys f) (fs_cipher f);
  Some (fs_next (fst r) f, snd r).
(** fschacha20_poly1305.cpp:69-75 decrypt *)
Definition fs_open (aad cipher : list Z) (f : fs) : option (fs * list Z * bool) :=
  do r <- decrypt aad (fs_count f) (fs_rekeys f) cipher (fs_cipher f);
  Some (fs_next (fst (fst r)) f, snd (fst r), snd r).
End Aead.
