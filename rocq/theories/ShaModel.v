(** Model of the hash algorithms: the headers of include/bitcoin/system/hash/sha
    and impl/hash/sha (normal and vector forms).  As in the code, the compression functions are
    written once over a word type [X] with its operations: scalar words, or
    vector words (a list with one word per lane).  The SHA-NI paths (native_...)
    are not modelled.  Arrays are lists, assignment is [upd]. *)
From Verif Require Import Base Bytes.

(** The f:: word operations (intrinsics/types.hpp, the intrinsic headers:
    and_, or_, xor_, not_, shr<>, ror<>, rol<>, add<>, broadcast). *)
Record wops (X : Type) := mkwops {
  wadd : X -> X -> X; wand : X -> X -> X; wor : X -> X -> X; wxor : X -> X -> X; wnot : X -> X;
  wshr : Z -> X -> X; wror : Z -> X -> X; wrol : Z -> X -> X; wbroadcast : Z -> X }.
Arguments wadd {X}. Arguments wand {X}. Arguments wor {X}. Arguments wxor {X}. Arguments wnot {X}.
Arguments wshr {X}. Arguments wror {X}. Arguments wrol {X}. Arguments wbroadcast {X}.
(** Normal form: words of [w] bits. *)
Definition rotr (w n x : Z) : Z := Z.lor (Z.shiftr x n) ((Z.shiftl x (w - n)) mod 2 ^ w).
Definition zops (w : Z) : wops Z :=
  mkwops Z (fun a b => (a + b) mod 2 ^ w) Z.land Z.lor Z.lxor (fun a => 2 ^ w - 1 - a)
    (fun n a => Z.shiftr a n) (rotr w) (fun n a => rotr w (w - n) a) (fun c => c).
(** Vector form: every operation acts on each of the [n] lanes. *)
Definition map2 {A B C} (f : A -> B -> C) : list A -> list B -> list C :=
  fix go a b := match a, b with x :: a', y :: b' => f x y :: go a' b' | _, _ => [] end.
Definition lops (w : Z) (n : nat) : wops (list Z) :=
  let O := zops w in
  mkwops (list Z) (map2 (wadd O)) (map2 (wand O)) (map2 (wor O)) (map2 (wxor O)) (map (wnot O))
    (fun s => map (wshr O s)) (fun s => map (wror O s)) (fun s => map (wrol O s)) (fun c => repeat c n).

Definition upd {X} (i : nat) (v : X) (l : list X) : list X := firstn i l ++ v :: skipn (S i) l.
(** array_cast<word, size, offset>(buffer) = words *)
Definition write_at {X} (i : nat) (v l : list X) : list X := firstn i l ++ v ++ skipn (i + length v) l.
Fixpoint chunks {X} (n : nat) (k : nat) (l : list X) : list (list X) :=
  match k with O => [] | S k' => firstn n l :: chunks n k' (skipn n l) end.

(** hash/sha/sha160.hpp:30-61 k160::get *)
Definition k160 : list Z :=
  [0x5a827999; 0x5a827999; 0x5a827999; 0x5a827999; 0x5a827999; 0x5a827999; 0x5a827999; 0x5a827999;
   0x5a827999; 0x5a827999; 0x5a827999; 0x5a827999; 0x5a827999; 0x5a827999; 0x5a827999; 0x5a827999;
   0x5a827999; 0x5a827999; 0x5a827999; 0x5a827999; 0x6ed9eba1; 0x6ed9eba1; 0x6ed9eba1; 0x6ed9eba1;
   0x6ed9eba1; 0x6ed9eba1; 0x6ed9eba1; 0x6ed9eba1; 0x6ed9eba1; 0x6ed9eba1; 0x6ed9eba1; 0x6ed9eba1;
   0x6ed9eba1; 0x6ed9eba1; 0x6ed9eba1; 0x6ed9eba1; 0x6ed9eba1; 0x6ed9eba1; 0x6ed9eba1; 0x6ed9eba1;
   0x8f1bbcdc; 0x8f1bbcdc; 0x8f1bbcdc; 0x8f1bbcdc; 0x8f1bbcdc; 0x8f1bbcdc; 0x8f1bbcdc; 0x8f1bbcdc;
   0x8f1bbcdc; 0x8f1bbcdc; 0x8f1bbcdc; 0x8f1bbcdc; 0x8f1bbcdc; 0x8f1bbcdc; 0x8f1bbcdc; 0x8f1bbcdc;
   0x8f1bbcdc; 0x8f1bbcdc; 0x8f1bbcdc; 0x8f1bbcdc; 0xca62c1d6; 0xca62c1d6; 0xca62c1d6; 0xca62c1d6;
   0xca62c1d6; 0xca62c1d6; 0xca62c1d6; 0xca62c1d6; 0xca62c1d6; 0xca62c1d6; 0xca62c1d6; 0xca62c1d6;
   0xca62c1d6; 0xca62c1d6; 0xca62c1d6; 0xca62c1d6; 0xca62c1d6; 0xca62c1d6; 0xca62c1d6; 0xca62c1d6].

(** hash/sha/sha160.hpp:63-78 h160::get *)
Definition h160 : list Z :=
  [0x67452301; 0xefcdab89; 0x98badcfe; 0x10325476; 0xc3d2e1f0].

(** hash/sha/sha256.hpp:29-61 k256::get *)
Definition k256 : list Z :=
  [0x428a2f98; 0x71374491; 0xb5c0fbcf; 0xe9b5dba5; 0x3956c25b; 0x59f111f1; 0x923f82a4; 0xab1c5ed5;
   0xd807aa98; 0x12835b01; 0x243185be; 0x550c7dc3; 0x72be5d74; 0x80deb1fe; 0x9bdc06a7; 0xc19bf174;
   0xe49b69c1; 0xefbe4786; 0x0fc19dc6; 0x240ca1cc; 0x2de92c6f; 0x4a7484aa; 0x5cb0a9dc; 0x76f988da;
   0x983e5152; 0xa831c66d; 0xb00327c8; 0xbf597fc7; 0xc6e00bf3; 0xd5a79147; 0x06ca6351; 0x14292967;
   0x27b70a85; 0x2e1b2138; 0x4d2c6dfc; 0x53380d13; 0x650a7354; 0x766a0abb; 0x81c2c92e; 0x92722c85;
   0xa2bfe8a1; 0xa81a664b; 0xc24b8b70; 0xc76c51a3; 0xd192e819; 0xd6990624; 0xf40e3585; 0x106aa070;
   0x19a4c116; 0x1e376c08; 0x2748774c; 0x34b0bcb5; 0x391c0cb3; 0x4ed8aa4a; 0x5b9cca4f; 0x682e6ff3;
   0x748f82ee; 0x78a5636f; 0x84c87814; 0x8cc70208; 0x90befffa; 0xa4506ceb; 0xbef9a3f7; 0xc67178f2].

(** hash/sha/sha256.hpp:71-88 h256<256>::get *)
Definition h256 : list Z :=
  [0x6a09e667; 0xbb67ae85; 0x3c6ef372; 0xa54ff53a; 0x510e527f; 0x9b05688c; 0x1f83d9ab; 0x5be0cd19].

(** hash/sha/sha512.hpp:29-86 k512::get *)
Definition k512 : list Z :=
  [0x428a2f98d728ae22; 0x7137449123ef65cd; 0xb5c0fbcfec4d3b2f; 0xe9b5dba58189dbbc;
   0x3956c25bf348b538; 0x59f111f1b605d019; 0x923f82a4af194f9b; 0xab1c5ed5da6d8118;
   0xd807aa98a3030242; 0x12835b0145706fbe; 0x243185be4ee4b28c; 0x550c7dc3d5ffb4e2;
   0x72be5d74f27b896f; 0x80deb1fe3b1696b1; 0x9bdc06a725c71235; 0xc19bf174cf692694;
   0xe49b69c19ef14ad2; 0xefbe4786384f25e3; 0x0fc19dc68b8cd5b5; 0x240ca1cc77ac9c65;
   0x2de92c6f592b0275; 0x4a7484aa6ea6e483; 0x5cb0a9dcbd41fbd4; 0x76f988da831153b5;
   0x983e5152ee66dfab; 0xa831c66d2db43210; 0xb00327c898fb213f; 0xbf597fc7beef0ee4;
   0xc6e00bf33da88fc2; 0xd5a79147930aa725; 0x06ca6351e003826f; 0x142929670a0e6e70;
   0x27b70a8546d22ffc; 0x2e1b21385c26c926; 0x4d2c6dfc5ac42aed; 0x53380d139d95b3df;
   0x650a73548baf63de; 0x766a0abb3c77b2a8; 0x81c2c92e47edaee6; 0x92722c851482353b;
   0xa2bfe8a14cf10364; 0xa81a664bbc423001; 0xc24b8b70d0f89791; 0xc76c51a30654be30;
   0xd192e819d6ef5218; 0xd69906245565a910; 0xf40e35855771202a; 0x106aa07032bbd1b8;
   0x19a4c116b8d2d0c8; 0x1e376c085141ab53; 0x2748774cdf8eeb99; 0x34b0bcb5e19b48a8;
   0x391c0cb3c5c95a63; 0x4ed8aa4ae3418acb; 0x5b9cca4f7763e373; 0x682e6ff3d6b2b8a3;
   0x748f82ee5defb2fc; 0x78a5636f43172f60; 0x84c87814a1f0ab72; 0x8cc702081a6439ec;
   0x90befffa23631e28; 0xa4506cebde82bde9; 0xbef9a3f7b2c67915; 0xc67178f2e372532b;
   0xca273eceea26619c; 0xd186b8c721c0c207; 0xeada7dd6cde0eb1e; 0xf57d4f7fee6ed178;
   0x06f067aa72176fba; 0x0a637dc5a2c898a6; 0x113f9804bef90dae; 0x1b710b35131c471b;
   0x28db77f523047d84; 0x32caab7b40c72493; 0x3c9ebe0a15c9bebc; 0x431d67c49c100d4c;
   0x4cc5d4becb3e42b6; 0x597f299cfc657e2a; 0x5fcb6fab3ad6faec; 0x6c44198c4a475817].

(** hash/sha/sha512.hpp:97-115 h512<512>::get *)
Definition h512 : list Z :=
  [0x6a09e667f3bcc908; 0xbb67ae8584caa73b; 0x3c6ef372fe94f82b; 0xa54ff53a5f1d36f1;
   0x510e527fade682d1; 0x9b05688c2b3e6c1f; 0x1f83d9abfb41bd6b; 0x5be0cd19137e2179].

(** The template parameter SHA (hash/sha/sha.hpp:52-70): word_bits, strength,
    rounds, K::get, H::get; word_bytes = word_bits/8, 16 block words. *)
Record sha := mksha { word_bits : Z; strength : Z; rounds : nat; K : list Z; H : list Z }.
Definition sha160 := mksha 32 160 80 k160 h160.
Definition sha256 := mksha 32 256 64 k256 h256.
Definition sha512 := mksha 64 512 80 k512 h512.
Definition word_bytes (A : sha) : nat := Z.to_nat (word_bits A / 8).
Definition block_size (A : sha) : nat := 16 * word_bytes A.
Definition half_size (A : sha) : nat := 8 * word_bytes A.
Definition state_words (A : sha) : nat := if strength A =? 160 then 5 else 8.

Section Words.
Variable A : sha.
Context {X : Type}.
Variable W : wops X.
Definition at_ (l : list X) (i : nat) : X := nth i l (wbroadcast W 0).

(** impl/hash/sha/algorithm_functions.ipp:36-103 *)
Definition parity (x y z : X) : X := wxor W (wxor W x y) z.
Definition choice (x y z : X) : X := wxor W (wand W x (wxor W y z)) z.
Definition majority (x y z : X) : X := wor W (wand W x (wor W y z)) (wand W y z).
Definition sigma (a b c : Z) (x : X) : X := wxor W (wxor W (wror W a x) (wror W b x)) (wshr W c x).
Definition Sigma (a b c : Z) (x : X) : X :=
  wror W a (wxor W (wror W (b - a) (wxor W (wror W (c - b) x) x)) x).
(** algorithm_functions.ipp:109-147 *)
Definition sigma0 (x : X) : X := if strength A =? 256 then sigma 7 18 3 x else sigma 1 8 7 x.
Definition sigma1 (x : X) : X := if strength A =? 256 then sigma 17 19 10 x else sigma 19 61 6 x.
Definition Sigma0 (x : X) : X := if strength A =? 256 then Sigma 2 13 22 x else Sigma 28 34 39 x.
Definition Sigma1 (x : X) : X := if strength A =? 256 then Sigma 6 11 25 x else Sigma 14 18 41 x.

(** impl/hash/sha/algorithm_schedule.ipp:33-50 prepare, 53-123 schedule_;
    algorithm_konstant.ipp:34-42 konstant<>, 150-255 konstant_ (the vector
    konstant adds the same constants to the same words). *)
Definition prepare (b : list X) (r : nat) : list X :=
  upd r (if strength A =? 160
         then wrol W 1 (wxor W (wxor W (at_ b (r - 16)) (at_ b (r - 14))) (wxor W (at_ b (r - 8)) (at_ b (r - 3))))
         else wadd W (wadd W (at_ b (r - 16)) (sigma0 (at_ b (r - 15))))
                     (wadd W (at_ b (r - 7)) (sigma1 (at_ b (r - 2))))) b.
Definition konstant (b : list X) : list X :=
  fold_left (fun b r => upd r (wadd W (at_ b r) (wbroadcast W (nth r (K A) 0))) b) (seq 0 (rounds A)) b.
Definition schedule_ (b : list X) : list X := konstant (fold_left prepare (seq 16 (rounds A - 16)) b).

(** impl/hash/sha/algorithm_compress.ipp:43-60 functor, 63-90 round, 92-124
    round<Round, Lane> (state indexes), 126-141 summarize, 144-237 compress_.
    [wk] is the round's scheduled word, extracted from its lane. *)
Definition functor (r : nat) : X -> X -> X -> X :=
  match (r / 20)%nat with 0%nat => choice | 1%nat => parity | 2%nat => majority | _ => parity end.
Definition index (r i : nat) : nat := ((rounds A + i - r) mod state_words A)%nat.
Definition round160 (r : nat) (s : list X) (wk : X) : list X :=
  let a := at_ s (index r 0) in let b := at_ s (index r 1) in let c := at_ s (index r 2) in
  let d := at_ s (index r 3) in let e := at_ s (index r 4) in
  let s := upd (index r 4) (wadd W (wadd W (wadd W (wrol W 5 a) (functor r b c d)) e) wk) s in
  upd (index r 1) (wrol W 30 b) s.
Definition round256 (r : nat) (s : list X) (wk : X) : list X :=
  let a := at_ s (index r 0) in let b := at_ s (index r 1) in let c := at_ s (index r 2) in
  let d := at_ s (index r 3) in let e := at_ s (index r 4) in let f := at_ s (index r 5) in
  let g := at_ s (index r 6) in let h := at_ s (index r 7) in
  let t := wadd W (wadd W (wadd W (Sigma1 e) (choice e f g)) h) wk in
  let s := upd (index r 3) (wadd W d t) s in
  upd (index r 7) (wadd W (wadd W (Sigma0 a) (majority a b c)) t) s.
Definition round (r : nat) (s : list X) (wk : X) : list X :=
  if strength A =? 160 then round160 r s wk else round256 r s wk.
Definition summarize (out start : list X) : list X := map2 (wadd W) out start.
Definition compress_ (state : list X) (wk : nat -> X) : list X :=
  summarize (fold_left (fun s r => round r s (wk r)) (seq 0 (rounds A)) state) state.
End Words.

Section Algorithm.
Variable A : sha.
(** [vector]: the build has vector registers (algorithm.hpp:151-156 use_128,
    use_256, use_512); [sigma8]: have_lanes<word_t, 8>. *)
Variable sigma8 : bool.
Let W := zops (word_bits A).
Let at0 (l : list Z) (i : nat) : Z := nth i l 0.

(** impl/hash/sha/algorithm_sigma.ipp:33-80 prepare_8: eight sigma0 at once,
    90-120 schedule_sigma; algorithm_schedule.ipp:125-145 schedule. *)
Definition prepare_1 (r : nat) (xsigma0 : list Z) (b : list Z) (offset : nat) : list Z :=
  upd (r + offset)
    (wadd W (wadd W (at0 b (r - 16 + offset)) (nth offset xsigma0 0))
            (wadd W (at0 b (r - 7 + offset)) (sigma1 A W (at0 b (r - 2 + offset))))) b.
Definition prepare_8 (b : list Z) (r : nat) : list Z :=
  let xsigma0 := sigma0 A (lops (word_bits A) 8) (map (fun i => at0 b (r - 15 + i)) (seq 0 8)) in
  fold_left (prepare_1 r xsigma0) (seq 0 8) b.
Definition schedule (b : list Z) : list Z :=
  if sigma8 && negb (strength A =? 160)
  then konstant A W (fold_left prepare_8 (map (fun i => 16 + 8 * i)%nat (seq 0 ((rounds A - 16) / 8))) b)
  else schedule_ A W b.
Definition compress (state buffer : list Z) : list Z := compress_ A W state (at0 buffer).

(** impl/hash/sha/algorithm_parsing.ipp:33-110 input, 113-250 input_left and
    input_right (half, quarter), 330-400 output: big-endian words. *)
Definition words_of (bytes : list Z) : list Z :=
  map be_value (chunks (word_bytes A) (length bytes / word_bytes A) bytes).
Definition input (buffer block : list Z) : list Z := write_at 0 (words_of block) buffer.
Definition input_left (buffer half : list Z) : list Z := write_at 0 (words_of half) buffer.
Definition input_right (buffer half : list Z) : list Z := write_at 8 (words_of half) buffer.
Definition input_right_quarter (buffer quarter : list Z) : list Z := write_at 4 (words_of quarter) buffer.
Definition output (state : list Z) : list Z := flat_map (be_bytes (word_bytes A)) state.
(** impl/hash/sha/algorithm_midstate.ipp:33-53 *)
Definition inject_left_half (buffer left : list Z) : list Z := write_at 0 left buffer.
Definition zero_buffer : list Z := repeat 0 (rounds A).

(** impl/hash/sha/algorithm_padding.ipp:38-56 scheduled_pad, 58-70 schedule_n<>,
    72-103 schedule_n (cached for 1..4 blocks), 105-111 schedule_1, 118-128
    simple_pad, 153-164 chunk_pad, 183-207 pad_half, 210-240 pad_n (count_t is
    twice the word: the bit count does not overflow below 2^(2w)). *)
Definition bit_hi : Z := 2 ^ (word_bits A - 1).
Definition scheduled_pad (blocks : Z) : list Z :=
  schedule_ A W (upd 15 ((blocks * Z.of_nat (block_size A) * 8) mod 2 ^ word_bits A) (upd 0 bit_hi zero_buffer)).
Definition count_limit : Z := 2 ^ (2 * word_bits A).
Definition pad_n (buffer : list Z) (blocks : Z) : list Z :=
  let bits := (blocks * Z.of_nat (block_size A) * 8) mod count_limit in
  upd 15 (bits mod 2 ^ word_bits A) (upd 14 (bits / 2 ^ word_bits A) (write_at 0 (bit_hi :: repeat 0 13) buffer)).
Definition cached_blocks (blocks : Z) : bool := (1 <=? blocks) && (blocks <=? 4).
Definition schedule_n (buffer : list Z) (blocks : Z) : list Z :=
  if cached_blocks blocks then scheduled_pad blocks else schedule (pad_n buffer blocks).
Definition chunk_pad : list Z := bit_hi :: repeat 0 6 ++ [Z.of_nat (half_size A) * 8].
Definition pad_half (buffer : list Z) : list Z := write_at 8 chunk_pad buffer.
Definition simple_pad (bytes : list Z) : list Z :=
  upd (length bytes) 128
    (write_at (block_size A - word_bytes A) (be_bytes (word_bytes A) (len bytes * 8))
      (bytes ++ repeat 0 (block_size A - length bytes))).

(** impl/hash/sha/algorithm_iterate.ipp:245-270 iterate_ (the buffer is reused
    from block to block). *)
Definition iterate_ (state : list Z) (blocks : list (list Z)) : list Z :=
  fst (fold_left (fun (p : list Z * list Z) block =>
    let buffer := schedule (input (snd p) block) in (compress (fst p) buffer, buffer))
    blocks (state, zero_buffer)).
(** algorithm_iterate.ipp:36-112 pack, xinput; 131-164 sequential_compress;
    172-200 vector_schedule_sequential_compress: groups of [lanes] blocks are
    scheduled together and compressed one after the other. *)
Definition xinput (xbuffer : list (list Z)) (group : list (list Z)) : list (list Z) :=
  write_at 0 (map (fun i => map (fun block => at0 (words_of block) i) group) (seq 0 16)) xbuffer.
Definition sequential_compress (state : list Z) (lanes : nat) (xbuffer : list (list Z)) : list Z :=
  fold_left (fun s lane => compress_ A W s (fun r => nth lane (nth r xbuffer []) 0)) (seq 0 lanes) state.
Fixpoint vector_loop (fuel lanes : nat) (state : list Z) (xbuffer : list (list Z)) (blocks : list (list Z)) : list Z * list (list Z) :=
  match fuel with
  | O => (state, blocks)
  | S f =>
    if (Nat.leb lanes (length blocks)) then
      let xbuffer := schedule_ A (lops (word_bits A) lanes) (xinput xbuffer (firstn lanes blocks)) in
      vector_loop f lanes (sequential_compress state lanes xbuffer) xbuffer (skipn lanes blocks)
    else (state, blocks)
  end.
Definition vector_pass (state : list Z) (blocks : list (list Z)) (lanes : nat) : list Z * list (list Z) :=
  vector_loop (length blocks) lanes state (repeat (repeat 0 lanes) (rounds A)) blocks.
(** algorithm_iterate.ipp:202-222 iterate_vector: the available register widths
    from widest to narrowest (their lane counts), then the normal form. *)
Definition iterate_vector (widths : list nat) (state : list Z) (blocks : list (list Z)) : list Z :=
  let '(state, blocks) := fold_left (fun p lanes => vector_pass (fst p) (snd p) lanes) widths (state, blocks) in
  iterate_ state blocks.
Variable widths : list nat.
(** algorithm_iterate.ipp:272-335 iterate; algorithm_stream.ipp:33-46 accumulate *)
Definition iterate (state : list Z) (blocks : list (list Z)) : list Z := iterate_vector widths state blocks.

(** algorithm_single.ipp:36-56 hash of blocks, 77-105 hash(half), 107-136
    hash(left, right), 152-181 hash of quarters, 190-220 simple_hash *)
Definition finalize_n (state : list Z) (blocks : Z) : list Z := output (compress state (scheduled_pad blocks)).
Definition hash_ablocks (blocks : list (list Z)) : list Z := finalize_n (iterate (H A) blocks) (len blocks).
(** algorithm_stream.ipp:82-107 finalize *)
Definition finalize (state : list Z) (blocks : Z) : list Z := output (compress state (schedule_n zero_buffer blocks)).
Definition hash_iblocks (blocks : list (list Z)) : list Z := finalize (iterate (H A) blocks) (len blocks).
Definition hash_half (half : list Z) : list Z :=
  output (compress (H A) (schedule (pad_half (input_left zero_buffer half)))).
Definition hash_halves (left right : list Z) : list Z :=
  let buffer := schedule (input_right (input_left zero_buffer left) right) in
  let state := compress (H A) buffer in
  output (compress state (scheduled_pad 1)).
Definition hash_quarters (left right : list Z) : list Z :=
  output (compress (H A) (schedule (pad_half (input_right_quarter (input_left zero_buffer left) right)))).
Definition simple_hash (bytes : list Z) : list Z :=
  output (compress (H A) (schedule (input zero_buffer (simple_pad bytes)))).

(** algorithm_stream.ipp:109-138 finalize_second, 140-172 finalize_double;
    algorithm_double.ipp:36-190 double_hash.  The second hash reuses the buffer. *)
Definition second (buffer state : list Z) : list Z :=
  output (compress (H A) (schedule (pad_half (inject_left_half buffer state)))).
Definition finalize_second (state : list Z) : list Z := second zero_buffer state.
Definition finalize_double (state : list Z) (blocks : Z) : list Z :=
  let buffer := schedule_n zero_buffer blocks in second buffer (compress state buffer).
Definition double_ablocks (blocks : list (list Z)) : list Z := finalize_double (iterate (H A) blocks) (len blocks).
Definition double_block (block : list Z) : list Z :=
  let state := compress (H A) (schedule (input zero_buffer block)) in
  let buffer := scheduled_pad 1 in second buffer (compress state buffer).
Definition double_half (half : list Z) : list Z :=
  let buffer := schedule (pad_half (input_left zero_buffer half)) in second buffer (compress (H A) buffer).
Definition double_halves (left right : list Z) : list Z :=
  let state := compress (H A) (schedule (input_right (input_left zero_buffer left) right)) in
  let buffer := scheduled_pad 1 in second buffer (compress state buffer).

(** algorithm_merkle.ipp:36-50 pack_pad_half, 53-215 pack_schedule_1, 243-275
    pack and unpack, 277-320 xoutput, 340-385 merkle_hash_vector<>: [lanes]
    pairs of digests hashed together. *)
Definition xbroadcast (lanes : nat) (l : list Z) : list (list Z) := map (fun v => repeat v lanes) l.
Definition merkle_lanes (lanes : nat) (xbuffer : list (list Z)) (group : list (list Z)) : list (list Z) * list (list Z) :=
  let XO := lops (word_bits A) lanes in
  let initial := xbroadcast lanes (H A) in
  let xbuffer := schedule_ A XO (xinput xbuffer group) in
  let xstate := compress_ A XO initial (fun r => nth r xbuffer []) in
  let xbuffer := xbroadcast lanes (scheduled_pad 1) in
  let xstate := compress_ A XO xstate (fun r => nth r xbuffer []) in
  let xbuffer := write_at 8 (xbroadcast lanes chunk_pad) (write_at 0 xstate xbuffer) in
  let xbuffer := schedule_ A XO xbuffer in
  let xstate := compress_ A XO initial (fun r => nth r xbuffer []) in
  (map (fun lane => output (map (fun x => nth lane x 0) xstate)) (seq 0 lanes), xbuffer).
(** The digests and blocks iterate the same memory: [next] pairs done, each
    group read from position 2*next and written to position next. *)
Fixpoint merkle_loop (fuel lanes next : nat) (xbuffer : list (list Z)) (digests : list (list Z)) : nat * list (list Z) :=
  match fuel with
  | O => (next, digests)
  | S f =>
    if (Nat.leb (next + lanes) (length digests / 2)) then
      let group := map (@concat Z) (chunks 2 lanes (skipn (2 * next) digests)) in
      let (out, xbuffer) := merkle_lanes lanes xbuffer group in
      merkle_loop f lanes (next + lanes) xbuffer (write_at next out digests)
    else (next, digests)
  end.
Definition merkle_pass (p : nat * list (list Z)) (lanes : nat) : nat * list (list Z) :=
  merkle_loop (length (snd p)) lanes (fst p) (repeat (repeat 0 lanes) (rounds A)) (snd p).
(** algorithm_merkle.ipp:328-337 merkle_hash_: digests[i] = double_hash of
    digests[2i], digests[2i+1], in place; then resize. *)
Definition merkle_normal (digests : list (list Z)) (offset : nat) : list (list Z) :=
  let blocks := (length digests / 2)%nat in
  firstn blocks (fold_left (fun d i => upd i (double_halves (nth (2 * i) d []) (nth (2 * i + 1) d [])) d)
                           (seq offset (blocks - offset)) digests).
(** algorithm_merkle.ipp:387-420 merkle_hash_vector, 455-475 merkle_hash.  The
    vector passes are used from min_lanes * 2 digests on; below that no pass
    has a full group. *)
Definition merkle_hash (digests : list (list Z)) : list (list Z) :=
  let '(next, digests) := fold_left merkle_pass widths (0%nat, digests) in
  merkle_normal digests next.
(** algorithm_merkle.ipp:430-452 merkle_root *)
Fixpoint merkle_rounds (fuel : nat) (digests : list (list Z)) : list Z :=
  match fuel with
  | O => []
  | S f => if (Nat.eqb (length digests) 1) then hd [] digests
           else merkle_rounds f (merkle_hash (if Nat.odd (length digests) then digests ++ [last digests []] else digests))
  end.
Definition merkle_root (digests : list (list Z)) : list Z :=
  match digests with [] => repeat 0 (half_size A) | _ => merkle_rounds (length digests) digests end.
End Algorithm.
