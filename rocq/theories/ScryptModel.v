(** Model of include/bitcoin/system/impl/hash/scrypt.ipp (the default forms: no
    USE_QUARTER_ROUNDS, BLOCK_MIX_OPTIMAL_FORM). *)
From Verif Require Import Base Bytes ShaModel AccModel RmdModel KdfModel.

(** 197-313 salsa_8: the statements x[d] ^= rotl(x[a] + x[b], n) in order. *)
Definition salsa_columns : list (nat * nat * nat * Z) :=
  [(4, 0, 12, 7%Z); (8, 4, 0, 9%Z); (12, 8, 4, 13%Z); (0, 12, 8, 18%Z);
   (9, 5, 1, 7%Z); (13, 9, 5, 9%Z); (1, 13, 9, 13%Z); (5, 1, 13, 18%Z);
   (14, 10, 6, 7%Z); (2, 14, 10, 9%Z); (6, 2, 14, 13%Z); (10, 6, 2, 18%Z);
   (3, 15, 11, 7%Z); (7, 3, 15, 9%Z); (11, 7, 3, 13%Z); (15, 11, 7, 18%Z)]%nat.
Definition salsa_rows : list (nat * nat * nat * Z) :=
  [(1, 0, 3, 7%Z); (2, 1, 0, 9%Z); (3, 2, 1, 13%Z); (0, 3, 2, 18%Z);
   (6, 5, 4, 7%Z); (7, 6, 5, 9%Z); (4, 7, 6, 13%Z); (5, 4, 7, 18%Z);
   (11, 10, 9, 7%Z); (8, 11, 10, 9%Z); (9, 8, 11, 13%Z); (10, 9, 8, 18%Z);
   (12, 15, 14, 7%Z); (13, 12, 15, 9%Z); (14, 13, 12, 13%Z); (15, 14, 13, 18%Z)]%nat.
Definition salsa_op (x : list Z) (s : nat * nat * nat * Z) : list Z :=
  let '(d, a, b, n) := s in
  upd d (Z.lxor (nth d x 0) (wrol (zops 32) n (wadd (zops 32) (nth a x 0) (nth b x 0)))) x.
(** 56-81 add *)
Definition add_words (to from : list Z) : list Z :=
  fold_left (fun to i => upd i (wadd (zops 32) (nth i to 0) (nth i from 0)) to) (seq 0 16) to.
Definition salsa_8 (block : list Z) : list Z :=
  let save := r_words block in
  let x := fold_left (fun x (_ : nat) => fold_left salsa_op (salsa_columns ++ salsa_rows) x) (seq 0 4) save in
  flat_map (le_bytes 4) (add_words x save).

Section Scrypt.
Variables W R P : nat.
(** 83-156 xor_(block_t), 158-166 xor_(rblock_t) *)
Definition xor_block (to from : list Z) : list Z := xor_into to from.
Definition xor_rblock (to from : list (list Z)) : list (list Z) :=
  fold_left (fun to i => upd i (xor_block (nth i to []) (nth i from [])) to) (seq 0 (2 * R)) to.
(** 168-180 index *)
Definition index (rblock : list (list Z)) : nat :=
  Z.to_nat (le_value (firstn 8 (last rblock [])) mod Z.of_nat W).
(** 315-430 block_mix (the temporary blocks' allocation is taken to succeed):
    (rblock, xblock, yblock) through the first loop. *)
Definition mix_pair (s : list (list Z) * list Z * list (list Z)) (i : nat) : list (list Z) * list Z * list (list Z) :=
  let '(rblock, x, y) := s in
  let x := salsa_8 (xor_block x (nth (2 * i) rblock [])) in
  let rblock := upd i x rblock in
  let x := salsa_8 (xor_block x (nth (2 * i + 1) rblock [])) in
  (rblock, x, y ++ [x]).
Definition block_mix (rblock : list (list Z)) : list (list Z) :=
  let '(rblock, x, y) := fold_left mix_pair (seq 0 (R - 1)) (rblock, last rblock [], []) in
  let x := salsa_8 (xor_block x (nth (2 * R - 2) rblock [])) in
  let rblock := upd (R - 1) x rblock in
  let rblock := upd (2 * R - 1) (salsa_8 (xor_block (nth (2 * R - 1) rblock []) x)) rblock in
  fold_left (fun rblock i => upd (R + i) (nth i y []) rblock) (seq 0 (R - 1)) rblock.
(** 432-469 romix: false with the rblock unchanged if its working set cannot be
    allocated. *)
Definition romix (alloc : bool) (rblock : list (list Z)) : bool * list (list Z) :=
  if alloc then
    let '(wr, x) := fold_left (fun (s : list (list (list Z)) * list (list Z)) (_ : nat) => (fst s ++ [snd s], block_mix (snd s)))
                      (seq 0 W) ([], rblock) in
    (true, fold_left (fun x (_ : nat) => block_mix (xor_rblock x (nth (index x) wr []))) (seq 0 W) x)
  else (false, rblock).
(** 474-511 hash: [order] is the order in which the execution policy visits the
    rblocks, [alloc] whether each finds its working set; [out_of_memory] is the
    first allocation.  Some digest is a true return. *)
Variables (checked s8 : bool) (widths : list nat).
Let S256 := sha_algorithm sha256 s8 widths.
Definition visit (alloc : nat -> bool) (s : bool * list (list (list Z))) (i : nat) : bool * list (list (list Z)) :=
  let (success, prblocks) := s in
  if success then
    let (ok, rblock) := romix (alloc i) (nth i prblocks []) in (ok, upd i rblock prblocks)
  else (false, prblocks).
Definition scrypt_hash (out_of_memory : bool) (order : list nat) (alloc : nat -> bool) (size : nat) (password salt : list Z) : option (list Z) :=
  if out_of_memory then None
  else
    let bytes := pbkd_key S256 checked 32 (P * (2 * R * 64)) password salt 1 in
    let prblocks := map (fun b => chunks 64 (2 * R) b) (chunks (2 * R * 64) P bytes) in
    let (_, prblocks) := fold_left (visit alloc) order (true, prblocks) in
    Some (pbkd_key S256 checked 32 size password (concat (map (@concat Z) prblocks)) 1).
End Scrypt.
