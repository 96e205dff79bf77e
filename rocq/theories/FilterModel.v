(** Model of the bloom and sieve fingerprint filters:
    include/bitcoin/system/impl/filter/bloom.ipp, filter/bloom.hpp,
    include/bitcoin/system/impl/filter/sieve.ipp, filter/sieve.hpp. *)
From Verif Require Import Base MathModel.

(** include/bitcoin/system/types.hpp:81-88 unsigned_type<to_ceilinged_bytes(n)>. *)
Definition filter_type (n : Z) : ity :=
  let b := (n + 7) / 8 in
  if b =? 0 then u64 else if b =? 1 then u8 else if b =? 2 then u16
  else if b <=? 4 then u32 else u64.

(** * bloom<M, K> *)
Section Bloom.
Variables M K : Z.
Let T := filter_type M.
(** filter/bloom.hpp:39. *)
Definition bloom_disabled : bool := (M =? 0) || (K =? 0).
(** filter/bloom.hpp:52-56 saturated, empty, select. *)
Definition bloom_saturated : Z := 0.
Definition bloom_empty : Z := unmask_right T M.
Definition bloom_select : Z := ceilinged_log2 M.
(** impl/filter/bloom.ipp:87-103 get_bit (k * select < 64 by the static_assert
    of bloom.hpp:59-60). *)
Definition bloom_get_bit (k entropy : Z) : Z :=
  let mask := unmask_right T bloom_select in
  let shifted := shift_right u64 entropy (k * bloom_select) true in
  let b := bit_and T (wrap T shifted) mask in
  if mask >=? M then b mod M else b.
(** impl/filter/bloom.ipp:43-45 / 64-65 the loops over k, as the list of k. *)
Definition bloom_ks : list Z := map Z.of_nat (seq 0 (Z.to_nat K)).
(** impl/filter/bloom.ipp:31-50 is_screened. *)
Definition bloom_is_screened (value entropy : Z) : bool :=
  if bloom_disabled then true
  else if value =? bloom_empty then false
  else forallb (fun k => negb (get_right T value (bloom_get_bit k entropy))) bloom_ks.
(** impl/filter/bloom.ipp:52-70 screen. *)
Definition bloom_screen (value entropy : Z) : Z :=
  if bloom_disabled then value
  else if value =? bloom_saturated then value
  else fold_left (fun v k => set_right T v (bloom_get_bit k entropy) false) bloom_ks value.
(** impl/filter/bloom.ipp:25-29 is_collision. *)
Definition bloom_is_collision (previous next : Z) : bool := next =? previous.
End Bloom.

(** * sieve<SieveBits, SelectBits> *)
(** std::array element access and update (indexes are within the array). *)
Definition tget (t : list Z) (i : Z) : Z := nth (Z.to_nat i) t 0.
Fixpoint set_nth (n : nat) (v : Z) (t : list Z) : list Z :=
  match t, n with
  | [], _ => []
  | _ :: r, O => v :: r
  | x :: r, S m => x :: set_nth m v r
  end.
Definition tset (t : list Z) (i v : Z) : list Z := set_nth (Z.to_nat i) v t.

(** std::popcount and std::countr_zero (impl/math/bits.ipp ones_count,
    right_zeros) of a non-negative value within [n] bits. *)
Fixpoint popcount (n : nat) (v : Z) : Z :=
  match n with O => 0 | S m => popcount m v + (if Z.testbit v (Z.of_nat m) then 1 else 0) end.
Fixpoint countr_zero_from (n : nat) (i v : Z) : Z :=
  match n with O => i | S m => if Z.testbit v i then i else countr_zero_from m (i + 1) v end.

Section Sieve.
Variables N SB : Z.
Let T := filter_type N.
Definition W : nat := Z.to_nat (bits T).
Definition right_zeros (v : Z) : Z := countr_zero_from W 0 v.
Definition ones_count (v : Z) : Z := popcount W v.

(** filter/sieve.hpp:40. *)
Definition sieve_disabled : bool := (N =? 0) || (SB =? 0).
(** filter/sieve.hpp:58-67 (size_t arithmetic; screen_bits > 0 is assumed by
    the theorems, so [sentinel] does not underflow). *)
Definition screen_bits : Z := N - SB.
Definition screens : Z := shift_left u64 1 SB true.
Definition limit_row : Z := screens - 1.
Definition sentinel : Z := screen_bits - 1.
Definition sieve_empty : Z := unmask_right T N.
Definition sieve_saturated : Z := bit_and T sieve_empty (mask_right T sentinel).
Definition first_mask : Z := unmask_right T screen_bits.
Definition select_mask : Z := first_mask.
Definition mask_count : Z := screens * (screens + 1) / 2.

(** impl/filter/sieve.ipp:173-182 generate_offsets: the element for [index].
    [ceilinged_multiply] saturates in the filter's type. *)
Definition offset (index : Z) : Z :=
  (if index * (index + 1) >? imax T then imax T else index * (index + 1)) / 2.

(** impl/filter/sieve.ipp:198-199 copy of the previous row. *)
Definition copy_row (row : Z) (t : list Z) : list Z :=
  fold_left (fun t c => let col := Z.of_nat c in
               tset t (offset row + col) (tget t (offset (row - 1) + col)))
            (seq 0 (Z.to_nat row)) t.

(** impl/filter/sieve.ipp:209-218 the while loop; [n] is the remaining [bits].
    When no bit is below screen_bits the code does not terminate (a compile
    error, since generate_masks is consteval): the model stops. *)
Fixpoint move_bits (row col : Z) (n : nat) (t : list Z) : list Z :=
  match n with
  | O => t
  | S m =>
      let b := right_zeros (tget t (offset row + col)) in
      if b <? screen_bits then
        let t1 := tset t (offset row + col)
                    (set_right T (tget t (offset row + col)) b false) in
        let t2 := tset t1 (offset row + row)
                    (set_right T (tget t1 (offset row + row)) b true) in
        move_bits row col m t2
      else t
  end.

(** impl/filter/sieve.ipp:203-208 the body for one column. *)
Definition split_col (row : Z) (t : list Z) (col : Z) : list Z :=
  let div := screen_bits / (row + 1) in
  let mod_ := screen_bits mod (row + 1) in
  let target := div + (if col <? mod_ then 1 else 0) in
  let prior := tget t (offset row + col) in
  move_bits row col (Z.to_nat (ones_count prior - target)) t.

(** impl/filter/sieve.ipp:196-220 one row: columns row-1 down to 0. *)
Definition make_row (t : list Z) (row : Z) : list Z :=
  fold_left (split_col row) (map Z.of_nat (rev (seq 0 (Z.to_nat row)))) (copy_row row t).

(** impl/filter/sieve.ipp:192 masks_t table{ first_mask }. *)
Definition first_table : list Z := tset (repeat 0 (Z.to_nat mask_count)) 0 first_mask.

(** impl/filter/sieve.ipp:186-228 generate_masks. *)
Definition generate_masks : list Z :=
  let t := fold_left make_row (map Z.of_nat (seq 1 (Z.to_nat (screens - 1)))) first_table in
  fold_left (fun t c => let i := offset (screens - 1) + Z.of_nat c in
               tset t i (set_right T (tget t i) sentinel false))
            (seq 0 (Z.to_nat screens)) t.

(** The rest reads the (compile time) table [tbl]: impl/filter/sieve.ipp:164-171
    masks. *)
Section Table.
Variable tbl : list Z.
Definition masks (row column : Z) : Z := tget tbl (offset row + column).

(** impl/filter/sieve.ipp:49-82 is_screened. *)
Definition sieve_match (value entropy row : Z) : bool :=
  existsb (fun c => let mask := masks row (Z.of_nat c) in
             bit_xor T (bit_and T value mask) (bit_and T (wrap T entropy) mask) =? 0)
          (seq 0 (S (Z.to_nat row))).
Definition sieve_is_screened_t (value entropy : Z) : bool :=
  if sieve_disabled then true
  else
    let row := shift_right T value screen_bits true in
    if (row =? limit_row) && (value =? sieve_empty) then false
    else if (row =? limit_row) && (value =? sieve_saturated) then true
    else sieve_match value entropy row.

(** impl/filter/sieve.ipp:125-145 the tail of screen. *)
Definition sieve_store (value entropy row : Z) : Z :=
  let mask := masks row row in
  let unmask := bit_and T (bit_not T mask) select_mask in
  let unmask := if row =? limit_row then set_right T unmask sentinel false else unmask in
  bit_or T (shift_left T row screen_bits true)
           (bit_or T (bit_and T value unmask) (bit_and T (wrap T entropy) mask)).

(** impl/filter/sieve.ipp:84-147 screen. *)
Definition sieve_screen_t (value entropy : Z) : Z :=
  if sieve_disabled then value
  else
    let row := shift_right T value screen_bits true in
    if row =? limit_row then
      if value =? sieve_empty then sieve_store value entropy 0
      else if negb (sieve_is_screened_t value entropy) then sieve_saturated else value
    else if sieve_is_screened_t value entropy then value
    else sieve_store value entropy (row + 1).
End Table.

Definition sieve_is_screened (value entropy : Z) : bool :=
  sieve_is_screened_t generate_masks value entropy.
Definition sieve_screen (value entropy : Z) : Z := sieve_screen_t generate_masks value entropy.
(** impl/filter/sieve.ipp:43-47 is_collision. *)
Definition sieve_is_collision (previous next : Z) : bool :=
  (next =? previous) || (next =? sieve_saturated).
End Sieve.
