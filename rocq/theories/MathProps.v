(** Property theorems C49-C52 (integer mathematics).  Statements use the model
    (MathModel) and the independent vocabulary of MathSpec only. *)
From Verif Require Import Base MathModel MathSpec.
From Verif Require MathProofs MathProofs2 BitProofs.

(** * C49: overflow predicates are exact, and free of undefined behaviour. *)
Theorem C49_is_add_overflow_exact : forall T l r,
  0 < bits T -> fits T l -> fits T r ->
  exists o, is_add_overflow T l r = Some o /\ (o = true <-> ~ fits T (l + r)).
Proof.
  intros. exists (negb (fitsb T (l + r))).
  rewrite MathProofs.is_add_overflow_exact by assumption. split; [reflexivity|].
  rewrite negb_true_iff. apply fitsb_false.
Qed.
Print Assumptions C49_is_add_overflow_exact.

Theorem C49_is_subtract_overflow_exact : forall T l r,
  0 < bits T -> fits T l -> fits T r ->
  exists o, is_subtract_overflow T l r = Some o /\ (o = true <-> ~ fits T (l - r)).
Proof.
  intros. exists (negb (fitsb T (l - r))).
  rewrite MathProofs.is_subtract_overflow_exact by assumption. split; [reflexivity|].
  rewrite negb_true_iff. apply fitsb_false.
Qed.
Print Assumptions C49_is_subtract_overflow_exact.

Theorem C49_is_multiply_overflow_exact : forall T l r,
  0 < bits T -> sg T = false -> fits T l -> fits T r ->
  (is_multiply_overflow T l r = true <-> ~ fits T (l * r)).
Proof.
  intros. rewrite MathProofs.is_multiply_overflow_exact by assumption.
  rewrite negb_true_iff. apply fitsb_false.
Qed.
Print Assumptions C49_is_multiply_overflow_exact.

(** Saturating operations equal the exact result clamped to the type range. *)
Theorem C49_ceilinged_add_saturates : forall T l r,
  0 < bits T -> fits T l -> fits T r ->
  ceilinged_add T l r = Some (clamp T (l + r)).
Proof. exact MathProofs.ceilinged_add_clamps. Qed.
Print Assumptions C49_ceilinged_add_saturates.

Theorem C49_floored_subtract_saturates : forall T l r,
  0 < bits T -> fits T l -> fits T r ->
  floored_subtract T l r = Some (clamp T (l - r)).
Proof. exact MathProofs.floored_subtract_clamps. Qed.
Print Assumptions C49_floored_subtract_saturates.

Theorem C49_ceilinged_multiply_saturates : forall T l r,
  0 < bits T -> sg T = false -> fits T l -> fits T r ->
  ceilinged_multiply T l r = Some (clamp T (l * r)).
Proof. exact MathProofs.ceilinged_multiply_clamps. Qed.
Print Assumptions C49_ceilinged_multiply_saturates.

(** Checked operations return the exact result or throw, exactly when the exact
    result does not fit; never undefined behaviour. *)
Theorem C49_safe_arithmetic_exact : forall T l r,
  0 < bits T -> fits T l -> fits T r ->
  safe_add T l r = (if fitsb T (l + r) then Val (l + r) else Throws) /\
  safe_subtract T l r = (if fitsb T (l - r) then Val (l - r) else Throws) /\
  (sg T = false ->
   safe_multiply T l r = (if fitsb T (l * r) then Val (l * r) else Throws)) /\
  (sg T = true -> safe_negate T l = (if fitsb T (- l) then Val (- l) else Throws)).
Proof.
  intros. repeat split; intros.
  - apply MathProofs.safe_add_exact; assumption.
  - apply MathProofs.safe_subtract_exact; assumption.
  - apply MathProofs.safe_multiply_exact; assumption.
  - apply MathProofs.safe_negate_exact; assumption.
Qed.
Print Assumptions C49_safe_arithmetic_exact.

(** Narrowing limits clamp, whatever the signs of the two types. *)
Theorem C49_limit_clamps : forall R I v,
  0 < bits R -> 0 < bits I -> fits I v ->
  limit R I v = clamp R v /\ (is_limited R I v = true <-> ~ fits R v).
Proof.
  intros. split; [apply MathProofs.limit_exact; assumption|].
  rewrite MathProofs.is_limited_exact by assumption.
  rewrite negb_true_iff. apply fitsb_false.
Qed.
Print Assumptions C49_limit_clamps.

Theorem C49_limit_between : forall R I v lo hi,
  0 < bits R -> 0 < bits I -> fits I v -> fits R lo -> fits R hi -> lo <= hi ->
  limit3 R I v lo hi = clamp_between lo hi v.
Proof. exact MathProofs.limit3_exact. Qed.
Print Assumptions C49_limit_between.

(** Mixed-sign comparisons agree with the mathematical order. *)
Theorem C49_mixed_sign_comparison : forall L R l r,
  0 < bits L -> 0 < bits R -> fits L l -> fits R r ->
  (is_greater L R l r = true <-> l > r) /\ (is_lesser L R l r = true <-> l < r).
Proof.
  intros. rewrite MathProofs.is_greater_exact, MathProofs.is_lesser_exact by assumption. lia.
Qed.
Print Assumptions C49_mixed_sign_comparison.

Theorem C49_delta_saturates : forall E U l r,
  0 < bits E -> 0 < bits U -> sg E = true -> sg U = false ->
  fits U l -> fits U r -> delta_unsigned E U l r = Some (clamp E (l - r)).
Proof. exact MathProofs.delta_unsigned_exact. Qed.
Print Assumptions C49_delta_saturates.

Theorem C49_absolute_exact : forall T v,
  32 <= bits T -> sg T = true -> fits T v -> v <> imin T ->
  absolute T v = Some (Z.abs v).
Proof. exact MathProofs.absolute_exact. Qed.
Print Assumptions C49_absolute_exact.

Theorem C49_products : forall p l r,
  (is_multiple p l = true <-> exists k, p = k * l) /\
  (is_product p l r = true <-> p = l * r).
Proof. intros. split; [apply MathProofs.is_multiple_exact|apply MathProofs.is_product_exact]. Qed.
Print Assumptions C49_products.

Example C49_nontrivial :
  fits u64 (2 ^ 64 - 1) /\ ceilinged_add u64 (2 ^ 64 - 1) 5 = Some (2 ^ 64 - 1) /\
  ceilinged_add i8 (-128) (-1) = Some (-128) /\ floored_subtract u8 3 4 = Some 0 /\
  floored_subtract u8 4 3 = Some 1 /\ limit i8 u64 300 = 127 /\ limit u8 i64 (-5) = 0 /\
  safe_add i64 (2 ^ 63 - 1) 1 = Throws /\ delta_unsigned i8 u64 5 300 = Some (-128).
Proof. unfold fits. vm_compute. repeat split; congruence. Qed.

(** * C50: the division family. *)
(** Excluded inputs are exactly the undefined ones: zero divisor, and the
    minimum signed value divided by -1. *)
Theorem C50_floored_division : forall T a b,
  0 < bits T -> fits T a -> fits T b -> b <> 0 ->
  ~ (sg T = true /\ a = imin T /\ b = -1) ->
  exists q r, floored_divide T a b = Some q /\ floored_modulo T a b = Some r /\
    is_floor a b q /\ a = q * b + r /\ (0 < b -> 0 <= r < b) /\ (b < 0 -> b < r <= 0).
Proof.
  intros T a b HB Ha Hb Hb0 Hex. exists (a / b), (a mod b).
  split; [apply MathProofs.floored_divide_eq; assumption|].
  split; [apply MathProofs.floored_modulo_eq; assumption|].
  pose proof (Z.div_mod a b Hb0). 
  assert (0 < b -> 0 <= a mod b < b) by (apply Z.mod_pos_bound).
  assert (b < 0 -> b < a mod b <= 0) by (apply Z.mod_neg_bound).
  split; [|lia]. unfold is_floor. destruct (Z.ltb_spec 0 b); nia.
Qed.
Print Assumptions C50_floored_division.

Theorem C50_ceilinged_division : forall T a b,
  0 < bits T -> fits T a -> fits T b -> b <> 0 ->
  ~ (sg T = true /\ a = imin T /\ b = -1) ->
  exists q, ceilinged_divide T a b = Some q /\ is_ceil a b q.
Proof.
  intros T a b HB Ha Hb Hb0 Hex. exists (- (- a / b)).
  split; [apply MathProofs.ceilinged_divide_eq; assumption|].
  pose proof (Z.div_mod (- a) b Hb0).
  assert (0 < b -> 0 <= (- a) mod b < b) by (apply Z.mod_pos_bound).
  assert (b < 0 -> b < (- a) mod b <= 0) by (apply Z.mod_neg_bound).
  unfold is_ceil. destruct (Z.ltb_spec 0 b); nia.
Qed.
Print Assumptions C50_ceilinged_division.

(** Ceilinged modulo satisfies the division identity for signed types, and for
    unsigned types with divisor at most half of the range ... *)
Theorem C50_ceilinged_modulo : forall T a b,
  1 < bits T -> fits T a -> fits T b -> b <> 0 ->
  ~ (sg T = true /\ a = imin T /\ b = -1) ->
  (sg T = false -> b <= 2 ^ (bits T - 1)) ->
  exists q r, ceilinged_divide T a b = Some q /\ ceilinged_modulo T a b = Some r /\
    a = q * b + r /\ (0 < b -> - b < r <= 0) /\ (b < 0 -> 0 <= r < - b).
Proof.
  intros T a b HB Ha Hb Hb0 Hex Hs. assert (HB' : 0 < bits T) by lia.
  exists (- (- a / b)), (a - b * - (- a / b)).
  split; [apply MathProofs.ceilinged_divide_eq; assumption|].
  split.
  { destruct (sg T) eqn:S.
    - apply MathProofs.ceilinged_modulo_eq; try assumption. rewrite S. assumption.
    - apply MathProofs2.ceilinged_modulo_unsigned_eq; auto. }
  pose proof (Z.div_mod (- a) b Hb0).
  assert (0 < b -> 0 <= (- a) mod b < b) by (apply Z.mod_pos_bound).
  assert (b < 0 -> b < (- a) mod b <= 0) by (apply Z.mod_neg_bound).
  lia.
Qed.
Print Assumptions C50_ceilinged_modulo.

(** ... and fails beyond: the (negative) remainder does not fit the signed
    return type, so the returned value breaks the division identity. *)
Theorem C50_ceilinged_modulo_large_divisor_refuted :
  exists a b q r, fits u32 a /\ fits u32 b /\ b <> 0 /\
    ceilinged_divide u32 a b = Some q /\ ceilinged_modulo u32 a b = Some r /\
    a <> q * b + r.
Proof.
  exists 1, (2 ^ 32 - 1), 1, 2. unfold fits. vm_compute. repeat split; congruence.
Qed.
Print Assumptions C50_ceilinged_modulo_large_divisor_refuted.

Theorem C50_truncated_division : forall T a b,
  0 < bits T -> fits T a -> fits T b -> b <> 0 ->
  ~ (sg T = true /\ a = imin T /\ b = -1) ->
  exists q r, truncated_divide T a b = Some q /\ truncated_modulo T a b = Some r /\
    a = q * b + r /\ Z.abs r < Z.abs b /\ (0 <= a -> 0 <= r) /\ (a <= 0 -> r <= 0).
Proof.
  intros T a b HB Ha Hb Hb0 Hex. exists (Z.quot a b), (Z.rem a b).
  split; [apply MathProofs.truncated_divide_eq; assumption|].
  split; [apply MathProofs.truncated_modulo_eq; assumption|].
  pose proof (Z.quot_rem a b Hb0). split; [lia|].
  split; [apply Z.rem_bound_abs; assumption|].
  split; [apply Z.rem_nonneg; assumption|apply Z.rem_nonpos; assumption].
Qed.
Print Assumptions C50_truncated_division.

Example C50_nontrivial :
  fits i64 (-7) /\ floored_divide i64 (-7) 2 = Some (-4) /\ floored_modulo i64 (-7) 2 = Some 1 /\
  ceilinged_divide i64 (-7) 2 = Some (-3) /\ ceilinged_modulo i64 7 2 = Some (-1) /\
  ceilinged_divide u64 7 2 = Some 4 /\ truncated_modulo i64 (-7) 2 = Some (-1) /\
  floored_divide i32 (- 2 ^ 31) (-1) = None.
Proof. unfold fits. vm_compute. repeat split; congruence. Qed.

(** * C51: logarithms and powers. *)
Theorem C51_log2 : forall v, 1 <= v ->
  is_ceil_log 2 v (ceilinged_log2 v) /\ is_floor_log 2 v (floored_log2 v) /\
  is_ceil_log 2 v (ceilinged_log2_uintx v) /\ is_floor_log 2 v (floored_log2_uintx v).
Proof.
  intros. repeat split; try apply MathProofs2.ceilinged_log2_ok; try apply MathProofs2.floored_log2_ok;
  try apply MathProofs2.ceilinged_log2_uintx_ok; try apply MathProofs2.floored_log2_uintx_ok; assumption.
Qed.
Print Assumptions C51_log2.

Theorem C51_log256 : forall T v,
  (bits T = 8 \/ bits T = 16 \/ bits T = 32 \/ bits T = 64) -> fits T v -> 1 <= v ->
  is_ceil_log 256 v (ceilinged_log256 T v) /\ is_floor_log 256 v (floored_log256 T v).
Proof.
  intros. split; [apply MathProofs2.ceilinged_log256_ok|apply MathProofs2.floored_log256_ok]; assumption.
Qed.
Print Assumptions C51_log256.

Theorem C51_log256_uintx : forall v, 1 <= v ->
  is_ceil_log 256 v (ceilinged_log256_uintx v) /\ is_floor_log 256 v (floored_log256_uintx v).
Proof.
  intros. split; [apply MathProofs2.ceilinged_log256_uintx_ok|apply MathProofs2.floored_log256_uintx_ok]; assumption.
Qed.
Print Assumptions C51_log256_uintx.

Theorem C51_floored_log_general : forall b v, 2 <= b -> 1 <= v ->
  exists k, floored_log_ b v = Some k /\ is_floor_log b v k.
Proof. exact MathProofs2.floored_log_ok. Qed.
Print Assumptions C51_floored_log_general.

(** The general-base ceilinged logarithm is wrong: ceilinged_log(10, 11) = 1. *)
Theorem C51_ceilinged_log_general_refuted :
  exists b v k, 2 <= b /\ 1 <= v /\ ceilinged_log_ b v = Some k /\ ~ is_ceil_log b v k.
Proof. exact MathProofs2.ceilinged_log_refuted. Qed.
Print Assumptions C51_ceilinged_log_general_refuted.

(** power is exponentiation modulo the width (0^0 excluded: it returns 0). *)
Theorem C51_power : forall T b n,
  sg T = false -> 0 < bits T -> ~ (b = 0 /\ n = O) ->
  power_ T b n = (b ^ Z.of_nat n) mod 2 ^ bits T.
Proof. exact MathProofs2.power_eq. Qed.
Print Assumptions C51_power.

Theorem C51_power_exact : forall T b n,
  sg T = false -> 0 < bits T -> ~ (b = 0 /\ n = O) -> fits T (b ^ Z.of_nat n) ->
  power_ T b n = b ^ Z.of_nat n.
Proof.
  intros T b n S HB Hz F. rewrite MathProofs2.power_eq by assumption.
  apply Z.mod_small. apply MathProofs.fits_unsigned in F; assumption.
Qed.
Print Assumptions C51_power_exact.

Example C51_nontrivial :
  ceilinged_log2 9 = 4 /\ floored_log2 9 = 3 /\ ceilinged_log256 u64 257 = 2 /\
  floored_log256 u64 257 = 1 /\ floored_log_ 10 1234 = Some 3 /\ power_ u64 85 4 = 52200625.
Proof. vm_compute. repeat split. Qed.

(** * C52: positional meaning of the bit operations. *)
Theorem C52_shift_left : forall T v s i,
  0 < bits T -> 0 <= s -> 0 <= i < bits T ->
  (bit (shift_left T v s true) i = (s <=? i) && bit v (i - s)) /\
  (bit (shift_left T v s false) i = (s mod bits T <=? i) && bit v (i - s mod bits T)).
Proof.
  intros T v s i HB Hs Hi. rewrite !BitProofs.shift_left_bit by assumption. cbn [andb].
  split; [|reflexivity]. destruct (Z.leb_spec (bits T) s).
  - destruct (Z.leb_spec s i); [lia|reflexivity].
  - rewrite Z.mod_small by lia. reflexivity.
Qed.
Print Assumptions C52_shift_left.

Theorem C52_shift_right : forall T v s i,
  0 < bits T -> 0 <= s -> 0 <= i < bits T ->
  (bit (shift_right T v s true) i = (i + s <? bits T) && bit v (i + s)) /\
  (bit (shift_right T v s false) i =
     (i + s mod bits T <? bits T) && bit v (i + s mod bits T)).
Proof.
  intros T v s i HB Hs Hi. rewrite !BitProofs.shift_right_bit by assumption. cbn [andb].
  split; [|reflexivity]. destruct (Z.leb_spec (bits T) s).
  - destruct (Z.ltb_spec (i + s) (bits T)); [lia|reflexivity].
  - rewrite Z.mod_small by lia. reflexivity.
Qed.
Print Assumptions C52_shift_right.

Theorem C52_rotations : forall T v s i,
  0 < bits T -> 0 <= s -> 0 <= i < bits T ->
  bit (rotate_left T v s) i = bit v ((i - s) mod bits T) /\
  bit (rotate_right T v s) i = bit v ((i + s) mod bits T).
Proof.
  intros. split; [apply BitProofs.rotate_left_bit|apply BitProofs.rotate_right_bit]; assumption.
Qed.
Print Assumptions C52_rotations.

Theorem C52_rotations_inverse : forall T v s,
  0 < bits T -> 0 <= s -> fits T v ->
  rotate_right T (rotate_left T v s) s = v /\ rotate_left T (rotate_right T v s) s = v.
Proof.
  intros. split; [apply BitProofs.rotate_right_left|apply BitProofs.rotate_left_right]; assumption.
Qed.
Print Assumptions C52_rotations_inverse.

(** The intrinsic-style rotations agree with the bitwise ones. *)
Theorem C52_rotl_rotr_nominal : forall T v s,
  0 < bits T -> sg T = false -> 0 <= s -> fits T v ->
  rotl_nominal T v s = rotate_left T v s /\ rotr_nominal T v s = rotate_right T v s.
Proof.
  intros. split; [apply BitProofs.rotl_nominal_eq|apply BitProofs.rotr_nominal_eq]; assumption.
Qed.
Print Assumptions C52_rotl_rotr_nominal.

Theorem C52_get_set : forall T v o s i,
  0 < bits T -> 0 <= o < bits T -> 0 <= i < bits T ->
  get_right T v o = bit v o /\ get_left T v o = bit v (bits T - 1 - o) /\
  bit (set_right T v o s) i = (if i =? o then s else bit v i) /\
  bit (set_left T v o s) i = (if i =? bits T - 1 - o then s else bit v i).
Proof.
  intros. split; [apply BitProofs.get_right_ok; assumption|].
  split; [apply BitProofs.get_left_ok; assumption|].
  split; [apply BitProofs.set_right_bit|apply BitProofs.set_left_bit]; assumption.
Qed.
Print Assumptions C52_get_set.

Theorem C52_masks : forall T n i,
  0 < bits T -> 0 <= n -> 0 <= i < bits T ->
  bit (mask_left T n) i = (i <? bits T - n) /\ bit (mask_right T n) i = (n <=? i) /\
  bit (unmask_left T n) i = (bits T - n <=? i) /\ bit (unmask_right T n) i = (i <? n).
Proof.
  intros. repeat split; [apply BitProofs.mask_left_bit|apply BitProofs.mask_right_bit
    |apply BitProofs.unmask_left_bit|apply BitProofs.unmask_right_bit]; assumption.
Qed.
Print Assumptions C52_masks.

(** Results stay in the type, and values are determined by their bits, so the
    positional statements above determine the results completely. *)
Theorem C52_results_determined : forall T a b, 0 < bits T -> fits T a -> fits T b ->
  (forall i, 0 <= i < bits T -> bit a i = bit b i) -> a = b.
Proof. exact BitProofs.bit_ext. Qed.
Print Assumptions C52_results_determined.
Theorem C52_results_in_range : forall T v s o, 0 < bits T ->
  fits T (shift_left T v s o) /\ fits T (shift_right T v s o) /\
  fits T (rotate_left T v s) /\ fits T (rotate_right T v s).
Proof.
  intros. repeat split; try apply BitProofs.shift_left_fits; try apply BitProofs.shift_right_fits;
  try apply BitProofs.rotate_left_fits; try apply BitProofs.rotate_right_fits; assumption.
Qed.
Print Assumptions C52_results_in_range.

Theorem C52_left_shift_overflow : forall T v n,
  0 < bits T -> sg T = false -> fits T v -> 0 <= n ->
  (is_left_shift_overflow T v n = true <-> ~ fits T (v * 2 ^ n)).
Proof.
  intros T v n HB S Hv Hn. rewrite BitProofs.is_left_shift_overflow_ok by assumption.
  pose proof Hv as Hv'. rewrite MathProofs.fits_unsigned in * by assumption.
  assert (0 < 2 ^ n) by (apply pow2_pos; lia). nia.
Qed.
Print Assumptions C52_left_shift_overflow.

Theorem C52_word_packing : forall T H v hi lo,
  0 < bits H -> bits T = 2 * bits H -> sg T = false -> sg H = false ->
  fits T v -> fits H hi -> fits H lo ->
  unpack_word T H (pack_word T hi lo) = (hi, lo) /\
  pack_word T (fst (unpack_word T H v)) (snd (unpack_word T H v)) = v.
Proof.
  intros T H v hi lo H1 H2 H3 H4 H5 H6 H7.
  split; [apply BitProofs.unpack_pack_word; assumption|].
  pose proof (BitProofs.pack_unpack_word T H v H1 H2 H3 H4 H5) as E.
  destruct (unpack_word T H v) as [h l]. tauto.
Qed.
Print Assumptions C52_word_packing.

Theorem C52_byteswap : forall v,
  (0 <= v < 2 ^ 16 -> byte_swap16 (byte_swap16 v) = v /\
     forall i, 0 <= i < 2 -> byte_at (byte_swap16 v) i = byte_at v (1 - i)) /\
  (0 <= v < 2 ^ 32 -> byte_swap32 (byte_swap32 v) = v /\
     forall i, 0 <= i < 4 -> byte_at (byte_swap32 v) i = byte_at v (3 - i)) /\
  (0 <= v < 2 ^ 64 -> byte_swap64 (byte_swap64 v) = v /\
     forall i, 0 <= i < 8 -> byte_at (byte_swap64 v) i = byte_at v (7 - i)).
Proof.
  intros v. split; [|split]; intros Hv; split.
  - exact (BitProofs.byte_swap16_inv v Hv).
  - intros i. exact (BitProofs.byte_swap16_byte v i Hv).
  - exact (BitProofs.byte_swap32_inv v Hv).
  - intros i. exact (BitProofs.byte_swap32_byte v i Hv).
  - exact (BitProofs.byte_swap64_inv v Hv).
  - intros i. exact (BitProofs.byte_swap64_byte v i Hv).
Qed.
Print Assumptions C52_byteswap.

Example C52_nontrivial :
  rotate_left i8 (-127) 1 = 3 /\ rotate_left u32 0x80000001 4 = 0x18 /\
  mask_left u8 3 = 31 /\ byte_swap32 0x01020304 = 0x04030201 /\
  set_left i8 0 0 true = -128 /\ unpack_word u64 u32 (5 * 2 ^ 32 + 7) = (5, 7).
Proof. vm_compute. repeat split. Qed.
