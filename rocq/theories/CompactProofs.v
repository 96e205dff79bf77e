From Verif Require Import Base Bytes MathModel MathSpec MathProofs MathProofs2 ChainModel CompactModel CompactSpec.

Lemma lor_add k m : 0 <= m < 2 ^ 24 -> 0 <= k -> Z.lor (Z.shiftl k 24) m = k * 2 ^ 24 + m.
Proof.
  intros Hm Hk. rewrite <- (Z.shiftl_mul_pow2 k 24) by lia.
  assert (L : Z.land (Z.shiftl k 24) m = 0).
  { apply Z.bits_inj'. intros i Hi. rewrite Z.land_spec, Z.bits_0. destruct (Z.lt_ge_cases i 24).
    - rewrite Z.shiftl_spec_low by lia. reflexivity.
    - assert (T : Z.testbit m i = false). { destruct (Z.eq_dec m 0) as [->|]; [apply Z.bits_0|]. apply Z.bits_above_log2; [lia|]. assert (Z.log2 m < 24) by (apply Z.log2_lt_pow2; lia). lia. }
      rewrite T. apply andb_false_r. }
  rewrite Z.add_nocarry_lxor by exact L. rewrite Z.lxor_lor by exact L. reflexivity.
Qed.
Lemma wrap_u32_small z : 0 <= z < 2 ^ 32 -> wrap u32 z = z.
Proof. intros H. apply wrap_fits; [reflexivity|]. unfold fits. cbn [imin imax u32 sg bits]. lia. Qed.
Lemma wrap_u8_small z : 0 <= z < 256 -> wrap u8 z = z.
Proof. intros H. apply wrap_fits; [reflexivity|]. unfold fits. cbn [imin imax u8 sg bits]. lia. Qed.
Lemma wrap_u256_small z : 0 <= z < 2 ^ 256 -> wrap u256 z = z.
Proof. intros H. apply wrap_fits; [reflexivity|]. unfold fits, imin, imax. cbn [u256 sg bits]. lia. Qed.
Lemma pow256 n : 0 <= n -> 256 ^ n = 2 ^ (8 * n).
Proof. intros H. rewrite Z.pow_mul_r by lia. reflexivity. Qed.
Lemma split24 e m : 0 <= m < 2 ^ 24 -> Z.shiftr (e * 2 ^ 24 + m) 24 = e /\ Z.land (e * 2 ^ 24 + m) (Z.ones 24) = m.
Proof.
  intros H. rewrite Z.shiftr_div_pow2, Z.land_ones by lia. split.
  - rewrite Z.div_add_l, Z.div_small by lia. lia.
  - rewrite Z.add_comm, Z.mod_add, Z.mod_small by lia. reflexivity.
Qed.
Lemma testbit23 e m : 0 <= m < 2 ^ 24 -> Z.testbit (e * 2 ^ 24 + m) 23 = (2 ^ 23 <=? m).
Proof.
  intros H. assert (T : Z.testbit (e * 2 ^ 24 + m) 23 = Z.testbit m 23).
  { rewrite <- (Z.mod_pow2_bits_low _ 24 23) by lia. rewrite Z.add_comm, Z.mod_add, Z.mod_small by lia. reflexivity. }
  rewrite T. destruct (Z.leb_spec (2 ^ 23) m).
  - rewrite Z.testbit_true by lia. replace (m / 2 ^ 23) with 1 by (apply (Z.div_unique _ _ _ (m - 2 ^ 23)); lia). reflexivity.
  - apply Z.testbit_false; [lia|]. rewrite Z.div_small by lia. reflexivity.
Qed.

(** ** expand *)
Definition b256 (e m : Z) : Z := if e <=? 3 then m / 256 ^ (3 - e) else if e <=? 32 then m * 256 ^ (e - 3) else 0.
Lemma base256e_expand_ok e m : 0 <= e < 256 -> 0 <= m < 2 ^ 24 -> base256e_expand (e * 2 ^ 24 + m) = b256 e m.
Proof.
  intros He Hm. unfold base256e_expand, b256. destruct (split24 e m Hm) as [-> ->]. cbv zeta. rewrite wrap_u32_small by lia.
  destruct (Z.ltb_spec (e * 8) 0); [lia|]. cbn [orb]. destruct (Z.ltb_spec 256 (e * 8)).
  - destruct (Z.leb_spec e 3); [lia|]. destruct (Z.leb_spec e 32); [lia|reflexivity].
  - destruct (Z.ltb_spec 24 (e * 8)).
    + destruct (Z.leb_spec e 3); [lia|]. destruct (Z.leb_spec e 32); [|lia].
      rewrite Z.shiftl_mul_pow2, pow256 by lia. replace (8 * (e - 3)) with (e * 8 - 24) by lia. apply wrap_u256_small.
      assert (0 < 2 ^ (e * 8 - 24)) by (apply Z.pow_pos_nonneg; lia).
      assert (2 ^ (e * 8 - 24) <= 2 ^ 232) by (apply Z.pow_le_mono_r; lia).
      split; [nia|]. apply (Z.lt_le_trans _ (2 ^ 24 * 2 ^ 232)); [nia|]. vm_compute. discriminate.
    + destruct (Z.leb_spec e 3); [|lia]. rewrite Z.shiftr_div_pow2, pow256 by lia. f_equal. f_equal. lia.
Qed.
Lemma two_byte_negated m : 0 <= m < 2 ^ 24 -> is_negated u32 m && (byte_width u32 m =? 2) = (0x8000 <=? m) && (m <=? 0xffff).
Proof.
  intros Hm. unfold is_negated, byte_width, bit_width. cbn [sg u32 andb].
  destruct (Z.eqb_spec m 0) as [->|N]; [reflexivity|]. cbn [negb andb].
  unfold floored_log256. cbn [bits u32]. destruct (Z.ltb_spec m 1); [lia|].
  replace (32 =? 64) with false by reflexivity. replace (32 <=? 32) with true by reflexivity. replace (16 <=? 32) with true by reflexivity. cbn [andb].
  unfold floored_log2. destruct (Z.ltb_spec m 1); [lia|].
  pose proof (Z.log2_spec m ltac:(lia)) as L. pose proof (Z.log2_nonneg m) as L0.
  assert (L24 : Z.log2 m < 24) by (apply Z.log2_lt_pow2; lia).
  destruct (Z.ltb_spec 0xffffffff m); [lia|]. destruct (Z.ltb_spec 0xffffff m); [lia|]. destruct (Z.ltb_spec 0xffff m).
  { replace (2 + 1 =? 2) with false by reflexivity. rewrite andb_false_r. destruct (Z.leb_spec m 0xffff); [lia|]. rewrite andb_false_r. reflexivity. }
  destruct (Z.ltb_spec 0xff m).
  2: { replace (0 + 1 =? 2) with false by reflexivity. rewrite andb_false_r. destruct (Z.leb_spec 0x8000 m); [lia|]. reflexivity. }
  replace (1 + 1 =? 2) with true by reflexivity. rewrite andb_true_r. destruct (Z.leb_spec m 0xffff); [|lia]. rewrite andb_true_r.
  assert (L8 : 8 <= Z.log2 m) by (apply Z.log2_le_pow2; lia). assert (L16 : Z.log2 m < 16) by (apply Z.log2_lt_pow2; lia).
  unfold std_bit_width. destruct (Z.eqb_spec m 0); [lia|].
  destruct (Z.leb_spec 0x8000 m).
  - assert (15 <= Z.log2 m) by (apply Z.log2_le_pow2; lia). replace (Z.log2 m) with 15 by lia. reflexivity.
  - assert (Z.log2 m < 15) by (apply Z.log2_lt_pow2; lia).
    replace (Z.log2 m + 1 - 1 + 1) with ((Z.log2 m - 7) + 1 * 8) by lia. rewrite Z.mod_add, Z.mod_small by lia.
    destruct (Z.eqb_spec (Z.log2 m - 7 + 1) 1); [lia|reflexivity].
Qed.
Lemma expand_ok e m : 0 <= e < 256 -> 0 <= m < 2 ^ 24 ->
  compact_expand (e * 2 ^ 24 + m) =
    if 2 ^ 23 <=? m then 0
    else if (e =? 33) && ((0x8000 <=? m) && (m <=? 0xffff)) then m * 256 ^ 30 else b256 e m.
Proof.
  intros He Hm. unfold compact_expand, to_compact. destruct (split24 e m Hm) as [-> ->]. cbn [negative exponent mantissa]. rewrite testbit23 by exact Hm.
  rewrite wrap_u8_small by lia. destruct (2 ^ 23 <=? m) eqn:E23; [reflexivity|]. change (32 + 1) with 33. change (3 - 1) with 2.
  rewrite <- andb_assoc, two_byte_negated by exact Hm. destruct ((e =? 33) && ((32768 <=? m) && (m <=? 65535))) eqn:Ec; unfold from_compact; cbn [exponent mantissa].
  - rewrite wrap_u8_small by lia. assert (e = 33) by lia. subst e. change (33 - 1) with 32.
    rewrite Z.shiftl_mul_pow2 with (a := m) by lia. rewrite (wrap_u32_small (m * 2 ^ 8)) by lia.
    rewrite wrap_u32_small by (vm_compute; split; [discriminate|reflexivity]). rewrite lor_add by lia. rewrite base256e_expand_ok by lia.
    unfold b256. change (32 <=? 3) with false. change (32 <=? 32) with true. cbn [andb]. change (2 ^ 8) with (256 ^ 1). rewrite <- Z.mul_assoc, <- Z.pow_add_r by lia. reflexivity.
  - rewrite wrap_u32_small by (rewrite Z.shiftl_mul_pow2 by lia; lia). rewrite lor_add by lia. apply base256e_expand_ok; assumption.
Qed.
Lemma split_bits c : 0 <= c < 2 ^ 32 -> exists e m, 0 <= e < 256 /\ 0 <= m < 2 ^ 24 /\ c = e * 2 ^ 24 + m.
Proof.
  intros H. exists (c / 2 ^ 24), (c mod 2 ^ 24). pose proof (Z.mod_pos_bound c (2 ^ 24) ltac:(lia)). pose proof (Z.div_mod c (2 ^ 24) ltac:(lia)).
  split; [|split; [assumption|lia]]. split; [apply Z.div_pos; lia|]. apply Z.div_lt_upper_bound; lia.
Qed.
Lemma spec_parts e m : 0 <= e -> 0 <= m < 2 ^ 24 ->
  c_size (e * 2 ^ 24 + m) = e /\ c_sign (e * 2 ^ 24 + m) = (2 ^ 23 <=? m) /\ (m < 2 ^ 23 -> c_word (e * 2 ^ 24 + m) = m).
Proof.
  intros He Hm. unfold c_size, c_sign, c_word. rewrite testbit23 by exact Hm. split; [rewrite Z.div_add_l, Z.div_small by lia; lia|]. split; [reflexivity|].
  intros. replace (e * 2 ^ 24 + m) with (m + (2 * e) * 2 ^ 23) by lia. rewrite Z.mod_add, Z.mod_small by lia. reflexivity.
Qed.

(** ** compress *)
Lemma log256_cases n : 0 < n < 2 ^ 256 ->
  let k := ceilinged_log256_uintx n in 0 <= k <= 32 /\ (n = 256 ^ k \/ (1 <= k /\ 256 ^ (k - 1) < n < 256 ^ k)).
Proof.
  intros H k. destruct (ceilinged_log256_uintx_ok n ltac:(lia)) as (K0 & K1 & K2). fold k in K0, K1, K2.
  assert (K32 : k <= 32).
  { destruct (Z.le_gt_cases k 32); [assumption|]. specialize (K2 ltac:(lia)). assert (256 ^ 32 <= 256 ^ (k - 1)) by (apply Z.pow_le_mono_r; lia). change (256 ^ 32) with (2 ^ 256) in *. lia. }
  split; [lia|]. destruct (Z.eq_dec n (256 ^ k)); [left; assumption|right]. destruct (Z.eq_dec k 0) as [E|E].
  - rewrite E in *. change (256 ^ 0) with 1 in *. lia.
  - split; [lia|]. split; [apply K2; lia|lia].
Qed.
Definition mant (k n : Z) : Z := if k <=? 3 then n * 256 ^ (3 - k) else n / 256 ^ (k - 3).
Lemma mant_eq k n : 0 < n < 2 ^ 256 -> 0 <= k <= 32 -> n <= 256 ^ k ->
  wrap u32 (if 24 <? k * 8 then Z.shiftr n (k * 8 - 24) else wrap u256 (Z.shiftl n (24 - k * 8))) = mant k n /\ 0 <= mant k n <= 2 ^ 24.
Proof.
  intros Hn Hk HL. unfold mant. destruct (Z.leb_spec k 3).
  - destruct (Z.ltb_spec 24 (k * 8)); [lia|]. rewrite Z.shiftl_mul_pow2 by lia. rewrite pow256 by lia. replace (8 * (3 - k)) with (24 - k * 8) by lia.
    assert (P : 0 < 2 ^ (24 - k * 8)) by (apply Z.pow_pos_nonneg; lia).
    assert (B : n * 2 ^ (24 - k * 8) <= 2 ^ 24).
    { replace (2 ^ 24) with (2 ^ (k * 8) * 2 ^ (24 - k * 8)) by (rewrite <- Z.pow_add_r by lia; f_equal; lia). rewrite pow256 in HL by lia. replace (8 * k) with (k * 8) in HL by lia. nia. }
    rewrite wrap_u256_small by lia. rewrite wrap_u32_small by nia. split; [reflexivity|nia].
  - destruct (Z.ltb_spec 24 (k * 8)); [|lia]. rewrite Z.shiftr_div_pow2 by lia. rewrite pow256 by lia. replace (8 * (k - 3)) with (k * 8 - 24) by lia.
    assert (P : 0 < 2 ^ (k * 8 - 24)) by (apply Z.pow_pos_nonneg; lia).
    assert (B : 0 <= n / 2 ^ (k * 8 - 24) <= 2 ^ 24).
    { split; [apply Z.div_pos; lia|]. rewrite pow256 in HL by lia.
      replace (8 * k) with (24 + (k * 8 - 24)) in HL by lia. rewrite Z.pow_add_r in HL by lia.
      apply (Z.le_trans _ ((2 ^ 24 * 2 ^ (k * 8 - 24)) / 2 ^ (k * 8 - 24))); [apply Z.div_le_mono; lia|]. rewrite Z.div_mul by lia. lia. }
    rewrite wrap_u32_small by lia. split; [reflexivity|exact B].
Qed.
Lemma mant_range k n : 1 <= k <= 32 -> 256 ^ (k - 1) < n < 256 ^ k -> 2 ^ 16 <= mant k n < 2 ^ 24.
Proof.
  intros Hk Hn. unfold mant. destruct (Z.leb_spec k 3).
  - assert (P : 0 < 256 ^ (3 - k)) by (apply Z.pow_pos_nonneg; lia).
    assert (A : 256 ^ (k - 1) * 256 ^ (3 - k) = 2 ^ 16) by (rewrite <- Z.pow_add_r by lia; replace (k - 1 + (3 - k)) with 2 by lia; reflexivity).
    assert (B : 256 ^ k * 256 ^ (3 - k) = 2 ^ 24) by (rewrite <- Z.pow_add_r by lia; replace (k + (3 - k)) with 3 by lia; reflexivity). nia.
  - assert (P : 0 < 256 ^ (k - 3)) by (apply Z.pow_pos_nonneg; lia).
    assert (A : 256 ^ (k - 1) = 2 ^ 16 * 256 ^ (k - 3)) by (replace (k - 1) with (2 + (k - 3)) by lia; rewrite Z.pow_add_r by lia; reflexivity).
    assert (B : 256 ^ k = 2 ^ 24 * 256 ^ (k - 3)) by (replace k with (3 + (k - 3)) at 1 by lia; rewrite Z.pow_add_r by lia; reflexivity).
    split; [apply Z.div_le_lower_bound; lia|apply Z.div_lt_upper_bound; lia].
Qed.
Lemma mant_power k : 0 <= k -> mant k (256 ^ k) = 2 ^ 24.
Proof.
  intros Hk. unfold mant. destruct (Z.leb_spec k 3).
  - rewrite <- Z.pow_add_r by lia. replace (k + (3 - k)) with 3 by lia. reflexivity.
  - replace k with (3 + (k - 3)) at 1 by lia. rewrite Z.pow_add_r by lia. rewrite Z.div_mul by (apply Z.pow_nonzero; lia). reflexivity.
Qed.
Lemma base256e_compress_ok n k : 0 < n < 2 ^ 256 -> 1 <= k <= 32 -> 256 ^ (k - 1) < n < 256 ^ k -> ceilinged_log256_uintx n = k ->
  base256e_compress n = k * 2 ^ 24 + mant k n.
Proof.
  intros Hn Hk HL Ek. unfold base256e_compress. destruct (Z.eqb_spec n 0); [lia|]. rewrite Ek. cbv zeta.
  destruct (mant_eq k n Hn ltac:(lia) ltac:(lia)) as [-> _]. rewrite Z.div_mul by lia. rewrite (wrap_u32_small k) by lia.
  rewrite wrap_u32_small by (rewrite Z.shiftl_mul_pow2 by lia; lia). apply lor_add; [|lia]. pose proof (mant_range k n Hk HL). lia.
Qed.
(** The exponent and mantissa of a compressed number (not a power of 256). *)
Definition cexp (k n : Z) : Z := if 2 ^ 23 <=? mant k n then k + 1 else k.
Definition cman (k n : Z) : Z := if 2 ^ 23 <=? mant k n then mant k n / 256 else mant k n.
Lemma cman_range k n : 1 <= k <= 32 -> 256 ^ (k - 1) < n < 256 ^ k -> 2 ^ 15 <= cman k n < 2 ^ 23 /\ (2 ^ 23 <= mant k n -> cman k n < 2 ^ 16).
Proof.
  intros Hk Hn. pose proof (mant_range k n Hk Hn) as R. unfold cman. destruct (Z.leb_spec (2 ^ 23) (mant k n)).
  - assert (2 ^ 15 <= mant k n / 256) by (apply Z.div_le_lower_bound; lia). assert (mant k n / 256 < 2 ^ 16) by (apply Z.div_lt_upper_bound; lia). lia.
  - lia.
Qed.
Lemma compress_ok n k : 0 < n < 2 ^ 256 -> 1 <= k <= 32 -> 256 ^ (k - 1) < n < 256 ^ k -> ceilinged_log256_uintx n = k ->
  compact_compress n = cexp k n * 2 ^ 24 + cman k n.
Proof.
  intros Hn Hk HL Ek. pose proof (mant_range k n Hk HL) as R. pose proof (cman_range k n Hk HL) as [C1 C2]. unfold compact_compress. rewrite (base256e_compress_ok n k Hn Hk HL Ek).
  unfold to_compact. destruct (split24 k (mant k n) ltac:(lia)) as [-> ->]. rewrite testbit23 by lia. rewrite wrap_u8_small by lia. cbn [negative exponent mantissa].
  unfold cexp, cman in *. destruct (2 ^ 23 <=? mant k n) eqn:E; unfold from_compact; cbn [exponent mantissa].
  - rewrite wrap_u8_small by lia. rewrite wrap_u32_small by (rewrite Z.shiftl_mul_pow2 by lia; lia).
    rewrite Z.shiftr_div_pow2 by lia. change (2 ^ 8) with 256. apply lor_add; lia.
  - rewrite wrap_u32_small by (rewrite Z.shiftl_mul_pow2 by lia; lia). apply lor_add; lia.
Qed.
Lemma compress_power k : 0 <= k < 32 -> compact_compress (256 ^ k) = Z.lor k 1 * 2 ^ 24.
Proof.
  intros Hk. assert (H : In k (map Z.of_nat (seq 0 32))).
  { apply in_map_iff. exists (Z.to_nat k). split; [lia|]. apply in_seq. lia. }
  revert H. generalize k. apply Forall_forall. repeat (constructor; [vm_compute; reflexivity|]). constructor.
Qed.
Lemma byte_length_ok n k : 1 <= k -> 256 ^ (k - 1) <= n < 256 ^ k -> byte_length n = k.
Proof.
  intros Hk Hn. assert (0 < 256 ^ (k - 1)) by (apply Z.pow_pos_nonneg; lia). unfold byte_length. destruct (Z.eqb_spec n 0); [lia|].
  rewrite !pow256 in Hn by lia.
  assert (8 * (k - 1) <= Z.log2 n) by (apply Z.log2_le_pow2; lia). assert (Z.log2 n < 8 * k) by (apply Z.log2_lt_pow2; lia).
  assert (Z.log2 n / 8 = k - 1) by (symmetry; apply (Z.div_unique _ _ _ (Z.log2 n - 8 * (k - 1))); lia). lia.
Qed.
