(** Loading, clamping, and the final reduction of poly1305. *)
From Coq Require Import PeanoNat.
From Verif Require Import Base Bytes BitProofs ShaModel PolySpec PolyModel PolyProofs PolyProofs2.

Lemma lor_low m k n : 0 <= n -> 0 <= m < 2 ^ n -> 0 <= k -> Z.lor m (k * 2 ^ n) = m + k * 2 ^ n.
Proof.
  intros Hn Hm Hk. rewrite <- Z.shiftl_mul_pow2 by exact Hn.
  assert (D : Z.land m (Z.shiftl k n) = 0).
  { apply Z.bits_inj'. intros i Hi. rewrite Z.land_spec, Z.bits_0. destruct (Z.ltb_spec i n).
    - rewrite Z.shiftl_spec_low by lia. apply andb_false_r.
    - rewrite (testbit_small m n i) by lia. reflexivity. }
  rewrite <- Z.lxor_lor by exact D. symmetry. apply Z.add_nocarry_lxor. exact D.
Qed.
Lemma word_at_eq o l : bytes_ok l -> (o + 4 <= length l)%nat -> word_at o l = (le_value l / 2 ^ (8 * Z.of_nat o)) mod 2 ^ 32.
Proof.
  intros Hb Ho. unfold word_at. rewrite <- (firstn_skipn o l) at 2. rewrite <- (firstn_skipn 4 (skipn o l)) at 2.
  rewrite !le_value_app. set (a := le_value (firstn o l)). set (b := le_value (firstn 4 (skipn o l))). set (c := le_value (skipn 4 (skipn o l))).
  assert (L1 : len (firstn o l) = Z.of_nat o) by (unfold len; rewrite firstn_length; lia).
  assert (L2 : len (firstn 4 (skipn o l)) = 4) by (unfold len; rewrite firstn_length, skipn_length; lia).
  assert (FO : bytes_ok (firstn o l) /\ bytes_ok (skipn o l)).
  { unfold bytes_ok in *. rewrite <- (firstn_skipn o l) in Hb. apply Forall_app in Hb. exact Hb. }
  destruct FO as [F1 F2].
  assert (F3 : bytes_ok (firstn 4 (skipn o l))).
  { unfold bytes_ok in *. rewrite <- (firstn_skipn 4 (skipn o l)) in F2. apply Forall_app in F2. apply F2. }
  pose proof (le_value_range _ F1) as Ra. rewrite L1 in Ra. fold a in Ra. pose proof (le_value_range _ F3) as Rb. rewrite L2 in Rb. fold b in Rb.
  rewrite L1, L2. replace (2 ^ (8 * Z.of_nat o)) with (256 ^ Z.of_nat o) by (change 256 with (2 ^ 8); rewrite <- Z.pow_mul_r by lia; reflexivity).
  change (2 ^ 32) with (256 ^ 4). rewrite Z.mul_comm, Z.div_add by (apply Z.pow_nonzero; lia). rewrite Z.div_small, Z.add_0_l by exact Ra.
  rewrite (Z.mul_comm (256 ^ 4)), Z.mod_add by lia. symmetry. apply Z.mod_small. exact Rb.
Qed.
(** A limb read through a 32 bit word. *)
Lemma limb_read x a s m : 0 <= x -> 0 <= a -> 0 <= s <= 6 -> 0 <= m < 2 ^ 26 ->
  Z.land (Z.shiftr ((x / 2 ^ a) mod 2 ^ 32) s) m = Z.land (x / 2 ^ (a + s)) m.
Proof.
  intros Hx Ha Hs Hm. rewrite <- !Z.shiftr_div_pow2 by lia. apply Z.bits_inj'. intros i Hi.
  rewrite !Z.land_spec. destruct (Z.ltb_spec i 26) as [Lt|Ge].
  - rewrite !Z.shiftr_spec by lia. rewrite Z.mod_pow2_bits_low by lia. rewrite Z.shiftr_spec by lia. f_equal. f_equal. lia.
  - rewrite (testbit_small m 26 i) by lia. rewrite !andb_false_r. reflexivity.
Qed.
Lemma land_split x c d : 0 <= x -> 0 <= c < 2 ^ 26 -> 0 <= d -> Z.land x (c + d * 2 ^ 26) = Z.land x c + Z.land (x / 2 ^ 26) d * 2 ^ 26.
Proof.
  intros Hx Hc Hd. rewrite <- lor_low by lia. rewrite <- lor_low.
  - apply Z.bits_inj'. intros i Hi. rewrite Z.land_spec, !Z.lor_spec, Z.land_spec.
    rewrite <- !Z.shiftl_mul_pow2, <- Z.shiftr_div_pow2 by lia. destruct (Z.ltb_spec i 26).
    + rewrite !Z.shiftl_spec_low by lia. rewrite !orb_false_r. reflexivity.
    + rewrite !Z.shiftl_spec by lia. rewrite Z.land_spec, Z.shiftr_spec by lia. replace (i - 26 + 26) with i by lia.
      rewrite (testbit_small c 26 i) by lia. rewrite !andb_false_r, !orb_false_l. reflexivity.
  - lia.
  - assert (N : 0 <= Z.land x c) by (apply Z.land_nonneg; lia). split; [exact N|].
    destruct (Z.eq_dec c 0) as [->|]; [rewrite Z.land_0_r; lia|].
    apply Z.le_lt_trans with c; [|lia]. 
    assert (E : c = Z.lor (Z.land x c) (Z.ldiff c x)) by (apply Z.bits_inj'; intros i Hi; rewrite Z.lor_spec, Z.land_spec, Z.ldiff_spec; destruct (Z.testbit x i), (Z.testbit c i); reflexivity).
    assert (E2 : c = Z.land x c + Z.ldiff c x).
    { rewrite E at 1. rewrite <- Z.lxor_lor; [symmetry; apply Z.add_nocarry_lxor|]; apply Z.bits_inj'; intros i Hi; rewrite !Z.land_spec, Z.ldiff_spec, Z.bits_0; destruct (Z.testbit x i), (Z.testbit c i); reflexivity. }
    assert (0 <= Z.ldiff c x) by (apply Z.ldiff_nonneg; lia). lia.
  - apply Z.land_nonneg. left. apply Z.div_pos; lia.
Qed.
Lemma load_ok b hibit : bytes_ok b -> length b = 16%nat -> hibit = high_bit \/ hibit = 0 -> loads hibit b.
Proof.
  intros Hb L Hh. unfold loads, num, load_limbs, value. cbn [l0 l1 l2 l3 l4].
  pose proof (le_value_range b Hb) as R. unfold len in R. rewrite L in R.
  rewrite !word_at_eq by (try exact Hb; lia). set (x := le_value b) in *.
  change (8 * Z.of_nat 0) with 0. change (8 * Z.of_nat 3) with 24. change (8 * Z.of_nat 6) with 48. change (8 * Z.of_nat 9) with 72. change (8 * Z.of_nat 12) with 96.
  rewrite !limb_read by (try (unfold limb_mask; change (2 ^ 26) with 67108864); lia).
  change (0 + 0) with 0. change (24 + 2) with 26. change (48 + 4) with 52. change (72 + 6) with 78.
  assert (NX : forall k, 0 <= x / 2 ^ k) by (intros k; destruct (Z.ltb_spec k 0); [rewrite Z.pow_neg_r by lia; rewrite Zdiv_0_r; lia|apply Z.div_pos; [lia|apply Z.pow_pos_nonneg; lia]]).
  rewrite !land_limb by apply NX.
  change (256 ^ Z.of_nat 16) with 340282366920938463463374607431768211456 in R.
  assert (X4 : Z.shiftr ((x / 2 ^ 96) mod 2 ^ 32) 8 = x / 2 ^ 104).
  { rewrite Z.mod_small.
    - rewrite Z.shiftr_div_pow2, Z.div_div by lia. reflexivity.
    - change (2 ^ 96) with 79228162514264337593543950336. change (2 ^ 32) with 4294967296. lia. }
  rewrite X4.
  assert (R4 : 0 <= x / 2 ^ 104 < 2 ^ 24) by (change (2 ^ 104) with 20282409603651670423947251286016; change (2 ^ 24) with 16777216; lia).
  assert (E4 : Z.lor (x / 2 ^ 104) hibit = x / 2 ^ 104 + hibit).
  { destruct Hh as [-> | ->]; [|rewrite Z.lor_0_r; lia]. change high_bit with (1 * 2 ^ 24). apply lor_low; lia. }
  rewrite E4. change (2 ^ 24) with 16777216 in R4.
  assert (H24 : 0 <= hibit <= 16777216) by (destruct Hh as [-> | ->]; unfold high_bit; lia).
  change (2 ^ 0) with 1. rewrite Z.div_1_r.
  assert (S1 : x / 2 ^ 52 = x / 2 ^ 26 / 67108864) by (rewrite Z.div_div by lia; reflexivity).
  assert (S2 : x / 2 ^ 78 = x / 2 ^ 52 / 67108864) by (rewrite Z.div_div by lia; reflexivity).
  assert (S3 : x / 2 ^ 104 = x / 2 ^ 78 / 67108864) by (rewrite Z.div_div by lia; reflexivity).
  change (x / 2 ^ 26) with (x / 67108864) in *. change (2 ^ 104) with (67108864 * 67108864 * 67108864 * 67108864).
  change (67108864 * 67108864 * 67108864 * 67108864) with (2 ^ 104) at 1.
  set (q1 := x / 67108864) in *. set (q2 := x / 2 ^ 52) in *. set (q3 := x / 2 ^ 78) in *. set (q4 := x / 2 ^ 104) in *.
  split.
  - unfold within. cbn [l0 l1 l2 l3 l4]. pose proof (Z.mod_pos_bound x 67108864). pose proof (Z.mod_pos_bound q1 67108864).
    pose proof (Z.mod_pos_bound q2 67108864). pose proof (Z.mod_pos_bound q3 67108864). lia.
  - pose proof (Z.div_mod x 67108864 ltac:(lia)) as M0. fold q1 in M0.
    pose proof (Z.div_mod q1 67108864 ltac:(lia)) as M1. rewrite <- S1 in M1.
    pose proof (Z.div_mod q2 67108864 ltac:(lia)) as M2. rewrite <- S2 in M2.
    pose proof (Z.div_mod q3 67108864 ltac:(lia)) as M3. rewrite <- S3 in M3. lia.
Qed.
Lemma clamp_ok key : bytes_ok key -> length key = 32%nat ->
  within 67108864 (make_r key) /\ value (make_r key) = clamp_r (le_value (firstn 16 key)).
Proof.
  intros Hb L. set (k := firstn 16 key).
  assert (Lk : length k = 16%nat) by (unfold k; rewrite firstn_length; lia).
  assert (Hk : bytes_ok k) by (unfold bytes_ok in *; rewrite <- (firstn_skipn 16 key) in Hb; apply Forall_app in Hb; apply Hb).
  assert (E : make_r key = make_r k).
  { unfold make_r. assert (W : forall o, (o + 4 <= 16)%nat -> word_at o key = word_at o k).
    { intros o Ho. unfold word_at, k. rewrite skipn_firstn_comm, firstn_firstn. rewrite Nat.min_l by lia. reflexivity. }
    rewrite !W by lia. reflexivity. }
  rewrite E. unfold make_r, value, clamp_r. cbn [l0 l1 l2 l3 l4].
  pose proof (le_value_range k Hk) as R. unfold len in R. rewrite Lk in R.
  rewrite !word_at_eq by (try exact Hk; lia). set (x := le_value k) in *.
  change (8 * Z.of_nat 0) with 0. change (8 * Z.of_nat 3) with 24. change (8 * Z.of_nat 6) with 48. change (8 * Z.of_nat 9) with 72. change (8 * Z.of_nat 12) with 96.
  rewrite !limb_read by (change (2 ^ 26) with 67108864; lia).
  assert (X4 : Z.land (Z.shiftr ((x / 2 ^ 96) mod 2 ^ 32) 8) 0x000fffff = Z.land (x / 2 ^ 104) 0x000fffff).
  { change (256 ^ Z.of_nat 16) with 340282366920938463463374607431768211456 in R. rewrite Z.mod_small.
    - rewrite Z.shiftr_div_pow2, Z.div_div by lia. reflexivity.
    - change (2 ^ 96) with 79228162514264337593543950336. change (2 ^ 32) with 4294967296. lia. }
  rewrite X4. change (0 + 0) with 0. change (24 + 2) with 26. change (48 + 4) with 52. change (72 + 6) with 78.
  assert (NX : forall k, 0 <= k -> 0 <= x / 2 ^ k) by (intros j Hj; apply Z.div_pos; [lia|apply Z.pow_pos_nonneg; lia]).
  assert (NM : forall y m, 0 <= y -> 0 <= m < 67108864 -> 0 <= Z.land y m < 67108864).
  { intros y m Hy Hm. split; [apply Z.land_nonneg; lia|]. rewrite <- (Z.mod_small m (2 ^ 26)) by (change (2 ^ 26) with 67108864; lia).
    rewrite <- Z.land_ones by lia. rewrite Z.land_assoc. rewrite Z.land_ones by lia. apply Z.mod_pos_bound. reflexivity. }
  split.
  - unfold within. cbn [l0 l1 l2 l3 l4]. repeat apply conj; try (apply NM; [apply NX; lia|lia]).
  - replace 0x0ffffffc0ffffffc0ffffffc0fffffff with (0x03ffffff + (0x03ffff03 + (0x03ffc0ff + (0x03f03fff + 0x000fffff * 2 ^ 26) * 2 ^ 26) * 2 ^ 26) * 2 ^ 26) by reflexivity.
    rewrite (land_split x) by (change (2 ^ 26) with 67108864; lia).
    rewrite (land_split (x / 2 ^ 26)) by (try apply NX; change (2 ^ 26) with 67108864; lia).
    rewrite (Z.div_div x (2 ^ 26)) by lia. change (2 ^ 26 * 2 ^ 26) with (2 ^ 52).
    rewrite (land_split (x / 2 ^ 52)) by (try apply NX; change (2 ^ 26) with 67108864; lia).
    rewrite (Z.div_div x (2 ^ 52)) by lia. change (2 ^ 52 * 2 ^ 26) with (2 ^ 78).
    rewrite (land_split (x / 2 ^ 78)) by (try apply NX; change (2 ^ 26) with 67108864; lia).
    rewrite (Z.div_div x (2 ^ 78)) by lia. change (2 ^ 78 * 2 ^ 26) with (2 ^ 104).
    change (x / 2 ^ 0) with (x / 1). rewrite Z.div_1_r. change (2 ^ 26) with 67108864. ring.
Qed.
