(** The tag: carry, selection, packing and the pad. *)
From Coq Require Import PeanoNat.
From Verif Require Import Base Bytes BitProofs ShaModel PolySpec PolyModel PolyProofs PolyProofs2 PolyProofs3.

Notation B26 := 67108864 (only parsing).
Notation W32 := 4294967296 (only parsing).
Lemma add32_fits a b : 0 <= a + b < W32 -> add32 a b = a + b.
Proof. intros H. apply Z.mod_small. exact H. Qed.
Lemma carry_ok h : tight h -> cong (value (carry_all h)) (value h) /\ within B26 (carry_all h).
Proof.
  destruct h as [x0 x1 x2 x3 x4]. unfold tight. cbn [l0 l1 l2 l3 l4]. intros (H0 & H1 & H2 & H3 & H4).
  unfold carry_all. cbn [l0 l1 l2 l3 l4]. rewrite !shr26.
  pose proof (Z.div_mod x1 B26 ltac:(lia)) as M1. pose proof (Z.mod_pos_bound x1 B26 ltac:(lia)) as N1. set (c1 := x1 / B26) in *.
  rewrite (land_limb x1) by lia. set (y1 := x1 mod B26) in *.
  rewrite (add32_fits x2) by lia. set (z2 := x2 + c1). rewrite (land_limb z2) by (unfold z2; lia).
  pose proof (Z.div_mod z2 B26 ltac:(lia)) as M2. pose proof (Z.mod_pos_bound z2 B26 ltac:(lia)) as N2. set (c2 := z2 / B26) in *. set (y2 := z2 mod B26) in *.
  rewrite (add32_fits x3) by (unfold z2 in *; lia). set (z3 := x3 + c2). rewrite (land_limb z3) by (unfold z3, z2 in *; lia).
  pose proof (Z.div_mod z3 B26 ltac:(lia)) as M3. pose proof (Z.mod_pos_bound z3 B26 ltac:(lia)) as N3. set (c3 := z3 / B26) in *. set (y3 := z3 mod B26) in *.
  rewrite (add32_fits x4) by (unfold z3, z2 in *; lia). set (z4 := x4 + c3). rewrite (land_limb z4) by (unfold z4, z3, z2 in *; lia).
  pose proof (Z.div_mod z4 B26 ltac:(lia)) as M4. pose proof (Z.mod_pos_bound z4 B26 ltac:(lia)) as N4. set (c4 := z4 / B26) in *. set (y4 := z4 mod B26) in *.
  assert (K4 : 0 <= c4 <= 1) by (unfold z4, z3, z2 in *; lia).
  rewrite (Z.mod_small (c4 * 5)) by (change (2 ^ 32) with W32; lia).
  rewrite (add32_fits x0) by lia. set (z0 := x0 + c4 * 5). rewrite (land_limb z0) by (unfold z0; lia).
  pose proof (Z.div_mod z0 B26 ltac:(lia)) as M0. pose proof (Z.mod_pos_bound z0 B26 ltac:(lia)) as N0. set (c0 := z0 / B26) in *. set (y0 := z0 mod B26) in *.
  clearbody c0 c1 c2 c3 c4 y0 y1 y2 y3 y4. unfold z4, z3, z2, z0 in *. clear z4 z3 z2 z0.
  assert (KO : c4 = 0 \/ (c1 = 1 /\ c4 = 1)) by lia.
  assert (KC : c0 = 0 \/ y1 < 8192) by lia.
  rewrite (add32_fits y1) by lia.
  split; [|unfold within; cbn [l0 l1 l2 l3 l4]; lia].
  unfold value. cbn [l0 l1 l2 l3 l4]. exists (- c4). rewrite P_literal. lia.
Qed.
Lemma select_ok h : within B26 h -> value (select_p h) = value h mod P1305 /\ within B26 (select_p h).
Proof.
  destruct h as [x0 x1 x2 x3 x4]. unfold within. cbn [l0 l1 l2 l3 l4]. intros (H0 & H1 & H2 & H3 & H4).
  unfold select_p. cbn [l0 l1 l2 l3 l4]. rewrite !shr26.
  rewrite (add32_fits x0) by lia. set (z0 := x0 + 5). rewrite (land_limb z0) by (unfold z0; lia).
  pose proof (Z.div_mod z0 B26 ltac:(lia)) as M0. pose proof (Z.mod_pos_bound z0 B26 ltac:(lia)) as N0. set (c0 := z0 / B26) in *. set (y0 := z0 mod B26) in *.
  rewrite (add32_fits x1) by (unfold z0 in *; lia). set (z1 := x1 + c0). rewrite (land_limb z1) by (unfold z1, z0 in *; lia).
  pose proof (Z.div_mod z1 B26 ltac:(lia)) as M1. pose proof (Z.mod_pos_bound z1 B26 ltac:(lia)) as N1. set (c1 := z1 / B26) in *. set (y1 := z1 mod B26) in *.
  rewrite (add32_fits x2) by (unfold z1, z0 in *; lia). set (z2 := x2 + c1). rewrite (land_limb z2) by (unfold z2, z1, z0 in *; lia).
  pose proof (Z.div_mod z2 B26 ltac:(lia)) as M2. pose proof (Z.mod_pos_bound z2 B26 ltac:(lia)) as N2. set (c2 := z2 / B26) in *. set (y2 := z2 mod B26) in *.
  rewrite (add32_fits x3) by (unfold z2, z1, z0 in *; lia). set (z3 := x3 + c2). rewrite (land_limb z3) by (unfold z3, z2, z1, z0 in *; lia).
  pose proof (Z.div_mod z3 B26 ltac:(lia)) as M3. pose proof (Z.mod_pos_bound z3 B26 ltac:(lia)) as N3. set (c3 := z3 / B26) in *. set (y3 := z3 mod B26) in *.
  assert (K3 : 0 <= c3 <= 1) by (unfold z3, z2, z1, z0 in *; lia).
  clearbody c0 c1 c2 c3 y0 y1 y2 y3. unfold z3, z2, z1, z0 in *. clear z3 z2 z1 z0.
  assert (LA : forall x, 0 <= x < W32 -> Z.land x 4294967295 = x).
  { intros x Hx. change 4294967295 with (Z.ones 32). rewrite Z.land_ones by lia. apply Z.mod_small. exact Hx. }
  change (2 ^ 32) with W32.
  destruct (Z.ltb_spec (x4 + c3) B26) as [Lt|Ge].
  - assert (E : (x4 + c3 - 67108864) mod W32 = x4 + c3 - 67108864 + W32).
    { rewrite <- (Z.mod_add _ 1) by lia. apply Z.mod_small. lia. }
    rewrite E. assert (Sh : Z.shiftr (x4 + c3 - 67108864 + W32) 31 = 1).
    { rewrite Z.shiftr_div_pow2 by lia. change (2 ^ 31) with 2147483648. lia. }
    rewrite Sh. change ((1 - 1) mod W32) with 0. change (Z.lxor 0 4294967295) with 4294967295.
    rewrite !Z.land_0_r, !Z.lor_0_r, !LA by lia. split; [|unfold within; cbn [l0 l1 l2 l3 l4]; lia].
    unfold value. cbn [l0 l1 l2 l3 l4]. symmetry. apply Z.mod_small. rewrite P_literal. lia.
  - assert (E : (x4 + c3 - 67108864) mod W32 = 0) by (replace (x4 + c3 - 67108864) with 0 by lia; reflexivity).
    rewrite E. change (Z.shiftr 0 31) with 0. change ((0 - 1) mod W32) with 4294967295. change (Z.lxor 4294967295 4294967295) with 0.
    rewrite !Z.land_0_r, !Z.lor_0_l, !LA by lia. split; [|unfold within; cbn [l0 l1 l2 l3 l4]; lia].
    unfold value. cbn [l0 l1 l2 l3 l4].
    set (V := x0 + B26 * (x1 + B26 * (x2 + B26 * (x3 + B26 * x4)))).
    replace V with (y0 + 67108864 * (y1 + 67108864 * (y2 + 67108864 * (y3 + 67108864 * 0))) + 1 * P1305) by (unfold V; rewrite P_literal; lia).
    rewrite Z.mod_add by discriminate. symmetry. apply Z.mod_small. rewrite P_literal. lia.
Qed.
Definition quad (w : list Z) : Z := match w with [a; b; c; d] => a + W32 * (b + W32 * (c + W32 * d)) | _ => 0 end.
Lemma pack_ok h : within B26 h -> exists a b c d, pack h = [a; b; c; d] /\ 0 <= a < W32 /\ 0 <= b < W32 /\ 0 <= c < W32 /\ 0 <= d < W32 /\
  a + W32 * (b + W32 * (c + W32 * d)) = value h mod 2 ^ 128.
Proof.
  destruct h as [x0 x1 x2 x3 x4]. unfold within. cbn [l0 l1 l2 l3 l4]. intros (H0 & H1 & H2 & H3 & H4). unfold pack. cbn [l0 l1 l2 l3 l4].
  assert (SH : forall x k, 0 <= k <= 32 -> 0 <= x -> shl32 x k = (x mod 2 ^ (32 - k)) * 2 ^ k).
  { intros x k Hk Hx. unfold shl32. rewrite Z.shiftl_mul_pow2 by lia. replace (2 ^ 32) with (2 ^ (32 - k) * 2 ^ k) by (rewrite <- Z.pow_add_r by lia; f_equal; lia).
    rewrite Z.mul_mod_distr_r by (apply Z.pow_nonzero; lia). reflexivity. }
  rewrite !SH by lia. rewrite !Z.shiftr_div_pow2 by lia.
  change (32 - 26) with 6. change (32 - 20) with 12. change (32 - 14) with 18. change (32 - 8) with 24.
  assert (PM : forall x k, 0 <= k -> 0 <= x mod 2 ^ k < 2 ^ k) by (intros; apply Z.mod_pos_bound; apply Z.pow_pos_nonneg; lia).
  pose proof (PM x1 6 ltac:(lia)) as P1. pose proof (PM x2 12 ltac:(lia)) as P2. pose proof (PM x3 18 ltac:(lia)) as P3. pose proof (PM x4 24 ltac:(lia)) as P4.
  rewrite !lor_low by (try lia; change (2 ^ 26) with 67108864; change (2 ^ 20) with 1048576; change (2 ^ 14) with 16384; change (2 ^ 8) with 256;
    change (2 ^ 0) with 1; change (2 ^ 6) with 64; change (2 ^ 12) with 4096; change (2 ^ 18) with 262144; lia).
  do 4 eexists. split; [reflexivity|].
  change (2 ^ 26) with 67108864. change (2 ^ 20) with 1048576. change (2 ^ 14) with 16384. change (2 ^ 8) with 256. change (2 ^ 0) with 1.
  change (2 ^ 6) with 64 in *. change (2 ^ 12) with 4096 in *. change (2 ^ 18) with 262144 in *. change (2 ^ 24) with 16777216 in *.
  pose proof (Z.div_mod x1 64 ltac:(lia)). pose proof (Z.div_mod x2 4096 ltac:(lia)). pose proof (Z.div_mod x3 262144 ltac:(lia)).
  pose proof (Z.div_mod x4 16777216 ltac:(lia)). rewrite Z.div_1_r.
  set (q1 := x1 / 64) in *. set (m1 := x1 mod 64) in *. set (q2 := x2 / 4096) in *. set (m2 := x2 mod 4096) in *.
  set (q3 := x3 / 262144) in *. set (m3 := x3 mod 262144) in *. set (q4 := x4 / 16777216) in *. set (m4 := x4 mod 16777216) in *.
  clearbody q1 m1 q2 m2 q3 m3 q4 m4. clear PM SH.
  repeat split; try lia.
  unfold value. cbn [l0 l1 l2 l3 l4]. change (2 ^ 128) with 340282366920938463463374607431768211456.
  apply Z.mod_unique with q4; lia.
Qed.
Lemma pad_ok key : bytes_ok key -> length key = 32%nat -> exists a b c d, make_pad key = [a; b; c; d] /\ 0 <= a < W32 /\ 0 <= b < W32 /\ 0 <= c < W32 /\ 0 <= d < W32 /\
  a + W32 * (b + W32 * (c + W32 * d)) = le_value (firstn 16 (skipn 16 key)).
Proof.
  intros Hb L. unfold make_pad. do 4 eexists. split; [reflexivity|].
  assert (R : forall o, (o + 4 <= 32)%nat -> 0 <= word_at o key < W32).
  { intros o Ho. rewrite word_at_eq by (try exact Hb; lia). apply Z.mod_pos_bound. lia. }
  repeat apply conj; try (apply R; lia).
  unfold word_at. rewrite <- (firstn_skipn 4 (firstn 16 (skipn 16 key))), <- (firstn_skipn 4 (skipn 4 _)), <- (firstn_skipn 4 (skipn 4 (skipn 4 _))).
  rewrite !skipn_firstn_comm, !firstn_firstn, !skipn_skipn. cbn [Nat.min Nat.sub Nat.add].
  rewrite !le_value_app.
  assert (LN : forall n o, (o + n <= 32)%nat -> len (firstn n (skipn o key)) = Z.of_nat n) by (intros; unfold len; rewrite firstn_length, skipn_length; lia).
  rewrite !LN by lia. change (256 ^ Z.of_nat 4) with W32. reflexivity.
Qed.
Lemma tag_ok a b c d e f g h : 0 <= a < W32 -> 0 <= b < W32 -> 0 <= c < W32 -> 0 <= d < W32 -> 0 <= e < W32 -> 0 <= f < W32 -> 0 <= g < W32 -> 0 <= h < W32 ->
  flat_map (le_bytes 4) (add_pad 0 [a; b; c; d] [e; f; g; h]) =
  le_bytes 16 ((a + W32 * (b + W32 * (c + W32 * d)) + (e + W32 * (f + W32 * (g + W32 * h)))) mod 2 ^ 128).
Proof.
  intros. cbn [add_pad flat_map app]. rewrite app_nil_r. change (Z.shiftr 0 32) with 0.
  change (2 ^ 128) with (256 ^ Z.of_nat 16). rewrite (le_bytes_mod 16).
  rewrite (add64_fits a) by (rewrite pow64; lia). rewrite (add64_fits (a + e)) by (rewrite pow64; lia). rewrite Z.add_0_r. set (f0 := a + e).
  rewrite !(Z.shiftr_div_pow2 _ 32) by lia. change (2 ^ 32) with W32.
  assert (K0 : 0 <= f0 / W32 <= 1) by (unfold f0; lia).
  rewrite (add64_fits b) by (rewrite pow64; lia). rewrite (add64_fits (b + f)) by (rewrite pow64; lia). set (f1 := b + f + f0 / W32).
  assert (K1 : 0 <= f1 / W32 <= 1) by (unfold f1; lia).
  rewrite (add64_fits c) by (rewrite pow64; lia). rewrite (add64_fits (c + g)) by (rewrite pow64; lia). set (f2 := c + g + f1 / W32).
  assert (K2 : 0 <= f2 / W32 <= 1) by (unfold f2; lia).
  rewrite (add64_fits d) by (rewrite pow64; lia). rewrite (add64_fits (d + h)) by (rewrite pow64; lia). set (f3 := d + h + f2 / W32).
  set (V := a + _ + _).
  assert (MB : forall x, le_bytes 4 (x mod W32) = le_bytes 4 x) by (intros; apply (le_bytes_mod 4)). rewrite !MB.
  change 16%nat with (4 + (4 + (4 + 4)))%nat. rewrite !le_bytes_app. change (256 ^ Z.of_nat 4) with W32 in *.
  assert (Q : forall n x y, x mod 256 ^ Z.of_nat n = y mod 256 ^ Z.of_nat n -> le_bytes n x = le_bytes n y).
  { intros n x y E. rewrite <- (le_bytes_mod n x), <- (le_bytes_mod n y), E. reflexivity. }
  assert (V0 : V = f0 + W32 * (b + f + W32 * (c + g + W32 * (d + h)))) by (unfold V, f0; ring).
  assert (V1 : V / W32 = f1 + W32 * (c + g + W32 * (d + h))).
  { rewrite V0. rewrite (Z.mul_comm W32), Z.div_add by lia. unfold f1. ring. }
  assert (V2 : V / W32 / W32 = f2 + W32 * (d + h)).
  { rewrite V1. rewrite (Z.mul_comm W32), Z.div_add by lia. unfold f2. ring. }
  assert (V3 : V / W32 / W32 / W32 = f3).
  { rewrite V2. rewrite (Z.mul_comm W32), Z.div_add by lia. unfold f3. ring. }
  assert (MA : forall x y, (x + W32 * y) mod W32 = x mod W32) by (intros; rewrite (Z.mul_comm W32), Z.mod_add by lia; reflexivity).
  f_equal; [|f_equal; [|f_equal]]; apply Q; change (256 ^ Z.of_nat 4) with W32.
  - rewrite V0, MA. reflexivity.
  - rewrite V1, MA. reflexivity.
  - rewrite V2, MA. reflexivity.
  - rewrite V3. reflexivity.
Qed.
Theorem tag_value h key : bytes_ok key -> length key = 32%nat -> tight h ->
  flat_map (le_bytes 4) (add_pad 0 (pack (select_p (carry_all h))) (make_pad key)) =
  le_bytes 16 ((value h mod P1305 + le_value (firstn 16 (skipn 16 key))) mod 2 ^ 128).
Proof.
  intros Hb L T. destruct (carry_ok h T) as [C W]. destruct (select_ok _ W) as [E W2].
  destruct (pack_ok _ W2) as (a & b & c & d & -> & A & B & C_ & D & E2). destruct (pad_ok key Hb L) as (e & f & g & i & -> & A' & B' & C' & D' & E3).
  rewrite tag_ok by assumption. rewrite E2, E3, E, (cong_eq_mod _ _ C). rewrite Zplus_mod_idemp_l. reflexivity.
Qed.
