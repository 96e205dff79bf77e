(** Limb arithmetic of poly1305 modulo 2^130 - 5. *)
From Coq Require Import PeanoNat.
From Verif Require Import Base Bytes ShaModel PolySpec PolyModel.

Definition cong (a b : Z) : Prop := exists k, a = b + k * P1305.
Lemma cong_refl a : cong a a. Proof. exists 0. lia. Qed.
Lemma cong_sym a b : cong a b -> cong b a. Proof. intros [k ->]. exists (- k). lia. Qed.
Lemma cong_trans a b c : cong a b -> cong b c -> cong a c. Proof. intros [k ->] [j ->]. exists (k + j). lia. Qed.
Lemma cong_add a b c d : cong a b -> cong c d -> cong (a + c) (b + d). Proof. intros [k ->] [j ->]. exists (k + j). lia. Qed.
Lemma cong_mul a b c d : cong a b -> cong c d -> cong (a * c) (b * d).
Proof. intros [k ->] [j ->]. exists (k * d + b * j + k * j * P1305). ring. Qed.
Lemma cong_mod a : cong (a mod P1305) a.
Proof. exists (- (a / P1305)). rewrite Z.mod_eq by discriminate. lia. Qed.
Lemma cong_eq_mod a b : cong a b -> a mod P1305 = b mod P1305.
Proof. intros [k ->]. apply Z.mod_add. discriminate. Qed.

Notation B26 := 67108864 (only parsing).
Definition value (h : limbs) : Z := l0 h + B26 * (l1 h + B26 * (l2 h + B26 * (l3 h + B26 * l4 h))).
Lemma P_literal : P1305 = B26 * B26 * B26 * B26 * B26 - 5. Proof. reflexivity. Qed.
Definition within (M : Z) (h : limbs) : Prop :=
  0 <= l0 h < M /\ 0 <= l1 h < M /\ 0 <= l2 h < M /\ 0 <= l3 h < M /\ 0 <= l4 h < M.
Notation T26 := 67117056 (only parsing).
Definition tight (h : limbs) : Prop :=
  0 <= l0 h < B26 /\ 0 <= l1 h < T26 /\ 0 <= l2 h < B26 /\ 0 <= l3 h < B26 /\ 0 <= l4 h < B26.
Lemma tight_within h : tight h -> within T26 h.
Proof. unfold tight, within. lia. Qed.

Lemma land_limb x : 0 <= x -> Z.land x limb_mask = x mod B26.
Proof. intros H. change limb_mask with (Z.ones 26). rewrite Z.land_ones by lia. reflexivity. Qed.
Lemma shr26 x : Z.shiftr x 26 = x / B26.
Proof. rewrite Z.shiftr_div_pow2 by lia. reflexivity. Qed.
Lemma add64_fits a b : 0 <= a + b < 2 ^ 64 -> add64 a b = a + b.
Proof. intros H. apply Z.mod_small. exact H. Qed.
Notation W64 := 18446744073709551616 (only parsing).
Lemma pow64 : 2 ^ 64 = W64. Proof. reflexivity. Qed.
Lemma prod_bound a b M N : 0 <= a < M -> 0 <= b < N -> 0 <= a * b <= (M - 1) * (N - 1).
Proof. intros. nia. Qed.

Notation U26 := 134225920 (only parsing).  (* T26 + B26 *)
Notation V26 := 335585280 (only parsing).  (* 5 * T26 *)
Notation D1 := 225221370000000000 (only parsing).
Section Mul.
Variable mul : Z -> Z -> Z.
Hypothesis Hmul : forall a b, 0 <= a < 2 ^ 32 -> 0 <= b < 2 ^ 32 -> mul a b = a * b.
Lemma mul_small a b : 0 <= a < U26 -> 0 <= b < V26 -> mul a b = a * b /\ 0 <= a * b <= 45044274000000000.
Proof using Hmul.
  intros Ha Hb. split; [apply Hmul; change (2 ^ 32) with 4294967296; lia|].
  pose proof (prod_bound a b U26 V26 Ha Hb). lia.
Qed.
Lemma dot_ok a w0 w1 w2 w3 w4 : within U26 a -> 0 <= w0 < V26 -> 0 <= w1 < V26 -> 0 <= w2 < V26 -> 0 <= w3 < V26 -> 0 <= w4 < V26 ->
  dot mul a w0 w1 w2 w3 w4 = l0 a * w0 + l1 a * w1 + l2 a * w2 + l3 a * w3 + l4 a * w4 /\
  0 <= dot mul a w0 w1 w2 w3 w4 <= D1.
Proof using Hmul.
  intros (A0 & A1 & A2 & A3 & A4) H0 H1 H2 H3 H4. unfold dot.
  destruct (mul_small _ _ A0 H0) as [-> B0], (mul_small _ _ A1 H1) as [-> B1], (mul_small _ _ A2 H2) as [-> B2],
    (mul_small _ _ A3 H3) as [-> B3], (mul_small _ _ A4 H4) as [-> B4].
  rewrite (add64_fits (l0 a * w0)) by (rewrite pow64; lia). rewrite (add64_fits (l2 a * w2)) by (rewrite pow64; lia).
  rewrite (add64_fits (_ + _) (_ + _)) by (rewrite pow64; lia). rewrite add64_fits by (rewrite pow64; lia). lia.
Qed.
Lemma scale_ok r : within T26 r -> scale mul r = Limbs (l0 r * 5) (l1 r * 5) (l2 r * 5) (l3 r * 5) (l4 r * 5).
Proof using Hmul.
  intros (A0 & A1 & A2 & A3 & A4). unfold scale.
  rewrite !Hmul by (change (2 ^ 32) with 4294967296; lia). reflexivity.
Qed.
Lemma multiply_ok a r s : within U26 a -> within T26 r -> s = Limbs (l0 r * 5) (l1 r * 5) (l2 r * 5) (l3 r * 5) (l4 r * 5) ->
  cong (value (multiply mul a r s)) (value a * value r) /\ within (D1 + 1) (multiply mul a r s).
Proof using Hmul.
  intros Ha (R0 & R1 & R2 & R3 & R4) Hs. rewrite Hs. unfold multiply, value, within. cbn [l0 l1 l2 l3 l4].
  destruct (dot_ok a (l0 r) (l4 r * 5) (l3 r * 5) (l2 r * 5) (l1 r * 5) Ha) as [E0 C0]; try lia.
  destruct (dot_ok a (l1 r) (l0 r) (l4 r * 5) (l3 r * 5) (l2 r * 5) Ha) as [E1 C1]; try lia.
  destruct (dot_ok a (l2 r) (l1 r) (l0 r) (l4 r * 5) (l3 r * 5) Ha) as [E2 C2]; try lia.
  destruct (dot_ok a (l3 r) (l2 r) (l1 r) (l0 r) (l4 r * 5) Ha) as [E3 C3]; try lia.
  destruct (dot_ok a (l4 r) (l3 r) (l2 r) (l1 r) (l0 r) Ha) as [E4 C4]; try lia.
  split; [|lia]. rewrite E0, E1, E2, E3, E4. clear. destruct a as [a0 a1 a2 a3 a4], r as [r0 r1 r2 r3 r4]. cbn [l0 l1 l2 l3 l4].
  exists (- (a1 * r4 + a2 * r3 + a3 * r2 + a4 * r1
         + B26 * (a2 * r4 + a3 * r3 + a4 * r2) + B26 * B26 * (a3 * r4 + a4 * r3) + B26 * B26 * B26 * (a4 * r4))).
  rewrite P_literal. ring.
Qed.
Variable D : Z.
Hypothesis HD : 0 <= D <= 2 ^ 62.
Hypothesis Hfold : forall c, 0 <= c <= D / B26 + 4096 -> mul c 5 = c * 5.
Lemma reduce_ok d : within (D + 1) d -> cong (value (reduce mul d)) (value d) /\ tight (reduce mul d).
Proof using HD Hfold. clear Hmul.
  intros (H0 & H1 & H2 & H3 & H4). destruct d as [x0 x1 x2 x3 x4]. cbn [l0 l1 l2 l3 l4] in *.
  assert (HD' : D <= 4611686018427387904) by (change 4611686018427387904 with (2 ^ 62); lia).
  unfold reduce. cbv zeta. cbn [l0 l1 l2 l3 l4]. rewrite !shr26.
  pose proof (Z.div_mod x0 B26 ltac:(lia)) as M0. pose proof (Z.mod_pos_bound x0 B26 ltac:(lia)) as N0.
  set (c0 := x0 / B26) in *. assert (K0 : 0 <= c0 <= 68719476737) by lia.
  rewrite (add64_fits x1) by (rewrite pow64; lia). set (d1 := x1 + c0).
  pose proof (Z.div_mod d1 B26 ltac:(lia)) as M1. pose proof (Z.mod_pos_bound d1 B26 ltac:(lia)) as N1.
  set (c1 := d1 / B26) in *. assert (K1 : 0 <= c1 <= 68719480000) by (unfold d1 in *; lia).
  rewrite (add64_fits x2) by (rewrite pow64; lia). set (d2 := x2 + c1).
  pose proof (Z.div_mod d2 B26 ltac:(lia)) as M2. pose proof (Z.mod_pos_bound d2 B26 ltac:(lia)) as N2.
  set (c2 := d2 / B26) in *. assert (K2 : 0 <= c2 <= 68719480000) by (unfold d2 in *; lia).
  rewrite (add64_fits x3) by (rewrite pow64; lia). set (d3 := x3 + c2).
  pose proof (Z.div_mod d3 B26 ltac:(lia)) as M3. pose proof (Z.mod_pos_bound d3 B26 ltac:(lia)) as N3.
  set (c3 := d3 / B26) in *. assert (K3 : 0 <= c3 <= 68719480000) by (unfold d3 in *; lia).
  rewrite (add64_fits x4) by (rewrite pow64; lia). set (d4 := x4 + c3).
  pose proof (Z.div_mod d4 B26 ltac:(lia)) as M4. pose proof (Z.mod_pos_bound d4 B26 ltac:(lia)) as N4.
  set (c4 := d4 / B26) in *. assert (K4 : 0 <= c4 <= 68719480000) by (unfold d4 in *; lia).
  assert (K5 : c4 <= D / B26 + 4096).
  { pose proof (Z.div_mod D B26 ltac:(lia)). pose proof (Z.mod_pos_bound D B26 ltac:(lia)). unfold d4 in *. lia. }
  rewrite Hfold by lia. rewrite (land_limb x0), (land_limb d1), (land_limb d2), (land_limb d3), (land_limb d4) by lia.
  rewrite (add64_fits (x0 mod B26)) by (rewrite pow64; lia). set (d0 := x0 mod B26 + c4 * 5).
  pose proof (Z.div_mod d0 B26 ltac:(lia)) as M5. pose proof (Z.mod_pos_bound d0 B26 ltac:(lia)) as N5.
  set (c5 := d0 / B26) in *. assert (K6 : 0 <= c5 <= 5122) by (unfold d0 in *; lia).
  rewrite (add64_fits (d1 mod B26)) by (rewrite pow64; lia).
  rewrite (land_limb d0) by lia.
  split; [|unfold tight; cbn [l0 l1 l2 l3 l4]; lia].
  unfold value. cbn [l0 l1 l2 l3 l4]. exists (- c4). rewrite P_literal.
  clearbody c0 c1 c2 c3 c4 c5. unfold d1, d2, d3, d4, d0 in *. lia.
Qed.
End Mul.
Lemma mul_word_ok a b : 0 <= a < 2 ^ 32 -> 0 <= b < 2 ^ 32 -> mul_word a b = a * b.
Proof. change (2 ^ 32) with 4294967296. intros. unfold mul_word. rewrite pow64. apply Z.mod_small. pose proof (prod_bound a b _ _ H H0). lia. Qed.
Lemma mul_lane_ok a b : 0 <= a < 2 ^ 32 -> 0 <= b < 2 ^ 32 -> mul_lane a b = a * b.
Proof. intros. unfold mul_lane. rewrite !Z.mod_small by assumption. reflexivity. Qed.
Lemma reduce_word d : within (2 ^ 62 + 1) d -> cong (value (reduce mul_word d)) (value d) /\ tight (reduce mul_word d).
Proof.
  apply (reduce_ok mul_word (2 ^ 62)); change (2 ^ 62) with 4611686018427387904; [lia|].
  intros c H. change (4611686018427387904 / B26) with 68719476736 in H. unfold mul_word. rewrite pow64. apply Z.mod_small. lia.
Qed.
Lemma reduce_lane d : within (D1 + 1) d -> cong (value (reduce mul_lane d)) (value d) /\ tight (reduce mul_lane d).
Proof.
  apply (reduce_ok mul_lane D1); change (2 ^ 62) with 4611686018427387904.
  - lia.
  - intros c H. change (D1 / B26) with 3356059938 in H. apply mul_lane_ok; change (2 ^ 32) with 4294967296; lia.
Qed.
