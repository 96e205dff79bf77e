(** Word operations of the SHA model against those of FIPS 180-4. *)
From Verif Require Import Base Bytes MathModel BitProofs BechProofs ShaModel ShaSpec.

Definition word (w x : Z) : Prop := 0 <= x < 2 ^ w.

Section Bits.
Variable w : Z.
Hypothesis Hw : 0 < w.

Lemma pow_pos : 0 < 2 ^ w.
Proof using Hw. apply Z.pow_pos_nonneg; lia. Qed.

Lemma word_add a b : word w ((a + b) mod 2 ^ w).
Proof using Hw. apply Z.mod_pos_bound. apply pow_pos. Qed.
Lemma word_xor a b : word w a -> word w b -> word w (Z.lxor a b).
Proof using Hw. intros. apply lxor_range; [lia|assumption|assumption]. Qed.
Lemma word_or a b : word w a -> word w b -> word w (Z.lor a b).
Proof using Hw. intros. apply lor_range; [lia|assumption|assumption]. Qed.
Lemma word_and a b : word w a -> word w b -> word w (Z.land a b).
Proof using Hw. intros [H1 H2] H3. apply land_range; [lia|assumption|assumption]. Qed.
Lemma word_not a : word w a -> word w (2 ^ w - 1 - a).
Proof using Hw. unfold word. lia. Qed.
Lemma word_shr n a : 0 <= n -> word w a -> word w (Z.shiftr a n).
Proof using Hw. intros. apply shiftr_range; assumption. Qed.
Lemma word_rotr n a : 0 <= n -> word w a -> word w (rotr w n a).
Proof using Hw.
  intros. unfold rotr. apply word_or; [apply word_shr; assumption|].
  apply Z.mod_pos_bound. apply pow_pos.
Qed.

Lemma word_high a i : word w a -> w <= i -> Z.testbit a i = false.
Proof using Hw. intros. apply (testbit_small a w); [assumption|lia]. Qed.

Lemma word_ext a b : word w a -> word w b ->
  (forall i, 0 <= i < w -> Z.testbit a i = Z.testbit b i) -> a = b.
Proof using Hw.
  intros Ha Hb E. apply Z.bits_inj'. intros i Hi. destruct (Z.lt_ge_cases i w).
  - apply E. lia.
  - rewrite !word_high by assumption. reflexivity.
Qed.

Lemma not_bit a i : word w a -> 0 <= i < w -> Z.testbit (2 ^ w - 1 - a) i = negb (Z.testbit a i).
Proof using Hw.
  intros Ha Hi. replace (2 ^ w - 1 - a) with (Z.lnot a mod 2 ^ w).
  - rewrite Z.mod_pow2_bits_low by lia. apply Z.lnot_spec. lia.
  - unfold Z.lnot. unfold word in Ha. symmetry. apply (Z.mod_unique_pos _ _ (-1)); lia.
Qed.

Lemma rotr_bit n a i : 0 <= n <= w -> word w a -> 0 <= i < w ->
  Z.testbit (rotr w n a) i = Z.testbit a (if i + n <? w then i + n else i + n - w).
Proof using Hw.
  intros Hn Ha Hi. unfold rotr. rewrite Z.lor_spec, Z.shiftr_spec, Z.mod_pow2_bits_low, Z.shiftl_spec by lia.
  replace (i - (w - n)) with (i + n - w) by lia.
  destruct (i + n <? w) eqn:E; [apply Z.ltb_lt in E|apply Z.ltb_ge in E].
  - rewrite (Z.testbit_neg_r a (i + n - w)) by lia. apply orb_false_r.
  - rewrite (word_high a (i + n)) by (assumption || lia). reflexivity.
Qed.

Lemma rotr_xor n a b : 0 <= n <= w -> word w a -> word w b ->
  rotr w n (Z.lxor a b) = Z.lxor (rotr w n a) (rotr w n b).
Proof using Hw.
  intros Hn Ha Hb.
  apply word_ext.
  - apply word_rotr; [lia|]. apply word_xor; assumption.
  - apply word_xor; apply word_rotr; (assumption || lia).
  - intros i Hi. rewrite Z.lxor_spec, !rotr_bit, Z.lxor_spec by (try apply word_xor; assumption || lia). reflexivity.
Qed.

Lemma rotr_rotr m n a : 0 <= m -> 0 <= n -> m + n <= w -> word w a ->
  rotr w m (rotr w n a) = rotr w (m + n) a.
Proof using Hw.
  intros Hm Hn Hs Ha.
  apply word_ext; try (repeat apply word_rotr; assumption || lia).
  intros i Hi. rewrite (rotr_bit (m + n)) by (assumption || lia).
  rewrite (rotr_bit m) by (try apply word_rotr; assumption || lia).
  rewrite (rotr_bit n) by (try assumption; try lia; destruct (Z.ltb_spec (i + m) w); lia).
  f_equal. destruct (Z.ltb_spec (i + m) w), (Z.ltb_spec (i + (m + n)) w); try lia;
    try (destruct (Z.ltb_spec (i + m + n) w)); try (destruct (Z.ltb_spec (i + m - w + n) w)); lia.
Qed.

Lemma choice_Ch x y z : word w x -> word w y -> word w z ->
  Z.lxor (Z.land x (Z.lxor y z)) z = Ch w x y z.
Proof using Hw.
  intros Hx Hy Hz. unfold Ch, XOR, AND, NOT. apply word_ext.
  - apply word_xor; [apply word_and; [assumption|apply word_xor; assumption]|assumption].
  - apply word_xor; apply word_and; try assumption. apply word_not; assumption.
  - intros i Hi. rewrite !Z.lxor_spec, !Z.land_spec, Z.lxor_spec, not_bit by assumption.
    destruct (Z.testbit x i), (Z.testbit y i), (Z.testbit z i); reflexivity.
Qed.

Lemma majority_Maj x y z : Z.lor (Z.land x (Z.lor y z)) (Z.land y z) = Maj x y z.
Proof using.
  unfold Maj, XOR, AND. apply Z.bits_inj'. intros i Hi.
  rewrite !Z.lxor_spec, Z.lor_spec, !Z.land_spec, Z.lor_spec.
  destruct (Z.testbit x i), (Z.testbit y i), (Z.testbit z i); reflexivity.
Qed.

Lemma Sigma_SIGMA a b c x : 0 <= a <= b -> b <= c <= w -> word w x ->
  Sigma (zops w) a b c x = SIGMA w a b c x.
Proof using Hw.
  intros H1 H2 Hx. unfold Sigma, SIGMA, XOR. cbn [zops wror wxor].
  change (ROTR w) with (rotr w).
  rewrite !rotr_xor, !rotr_rotr;
    try (repeat first [apply word_xor | apply word_rotr]; assumption || lia); try lia; try assumption.
  replace (a + (b - a) + (c - b)) with c by lia. replace (a + (b - a)) with b by lia.
  rewrite (Z.lxor_comm (rotr w c x)). rewrite Z.lxor_comm, Z.lxor_assoc. reflexivity.
Qed.

Lemma rol_ROTL n x : 0 <= n <= w -> rotr w (w - n) x = ROTL w n x.
Proof using. intros. unfold rotr, ROTL. replace (w - (w - n)) with n by lia. apply Z.lor_comm. Qed.

Lemma add_mod_l a b : ((a mod 2 ^ w) + b) mod 2 ^ w = (a + b) mod 2 ^ w.
Proof using. apply Zplus_mod_idemp_l. Qed.
Lemma add_mod_r a b : (a + (b mod 2 ^ w)) mod 2 ^ w = (a + b) mod 2 ^ w.
Proof using. apply Zplus_mod_idemp_r. Qed.
End Bits.

(** Equality of sums modulo [2^w] whatever the order of the additions. *)
Ltac no_mod t := lazymatch t with context [Z.modulo _ _] => fail | _ => idtac end.
Ltac sums w := unfold ADD;
  repeat match goal with
  | |- context [(?a mod ?m + ?b) mod ?m] => no_mod a; rewrite (Zplus_mod_idemp_l a b m)
  | |- context [(?a + ?b mod ?m) mod ?m] => no_mod b; rewrite (Zplus_mod_idemp_r b a m)
  end;
  apply (f_equal (fun x => x mod 2 ^ w)); ring.
