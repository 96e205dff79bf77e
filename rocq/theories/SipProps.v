(** Proofs: the hash of filters is SipHash-2-4. *)
From Verif Require Import Base Bytes MathModel BitProofs StateProofs GolombModel SipSpec.

Definition in64 (x : Z) : Prop := 0 <= x < 2 ^ 64.
Lemma wrap64 x : in64 x -> wrap u64 x = x. Proof. exact (wrap_u64_small x). Qed.
Lemma fits64 x : in64 x -> fits u64 x.
Proof. unfold in64, fits, imin, imax. cbn [sg bits u64]. lia. Qed.
Lemma in_bits x : in64 x <-> 0 <= x /\ forall i, 64 <= i -> Z.testbit x i = false.
Proof.
  split.
  - intros [A B]. split; [exact A|]. intros i Hi. destruct (Z.eq_dec x 0) as [->|N]; [apply Z.testbit_0_l|]. apply Z.bits_above_log2; [exact A|]. apply Z.lt_le_trans with 64; [apply Z.log2_lt_pow2; lia|exact Hi].
  - intros [A B]. split; [exact A|]. destruct (Z.eq_dec x 0) as [->|N]; [reflexivity|]. apply Z.log2_lt_pow2; [lia|]. destruct (Z.lt_ge_cases (Z.log2 x) 64) as [L|L]; [exact L|]. pose proof (B _ L) as F. rewrite Z.bit_log2 in F by lia. discriminate.
Qed.
Lemma lxor64 a b : in64 a -> in64 b -> in64 (Z.lxor a b).
Proof.
  rewrite !in_bits. intros [A Ba] [B Bb]. split; [apply Z.lxor_nonneg; lia|]. intros i Hi. rewrite Z.lxor_spec, Ba, Bb by exact Hi. reflexivity.
Qed.
Lemma xor_eq a b : in64 a -> in64 b -> bit_xor u64 a b = Z.lxor a b.
Proof. intros A B. unfold bit_xor. apply wrap64. now apply lxor64. Qed.
Lemma plus64 a b : in64 (plus a b).
Proof. apply Z.mod_pos_bound. reflexivity. Qed.
Lemma add_eq a b : add64 a b = plus a b. Proof. reflexivity. Qed.
Lemma rol_lor r x : 0 < r < 64 -> in64 x -> rol r x = Z.lor ((x * 2 ^ r) mod 2 ^ 64) (x / 2 ^ (64 - r)).
Proof.
  intros R X. unfold rol. symmetry. rewrite <- Z.lxor_lor.
  - symmetry. apply Z.add_nocarry_lxor. apply Z.bits_inj'. intros i Hi. rewrite Z.land_spec, Z.bits_0, <- Z.shiftr_div_pow2, <- Z.shiftl_mul_pow2 by lia.
    destruct (Z.lt_ge_cases i r) as [L|L].
    + rewrite Z.mod_pow2_bits_low by lia. rewrite Z.shiftl_spec_low by lia. reflexivity.
    + rewrite Z.shiftr_spec by lia. rewrite (proj2 (proj1 (in_bits x) X)) by lia. apply andb_false_r.
  - apply Z.bits_inj'. intros i Hi. rewrite Z.land_spec, Z.bits_0, <- Z.shiftr_div_pow2, <- Z.shiftl_mul_pow2 by lia.
    destruct (Z.lt_ge_cases i r) as [L|L].
    + rewrite Z.mod_pow2_bits_low by lia. rewrite Z.shiftl_spec_low by lia. reflexivity.
    + rewrite Z.shiftr_spec by lia. rewrite (proj2 (proj1 (in_bits x) X)) by lia. apply andb_false_r.
Qed.
Lemma rol64 r x : 0 < r < 64 -> in64 x -> in64 (rol r x).
Proof.
  intros R X. rewrite rol_lor by assumption. apply in_bits. assert (N : 0 <= x / 2 ^ (64 - r)) by (apply Z.div_pos; [apply X|apply Z.pow_pos_nonneg; lia]).
  split; [apply Z.lor_nonneg; split; [apply Z.mod_pos_bound; reflexivity|exact N]|]. intros i Hi. rewrite Z.lor_spec, Z.mod_pow2_bits_high by lia.
  rewrite <- Z.shiftr_div_pow2, Z.shiftr_spec by lia. rewrite (proj2 (proj1 (in_bits x) X)) by lia. reflexivity.
Qed.
Lemma rotate_eq r x : 0 < r < 64 -> in64 x -> rotate_left u64 x r = rol r x.
Proof.
  intros R X. rewrite rol_lor by assumption. unfold rotate_left. cbn [bits u64]. cbv zeta. rewrite (Z.mod_small r 64) by lia.
  unfold bit_or, shift_left, shift_right. cbn [andb bits u64]. rewrite (Z.mod_small r 64), (Z.mod_small (64 - r) 64) by lia.
  change (unsigned_of u64) with u64. rewrite (wrap64 x X), Z.shiftl_mul_pow2, Z.shiftr_div_pow2 by lia.
  rewrite (wrap64 (x / 2 ^ (64 - r))).
  - change (wrap u64 (x * 2 ^ r)) with ((x * 2 ^ r) mod 2 ^ 64). apply wrap64. rewrite <- rol_lor by assumption. now apply rol64.
  - split; [apply Z.div_pos; [apply X|apply Z.pow_pos_nonneg; lia]|]. apply Z.le_lt_trans with x; [|apply X]. apply Z.div_le_upper_bound; [apply Z.pow_pos_nonneg; lia|]. pose proof (Z.pow_pos_nonneg 2 (64 - r) ltac:(lia) ltac:(lia)). destruct X. nia.
Qed.
Definition ok4 (v : words4) : Prop := let '(v0, v1, v2, v3) := v in in64 v0 /\ in64 v1 /\ in64 v2 /\ in64 v3.
Ltac s4 := refine (conj _ (conj _ (conj _ _))).
Ltac o64 := repeat first [assumption | apply plus64 | apply lxor64 | (apply rol64; [lia|]) ].
Lemma round_eq v : ok4 v -> sip_round v = round v /\ ok4 (round v).
Proof.
  destruct v as [[[v0 v1] v2] v3]. intros (H0 & H1 & H2 & H3). unfold sip_round, round, ok4. cbv zeta. change add64 with plus.
  rewrite (rotate_eq 13 v1), (rotate_eq 16 v3) by (try lia; o64). rewrite (xor_eq (rol 13 v1)), (xor_eq (rol 16 v3)) by o64.
  set (w1 := Z.lxor (rol 13 v1) _). set (w3 := Z.lxor (rol 16 v3) _). assert (W1 : in64 w1) by (unfold w1; o64). assert (W3 : in64 w3) by (unfold w3; o64).
  rewrite (rotate_eq 32 (plus v0 v1)), (rotate_eq 17 w1), (rotate_eq 21 w3) by (try lia; o64).
  rewrite (xor_eq (rol 17 w1)), (xor_eq (rol 21 w3)), (rotate_eq 32) by (try lia; o64).
  split; [reflexivity|]. s4; o64.
Qed.
Lemma absorb_eq v m : ok4 v -> in64 m -> compression_round v m = absorb v m /\ ok4 (absorb v m).
Proof.
  destruct v as [[[v0 v1] v2] v3]. intros (H0 & H1 & H2 & H3) M. unfold compression_round, absorb. rewrite (xor_eq v3 m H3 M).
  assert (O0 : ok4 (v0, v1, v2, Z.lxor v3 m)) by (s4; o64). destruct (round_eq _ O0) as [E1 O1]. rewrite E1. destruct (round_eq _ O1) as [E2 O2]. rewrite E2.
  destruct (round (round (v0, v1, v2, Z.lxor v3 m))) as [[[a b] c] d]. destruct O2 as (A & B & C & D). rewrite (xor_eq a m A M). split; [reflexivity|]. s4; o64.
Qed.
Lemma byte_firstn n (m : list Z) : bytes_ok m -> bytes_ok (firstn n m).
Proof. unfold bytes_ok. rewrite !Forall_forall. intros H x Hx. apply H. rewrite <- (firstn_skipn n m). apply in_or_app. now left. Qed.
Lemma byte_skipn n (m : list Z) : bytes_ok m -> bytes_ok (skipn n m).
Proof. unfold bytes_ok. rewrite !Forall_forall. intros H x Hx. apply H. rewrite <- (firstn_skipn n m). apply in_or_app. now right. Qed.
Lemma word64 (m : list Z) : bytes_ok m -> in64 (le_value (firstn 8 m)).
Proof.
  intros B. pose proof (le_value_range _ (byte_firstn 8 m B)) as R. split; [lia|]. apply Z.lt_le_trans with (256 ^ len (firstn 8 m)); [lia|].
  change (2 ^ 64) with (256 ^ 8). apply Z.pow_le_mono_r; [lia|]. unfold len. rewrite firstn_length. lia.
Qed.
(** Whole words: the loop of the code against words at positions. *)
Lemma sip_loop n : forall m v, bytes_ok m -> ok4 v ->
  sip_words n m v = (fold_left absorb (map (fun i => le_value (firstn 8 (skipn (8 * i) m))) (seq 0 n)) v, skipn (8 * n) m) /\
  ok4 (fold_left absorb (map (fun i => le_value (firstn 8 (skipn (8 * i) m))) (seq 0 n)) v).
Proof.
  induction n as [|n IH]; intros m v B O4; [split; [reflexivity|exact O4]|]. destruct (absorb_eq v (le_value (firstn 8 m)) O4 (word64 m B)) as [E1 O1].
  cbn [sip_words]. rewrite E1. destruct (IH (skipn 8 m) _ (byte_skipn 8 m B) O1) as [E2 O2].
  assert (M : map (fun i => le_value (firstn 8 (skipn (8 * i) m))) (seq 0 (S n)) = le_value (firstn 8 m) :: map (fun i => le_value (firstn 8 (skipn (8 * i) (skipn 8 m)))) (seq 0 n)).
  { cbn [seq map]. f_equal. rewrite <- seq_shift, map_map. apply map_ext. intros i. rewrite skipn_skipn. do 3 f_equal. lia. }
  rewrite M. cbn [fold_left]. split; [|exact O2]. rewrite E2, skipn_skipn. f_equal. f_equal. lia.
Qed.
Lemma le_small l : bytes_ok l -> len l <= 7 -> 0 <= le_value l < 2 ^ 56.
Proof.
  intros B L. pose proof (le_value_range l B) as R. split; [lia|]. apply Z.lt_le_trans with (256 ^ len l); [lia|]. change (2 ^ 56) with (256 ^ 7). apply Z.pow_le_mono_r; lia.
Qed.
Lemma add_high a b : 0 <= a < 2 ^ 56 -> 0 <= b < 256 -> bit_xor u64 a (shift_left u64 b 56 true) = a + 2 ^ 56 * b.
Proof.
  intros A B. unfold shift_left. cbn [andb bits u64]. change (64 <=? 56) with false. cbn iota. change (unsigned_of u64) with u64. change (56 mod 64) with 56.
  assert (P : 2 ^ 64 = 2 ^ 56 * 256) by reflexivity.
  rewrite (wrap64 b) by (unfold in64; nia). rewrite Z.shiftl_mul_pow2 by lia. rewrite (wrap64 (b * 2 ^ 56)) by (unfold in64; nia).
  rewrite xor_eq by (unfold in64; nia). rewrite <- Z.add_nocarry_lxor; [lia|]. apply Z.bits_inj'. intros i Hi. rewrite Z.land_spec, Z.bits_0, <- Z.shiftl_mul_pow2 by lia.
  destruct (Z.lt_ge_cases i 56) as [L|L]; [rewrite Z.shiftl_spec_low by lia; apply andb_false_r|].
  destruct (Z.eq_dec a 0) as [->|N]; [now rewrite Z.testbit_0_l|]. rewrite Z.bits_above_log2; [reflexivity|lia|]. apply Z.lt_le_trans with 56; [apply Z.log2_lt_pow2; lia|lia].
Qed.
(** The bytes after the whole words. *)
Lemma rest_length (m : list Z) : length (skipn (8 * Z.to_nat (len m / 8)) m) = Z.to_nat (len m mod 8).
Proof.
  rewrite skipn_length. pose proof (len_nonneg m). pose proof (Z.div_mod (len m) 8 ltac:(lia)). pose proof (Z.mod_pos_bound (len m) 8 ltac:(lia)). pose proof (Z.div_pos (len m) 8 ltac:(lia) ltac:(lia)). unfold len in *. lia.
Qed.
Lemma last_word (m : list Z) : bytes_ok m -> word m (Z.to_nat (len m / 8)) = bit_xor u64 (le_value (skipn (8 * Z.to_nat (len m / 8)) m)) (shift_left u64 (len m mod 256) 56 true) /\ in64 (word m (Z.to_nat (len m / 8))).
Proof.
  intros B. pose proof (rest_length m) as RL. pose proof (Z.mod_pos_bound (len m) 8 ltac:(lia)) as MB. pose proof (Z.mod_pos_bound (len m) 256 ltac:(lia)) as M2.
  unfold word, padded. set (k := (8 * Z.to_nat (len m / 8))%nat) in *.
  assert (K : (k <= length m)%nat). { unfold k. pose proof (len_nonneg m). pose proof (Z.div_mod (len m) 8 ltac:(lia)). pose proof (Z.div_pos (len m) 8 ltac:(lia) ltac:(lia)). unfold len in *. lia. }
  rewrite skipn_app. replace (k - length m)%nat with O by lia. change (skipn 0 ?x) with x. set (r := skipn k m) in *.
  assert (Br : bytes_ok r) by (apply byte_skipn; exact B). assert (Lr : len r = len m mod 8) by (unfold len at 1; lia).
  rewrite firstn_all2 by (rewrite !app_length, repeat_length; cbn [length]; lia).
  rewrite !le_value_app, le_value_repeat0, len_repeat. rewrite Z2Nat.id by lia. cbn [le_value]. rewrite add_high; [|apply le_small; [exact Br|lia]|exact M2].
  assert (E : 256 ^ len r * 256 ^ (7 - len m mod 8) = 2 ^ 56). { rewrite <- Z.pow_add_r by lia. replace (len r + (7 - len m mod 8)) with 7 by lia. reflexivity. }
  pose proof (le_small r Br ltac:(lia)) as R. generalize dependent (256 ^ len r). generalize (256 ^ (7 - len m mod 8)). intros p2 p1 E. generalize dependent (len m mod 256). intros c M2. generalize dependent (le_value r). intros a R. change (2 ^ 64) with (2 ^ 56 * 256) in *. unfold in64. change (2 ^ 64) with (2 ^ 56 * 256).
  match goal with |- ?x = _ /\ _ => assert (X : x = a + 2 ^ 56 * c) by (rewrite <- E; ring) end. rewrite X. split; [reflexivity|lia].
Qed.
Lemma whole_word (m : list Z) i : (i < Z.to_nat (len m / 8))%nat -> word m i = le_value (firstn 8 (skipn (8 * i) m)).
Proof.
  intros H. pose proof (len_nonneg m). pose proof (Z.div_mod (len m) 8 ltac:(lia)). pose proof (Z.mod_pos_bound (len m) 8 ltac:(lia)). unfold word, padded. unfold len in *.
  rewrite skipn_app, firstn_app. replace (8 - length (skipn (8 * i) m))%nat with O by (rewrite skipn_length; lia). cbn [firstn]. now rewrite app_nil_r.
Qed.

(** For every 128 bit key and every message of any length. *)
Theorem C92_siphash k0 k1 message : 0 <= k0 < 2 ^ 64 -> 0 <= k1 < 2 ^ 64 -> Forall byte_ok message ->
  siphash (k0, k1) message = siphash24 k0 k1 message.
Proof.
  intros K0 K1 B. unfold siphash, siphash24.
  rewrite (Z.lxor_comm k0 (magic 0)), (Z.lxor_comm k1 (magic 1)), (Z.lxor_comm k0 (magic 2)), (Z.lxor_comm k1 (magic 3)).
  change (magic 0) with 8317987319222330741. change (magic 1) with 7237128888997146477. change (magic 2) with 7816392313619706465. change (magic 3) with 8387220255154660723.
  rewrite !xor_eq by (try assumption; unfold in64; lia). set (v := (Z.lxor _ k0, _, _, _)).
  assert (V : ok4 v) by (unfold v; s4; apply lxor64; try assumption; unfold in64; lia). clearbody v.
  destruct (sip_loop (Z.to_nat (len message / 8)) message v B V) as [E1 O1]. rewrite E1. cbv beta iota zeta.
  destruct (last_word message B) as [E2 O2]. rewrite <- E2.
  assert (W : words message = map (fun i => le_value (firstn 8 (skipn (8 * i) message))) (seq 0 (Z.to_nat (len message / 8))) ++ [word message (Z.to_nat (len message / 8))]).
  { unfold words. replace (Z.to_nat (len message / 8 + 1)) with (S (Z.to_nat (len message / 8))) by (pose proof (Z.div_pos (len message) 8 (len_nonneg message) ltac:(lia)); lia).
    rewrite seq_S, map_app. cbn [map Nat.add]. f_equal. apply map_ext_in. intros i Hi. apply in_seq in Hi. apply whole_word. lia. }
  rewrite W, fold_left_app. cbn [fold_left]. set (u := fold_left absorb _ v) in *. clearbody u. destruct (absorb_eq u _ O1 O2) as [E3 O3]. rewrite E3.
  destruct (absorb u _) as [[[a b] c] d]. destruct O3 as (A & Bb & C & D). rewrite (xor_eq c 255) by (try assumption; unfold in64; lia).
  assert (O4 : ok4 (a, b, Z.lxor c 255, d)) by (s4; try assumption; apply lxor64; [assumption|unfold in64; lia]).
  destruct (round_eq _ O4) as [E5 O5]. rewrite E5. destruct (round_eq _ O5) as [E6 O6]. rewrite E6. destruct (round_eq _ O6) as [E7 O7]. rewrite E7. destruct (round_eq _ O7) as [E8 O8]. rewrite E8.
  destruct (round (round (round (round (a, b, Z.lxor c 255, d))))) as [[[x0 x1] x2] x3]. destruct O8 as (X0 & X1 & X2 & X3).
  rewrite (xor_eq x0 x1 X0 X1), (xor_eq _ x2) by o64. rewrite (xor_eq _ x3) by o64. reflexivity.
Qed.
Print Assumptions C92_siphash.
(** The key of a filter is the first half of the block hash, as two words. *)
Theorem C92_key hash : Forall byte_ok hash -> length hash = 16%nat ->
  0 <= fst (to_siphash_key hash) < 2 ^ 64 /\ 0 <= snd (to_siphash_key hash) < 2 ^ 64 /\
  le_bytes 8 (fst (to_siphash_key hash)) ++ le_bytes 8 (snd (to_siphash_key hash)) = hash.
Proof.
  intros B L. unfold to_siphash_key. cbn [fst snd]. split; [now apply word64|]. split; [apply word64; now apply byte_skipn|].
  assert (F1 : length (firstn 8 hash) = 8%nat) by (rewrite firstn_length; lia). assert (F2 : length (firstn 8 (skipn 8 hash)) = 8%nat) by (rewrite firstn_length, skipn_length; lia).
  assert (LB : forall l, bytes_ok l -> length l = 8%nat -> le_bytes 8 (le_value l) = l) by (intros l Bl Ll; pose proof (le_bytes_value l Bl) as X; rewrite Ll in X; exact X).
  rewrite (LB _ (byte_firstn 8 _ B) F1), (LB _ (byte_firstn 8 _ (byte_skipn 8 _ B)) F2).
  rewrite (firstn_all2 (skipn 8 hash)) by (rewrite skipn_length; lia). apply firstn_skipn.
Qed.
Print Assumptions C92_key.
(** The test vector of the paper. *)
Example C92_ex : siphash (to_siphash_key (map Z.of_nat (seq 0 16))) (map Z.of_nat (seq 0 15)) = 0xa129ca6149be45e5 /\
  siphash24 (fst (to_siphash_key (map Z.of_nat (seq 0 16)))) (snd (to_siphash_key (map Z.of_nat (seq 0 16)))) (map Z.of_nat (seq 0 15)) = 0xa129ca6149be45e5.
Proof. split; reflexivity. Qed.
