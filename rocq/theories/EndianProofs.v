From Verif Require Import Base Bytes MathModel MathSpec MathProofs BitProofs EndianModel.

Lemma wrap_u8 v : wrap u8 v = v mod 256. Proof. reflexivity. Qed.
Lemma shiftr8 v : Z.shiftr v 8 = v / 256.
Proof. rewrite Z.shiftr_div_pow2 by lia. reflexivity. Qed.

Lemma to_little_loop_eq n v : to_little_loop n v = le_bytes n v.
Proof.
  revert v. induction n; intros; cbn [to_little_loop le_bytes]; [reflexivity|].
  rewrite wrap_u8, shiftr8, IHn. reflexivity.
Qed.
Lemma to_big_loop_eq n v : to_big_loop n v = be_bytes n v.
Proof.
  revert v. induction n; intros; unfold be_bytes in *; cbn [to_big_loop le_bytes rev]; [reflexivity|].
  rewrite wrap_u8, shiftr8, IHn. reflexivity.
Qed.

Lemma lor_shift_byte v b : 0 <= b < 256 -> Z.lor (Z.shiftl v 8) b = v * 256 + b.
Proof.
  intros Hb. rewrite Z.shiftl_mul_pow2 by lia. change (2 ^ 8) with 256.
  rewrite Z.add_nocarry_lxor, ?Z.lxor_lor; try reflexivity.
  - apply Z.bits_inj'. intros i Hi. rewrite Z.land_spec, Z.bits_0.
    destruct (Z.lt_ge_cases i 8).
    + change 256 with (2 ^ 8). rewrite Z.mul_pow2_bits_low by lia. reflexivity.
    + rewrite (testbit_small b 8) by lia. apply andb_false_r.
  - apply Z.bits_inj'. intros i Hi. rewrite Z.land_spec, Z.bits_0.
    destruct (Z.lt_ge_cases i 8).
    + change 256 with (2 ^ 8). rewrite Z.mul_pow2_bits_low by lia. reflexivity.
    + rewrite (testbit_small b 8) by lia. apply andb_false_r.
Qed.

Lemma wrap_eq_of_cong T a b : 0 < bits T -> a mod 2 ^ bits T = b mod 2 ^ bits T -> wrap T a = wrap T b.
Proof.
  intros HB H. pose proof (pow2_pos (bits T)).
  apply (wrap_unique T a (wrap T b) (b / 2 ^ bits T - a / 2 ^ bits T + (wrap T b - b) / 2 ^ bits T)); [assumption|apply fits_wrap; assumption|].
  destruct (wrap_cong T b HB) as [k Hk]. rewrite Hk.
  replace (b + k * 2 ^ bits T - b) with (k * 2 ^ bits T) by lia. rewrite Z.div_mul by lia.
  pose proof (Z.div_mod a (2 ^ bits T)). pose proof (Z.div_mod b (2 ^ bits T)). nia.
Qed.

Lemma wrap_mod T a : 0 < bits T -> wrap T a mod 2 ^ bits T = a mod 2 ^ bits T.
Proof.
  intros HB. destruct (wrap_cong T a HB) as [k ->]. rewrite Z.mod_add; [reflexivity|]. pose proof (pow2_pos (bits T)). lia.
Qed.

Lemma lor_mod_pow2 a b n : 0 <= n -> Z.lor a b mod 2 ^ n = Z.lor (a mod 2 ^ n) (b mod 2 ^ n).
Proof.
  intros Hn. apply Z.bits_inj'. intros i Hi. rewrite Z.lor_spec.
  destruct (Z.lt_ge_cases i n).
  - rewrite !Z.mod_pow2_bits_low, Z.lor_spec by lia. reflexivity.
  - rewrite !Z.mod_pow2_bits_high by lia. reflexivity.
Qed.

Lemma from_step_eq T v w b : 0 < bits T -> 0 <= b < 256 -> wrap T v = wrap T w ->
  from_step T v b = wrap T (w * 256 + b).
Proof.
  intros HB Hb H. unfold from_step. pose proof (pow2_pos (bits T)).
  rewrite <- lor_shift_byte by assumption. apply wrap_eq_of_cong; [assumption|].
  rewrite !lor_mod_pow2 by lia. rewrite !wrap_mod by assumption. f_equal.
  rewrite !Z.shiftl_mul_pow2 by lia. rewrite <- (Z.mul_mod_idemp_l v), <- (Z.mul_mod_idemp_l w) by lia.
  rewrite <- (wrap_mod T v HB), <- (wrap_mod T w HB), H. reflexivity.
Qed.
Lemma wrap_wrap T v : 0 < bits T -> wrap T (wrap T v) = wrap T v.
Proof. intros. apply wrap_fits; [assumption|]. apply fits_wrap; assumption. Qed.

Lemma fold_from_step T l v w : 0 < bits T -> bytes_ok l -> wrap T v = wrap T w ->
  wrap T (fold_left (from_step T) l v) = wrap T (w * 256 ^ len l + be_value l).
Proof.
  intros HB H. revert v w. induction H as [|b l Hb Hl IH]; intros v w E.
  - cbn [fold_left]. rewrite E. f_equal. cbn. lia.
  - cbn [fold_left]. rewrite (IH _ (w * 256 + b)).
    + f_equal. unfold be_value. cbn [rev]. rewrite le_value_app, !len_rev, len_cons.
      replace (1 + len l) with (Z.succ (len l)) by lia. rewrite Z.pow_succ_r by apply len_nonneg.
      cbn [le_value]. lia.
    + rewrite (from_step_eq T v w b HB Hb E). apply wrap_wrap, HB.
Qed.
Lemma fold_from_step_fits T l v : 0 < bits T -> fits T v -> fits T (fold_left (from_step T) l v).
Proof.
  intros HB. revert v. induction l; intros v Hv; [exact Hv|]. cbn [fold_left]. apply IHl.
  unfold from_step. apply fits_wrap, HB.
Qed.

Lemma from_big_eq T n data : 0 < bits T -> bits T <> 8 -> bytes_ok data ->
  from_big_data T n data = wrap T (be_value (firstn n data)).
Proof.
  intros HB H8 Hd. unfold from_big_data. destruct (Z.eqb_spec (bits T) 8); [contradiction|].
  rewrite <- (wrap_fits T (fold_left _ _ 0)); [|exact HB|apply fold_from_step_fits; [exact HB|apply fits_0, HB]].
  rewrite (fold_from_step T _ 0 0 HB); [f_equal; lia|apply bytes_ok_firstn, Hd|reflexivity].
Qed.
Lemma from_little_eq T n data : 0 < bits T -> bits T <> 8 -> bytes_ok data ->
  from_little_data T n data = wrap T (le_value (firstn n data)).
Proof.
  intros HB H8 Hd. unfold from_little_data. destruct (Z.eqb_spec (bits T) 8); [contradiction|].
  rewrite <- (wrap_fits T (fold_left _ _ 0)); [|exact HB|apply fold_from_step_fits; [exact HB|apply fits_0, HB]].
  rewrite (fold_from_step T _ 0 0 HB); [|apply bytes_ok_rev, bytes_ok_firstn, Hd|reflexivity].
  unfold be_value. rewrite rev_involutive. f_equal.
Qed.

Lemma byte_n_eq i v : 0 <= i -> byte_n i v = byte_at v i.
Proof.
  intros. unfold byte_n, byte_at. rewrite wrap_u8, Z.shiftr_div_pow2 by lia.
  rewrite Z.pow_mul_r by lia. reflexivity.
Qed.
Lemma map_byte_n a n v : map (fun i => byte_n (Z.of_nat i) v) (seq a n) = le_bytes n (v / 256 ^ Z.of_nat a).
Proof.
  revert a. induction n; intros a; [reflexivity|]. cbn [seq map le_bytes]. rewrite byte_n_eq by lia. f_equal.
  rewrite IHn. f_equal. rewrite pow256_S, Z.div_div by (pose proof (pow256_pos a); lia). f_equal. lia.
Qed.
Lemma to_little_const_eq n v : to_little_const n v = le_bytes n v.
Proof. unfold to_little_const. rewrite map_byte_n. f_equal. apply Z.div_1_r. Qed.
Lemma to_big_const_eq n v : to_big_const n v = be_bytes n v.
Proof. unfold to_big_const, be_bytes. rewrite map_rev. f_equal. apply to_little_const_eq. Qed.

Lemma lor_low_high a b s : 0 <= s -> 0 <= a < 2 ^ s -> Z.lor a (Z.shiftl b s) = a + b * 2 ^ s.
Proof.
  intros Hs Ha. rewrite Z.shiftl_mul_pow2 by lia.
  rewrite Z.add_nocarry_lxor, ?Z.lxor_lor; try reflexivity;
  apply Z.bits_inj'; intros i Hi; rewrite Z.land_spec, Z.bits_0;
  (destruct (Z.lt_ge_cases i s);
  [rewrite Z.mul_pow2_bits_low by lia; apply andb_false_r|rewrite (testbit_small a s) by lia; reflexivity]).
Qed.
Lemma or_shifted_eq l s : 0 <= s -> bytes_ok l -> or_shifted l s = Z.shiftl (le_value l) s.
Proof.
  intros Hs H. revert s Hs. induction H as [|b l Hb Hl IH]; intros s Hs; cbn [or_shifted le_value].
  - rewrite Z.shiftl_0_l. reflexivity.
  - rewrite IH by lia. rewrite <- Z.shiftl_shiftl by lia.
    replace (Z.shiftl (Z.shiftl (le_value l) s) 8) with (Z.shiftl (Z.shiftl (le_value l) 8) s)
     by (rewrite !Z.shiftl_shiftl by lia; f_equal; lia).
    rewrite <- Z.shiftl_lor. f_equal. rewrite (lor_low_high b (le_value l) 8) by (change (2 ^ 8) with 256; unfold byte_ok in *; lia).
    change (2 ^ 8) with 256. lia.
Qed.
Lemma from_little_const_eq T l : bytes_ok l -> from_little_const T l = wrap T (le_value l).
Proof. intros. unfold from_little_const. rewrite or_shifted_eq by (assumption || lia). rewrite Z.shiftl_0_r. reflexivity. Qed.
Lemma from_big_const_eq T l : bytes_ok l -> from_big_const T l = wrap T (be_value l).
Proof.
  intros. unfold from_big_const. rewrite or_shifted_eq; [|lia|apply bytes_ok_rev; assumption].
  rewrite Z.shiftl_0_r. reflexivity.
Qed.

(** Byte swapping reverses the digits. *)
Definition native_width (w : nat) : Prop := w = 1%nat \/ w = 2%nat \/ w = 4%nat \/ w = 8%nat.
Lemma nth_ext_bytes (a b : list Z) : length a = length b ->
  (forall i, (i < length a)%nat -> nth i a 0 = nth i b 0) -> a = b.
Proof. intros. apply (nth_ext a b 0 0); assumption. Qed.
Lemma byteswap_bytes w v : native_width w -> 0 <= v < 256 ^ Z.of_nat w ->
  le_bytes w (byteswap w v) = be_bytes w v.
Proof.
  intros Hw Hv. unfold be_bytes.
  apply nth_ext_bytes; [rewrite rev_length, !le_bytes_length; reflexivity|].
  rewrite le_bytes_length. intros i Hi. rewrite rev_nth, le_bytes_length by (rewrite le_bytes_length; assumption).
  rewrite !nth_le_bytes by lia.
  change ((?v / 256 ^ ?i) mod 256) with (byte_at v i).
  destruct Hw as [->|[->|[->| ->]]]; cbn [byteswap].
  - assert (i = 0%nat) by lia. subst. reflexivity.
  - rewrite byte_swap16_byte; [f_equal; lia| |lia]. change (256 ^ Z.of_nat 2) with (2 ^ 16) in Hv. exact Hv.
  - rewrite byte_swap32_byte; [f_equal; lia| |lia]. change (256 ^ Z.of_nat 4) with (2 ^ 32) in Hv. exact Hv.
  - rewrite byte_swap64_byte; [f_equal; lia| |lia]. change (256 ^ Z.of_nat 8) with (2 ^ 64) in Hv. exact Hv.
Qed.
Lemma byteswap_range w v : native_width w -> 0 <= v < 256 ^ Z.of_nat w -> 0 <= byteswap w v < 256 ^ Z.of_nat w.
Proof.
  intros Hw Hv. destruct Hw as [->|[->|[->| ->]]]; cbn [byteswap].
  - exact Hv.
  - exact (byte_swap16_range v).
  - exact (byte_swap32_range v Hv).
  - exact (byte_swap64_range v Hv).
Qed.
Lemma be_byteswap_bytes w v : native_width w -> 0 <= v < 256 ^ Z.of_nat w ->
  be_bytes w (byteswap w v) = le_bytes w v.
Proof. intros Hw Hv. unfold be_bytes. rewrite byteswap_bytes by assumption. apply rev_involutive. Qed.
Lemma byteswap_value w l : native_width w -> length l = w -> bytes_ok l ->
  byteswap w (le_value l) = be_value l /\ byteswap w (be_value l) = le_value l.
Proof.
  intros Hw Hl Ho. pose proof (le_value_range l Ho) as R1. pose proof (be_value_range l Ho) as R2. unfold len in *. rewrite Hl in *.
  split; apply (le_bytes_inj w); auto using byteswap_range.
  - rewrite byteswap_bytes by assumption. unfold be_bytes, be_value. rewrite <- Hl, le_bytes_value by assumption.
    rewrite <- rev_length. rewrite le_bytes_value by (apply bytes_ok_rev; assumption). reflexivity.
  - rewrite byteswap_bytes by assumption. rewrite <- Hl, be_bytes_value, le_bytes_value by assumption. reflexivity.
Qed.

Lemma to_little_endian_eq h w v : native_width w -> 0 <= v < 256 ^ Z.of_nat w -> to_little_endian h w v = le_bytes w v.
Proof.
  intros. unfold to_little_endian, object_bytes, native_little. destruct h; [reflexivity|]. apply be_byteswap_bytes; assumption.
Qed.
Lemma to_big_endian_eq h w v : native_width w -> 0 <= v < 256 ^ Z.of_nat w -> to_big_endian h w v = be_bytes w v.
Proof.
  intros. unfold to_big_endian, object_bytes, native_big. destruct h; [|reflexivity]. apply byteswap_bytes; assumption.
Qed.
Lemma from_little_endian_eq h w l : native_width w -> length l = w -> bytes_ok l -> from_little_endian h w l = le_value l.
Proof.
  intros. unfold from_little_endian, object_value, native_little. destruct h; [reflexivity|]. apply byteswap_value; assumption.
Qed.
Lemma from_big_endian_eq h w l : native_width w -> length l = w -> bytes_ok l -> from_big_endian h w l = be_value l.
Proof.
  intros. unfold from_big_endian, object_value, native_big. destruct h; [|reflexivity]. apply byteswap_value; assumption.
Qed.
