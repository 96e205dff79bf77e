From Verif Require Import Base MathModel MathSpec MathProofs.

Lemma testbit_cong v k n i : 0 <= i < n ->
  Z.testbit (v + k * 2 ^ n) i = Z.testbit v i.
Proof.
  intros H. rewrite <- (Z.mod_pow2_bits_low (v + k * 2 ^ n) n i) by lia.
  rewrite Z.mod_add by (pose proof (pow2_pos n); lia).
  apply Z.mod_pow2_bits_low. lia.
Qed.
Lemma bit_wrap T v i : 0 <= i < bits T -> bit (wrap T v) i = bit v i.
Proof.
  intros H. unfold bit. destruct (wrap_cong T v) as [k ->]; [lia|].
  apply testbit_cong; assumption.
Qed.
(** Values of a type are determined by their bits. *)
Lemma bit_ext T a b : 0 < bits T -> fits T a -> fits T b ->
  (forall i, 0 <= i < bits T -> bit a i = bit b i) -> a = b.
Proof.
  intros HB Ha Hb H.
  assert (E : a mod 2 ^ bits T = b mod 2 ^ bits T).
  { apply Z.bits_inj'. intros i Hi.
    destruct (Z.lt_ge_cases i (bits T)).
    - rewrite !Z.mod_pow2_bits_low by lia. apply H; lia.
    - rewrite !Z.mod_pow2_bits_high by lia. reflexivity. }
  rewrite <- (wrap_fits T a), <- (wrap_fits T b) by assumption.
  unfold wrap. destruct (sg T); [|assumption]. f_equal.
  rewrite <- (Zplus_mod_idemp_l a), <- (Zplus_mod_idemp_l b), E. reflexivity.
Qed.

Lemma bit_wrap_u T v i : 0 <= i < bits T -> bit (wrap (unsigned_of T) v) i = bit v i.
Proof. intros. apply (bit_wrap (unsigned_of T)). assumption. Qed.
Lemma bit_wrap_u_high T v i : 0 < bits T -> bits T <= i ->
  bit (wrap (unsigned_of T) v) i = false.
Proof. intros. unfold bit, wrap. cbn. apply Z.mod_pow2_bits_high. lia. Qed.

Lemma shift_left_bit T v s o i :
  0 < bits T -> 0 <= s -> 0 <= i < bits T ->
  bit (shift_left T v s o) i =
    if o && (bits T <=? s) then false
    else (s mod bits T <=? i) && bit v (i - s mod bits T).
Proof.
  intros HB Hs Hi. unfold shift_left. destruct (o && (bits T <=? s)).
  - unfold bit. apply Z.testbit_0_l.
  - rewrite bit_wrap by assumption. pose proof (Z.mod_pos_bound s (bits T) HB).
    unfold bit at 1. rewrite Z.shiftl_spec by lia.
    destruct (Z.leb_spec (s mod bits T) i); cbn [andb].
    + change (Z.testbit ?a ?b) with (bit a b). apply bit_wrap_u. lia.
    + apply Z.testbit_neg_r. lia.
Qed.
Lemma shift_right_bit T v s o i :
  0 < bits T -> 0 <= s -> 0 <= i < bits T ->
  bit (shift_right T v s o) i =
    if o && (bits T <=? s) then false
    else (i + s mod bits T <? bits T) && bit v (i + s mod bits T).
Proof.
  intros HB Hs Hi. unfold shift_right. destruct (o && (bits T <=? s)).
  - unfold bit. apply Z.testbit_0_l.
  - rewrite bit_wrap by assumption. pose proof (Z.mod_pos_bound s (bits T) HB).
    unfold bit at 1. rewrite Z.shiftr_spec by lia.
    change (Z.testbit ?a ?b) with (bit a b).
    destruct (Z.ltb_spec (i + s mod bits T) (bits T)); cbn [andb].
    + apply bit_wrap_u. lia.
    + apply bit_wrap_u_high; lia.
Qed.
Lemma shift_left_fits T v s o : 0 < bits T -> fits T (shift_left T v s o).
Proof.
  intros. unfold shift_left. destruct (o && _); [|apply fits_wrap; assumption].
  ity_facts T. unfold fits, imin, imax. destruct (sg T); lia.
Qed.
Lemma shift_right_fits T v s o : 0 < bits T -> fits T (shift_right T v s o).
Proof.
  intros. unfold shift_right. destruct (o && _); [|apply fits_wrap; assumption].
  ity_facts T. unfold fits, imin, imax. destruct (sg T); lia.
Qed.

Lemma bit_or_bit T a b i : 0 <= i < bits T -> bit (bit_or T a b) i = bit a i || bit b i.
Proof. intros. unfold bit_or. rewrite bit_wrap by assumption. apply Z.lor_spec. Qed.
Lemma bit_and_bit T a b i : 0 <= i < bits T -> bit (bit_and T a b) i = bit a i && bit b i.
Proof. intros. unfold bit_and. rewrite bit_wrap by assumption. apply Z.land_spec. Qed.
Lemma bit_not_bit T a i : 0 <= i < bits T -> bit (bit_not T a) i = negb (bit a i).
Proof. intros. unfold bit_not. rewrite bit_wrap by assumption. apply Z.lnot_spec. lia. Qed.
Lemma bit_all_bit T i : 0 <= i < bits T -> bit (bit_all T) i = true.
Proof. intros. unfold bit_all. rewrite bit_wrap by assumption. unfold bit. apply Z.bits_m1. lia. Qed.

Lemma rotate_left_bit T v s i :
  0 < bits T -> 0 <= s -> 0 <= i < bits T ->
  bit (rotate_left T v s) i = bit v ((i - s) mod bits T).
Proof.
  intros HB Hs Hi. unfold rotate_left. rewrite bit_or_bit by assumption.
  pose proof (Z.mod_pos_bound s (bits T) HB) as Hc.
  rewrite shift_left_bit, shift_right_bit by lia. cbn [andb].
  replace ((i - s) mod bits T) with ((i - s mod bits T) mod bits T).
  2:{ rewrite Zminus_mod_idemp_r. reflexivity. }
  rewrite Zmod_mod. set (c := s mod bits T) in *.
  destruct (Z.eq_dec c 0) as [->|Hc0].
  - rewrite ?Z.sub_0_r, ?Z_mod_same_full, ?Z.mod_0_l, ?Z.sub_0_r, ?Z.add_0_r, ?(Z.mod_small i) by lia.
    destruct (Z.leb_spec 0 i), (Z.ltb_spec i (bits T)); try lia; cbn; try apply orb_diag.
  - rewrite (Z.mod_small (bits T - c)) by lia.
    destruct (Z.leb_spec c i); cbn [andb].
    + destruct (Z.ltb_spec (i + (bits T - c)) (bits T)); [lia|]. cbn [andb].
      rewrite orb_false_r, Z.mod_small by lia. reflexivity.
    + destruct (Z.ltb_spec (i + (bits T - c)) (bits T)); [|lia]. cbn [andb orb].
      f_equal. rewrite <- (Z.mod_add (i - c) 1), Z.mod_small by lia. lia.
Qed.
Lemma rotate_right_bit T v s i :
  0 < bits T -> 0 <= s -> 0 <= i < bits T ->
  bit (rotate_right T v s) i = bit v ((i + s) mod bits T).
Proof.
  intros HB Hs Hi. unfold rotate_right. rewrite bit_or_bit by assumption.
  pose proof (Z.mod_pos_bound s (bits T) HB) as Hc.
  rewrite shift_left_bit, shift_right_bit by lia. cbn [andb].
  rewrite <- (Zplus_mod_idemp_r s i). rewrite Zmod_mod.
  set (c := s mod bits T) in *.
  destruct (Z.eq_dec c 0) as [->|Hc0].
  - rewrite ?Z.sub_0_r, ?Z_mod_same_full, ?Z.mod_0_l, ?Z.sub_0_r, ?Z.add_0_r, ?(Z.mod_small i) by lia.
    destruct (Z.leb_spec 0 i), (Z.ltb_spec i (bits T)); try lia; cbn; try apply orb_diag.
  - rewrite (Z.mod_small (bits T - c)) by lia.
    destruct (Z.ltb_spec (i + c) (bits T)); cbn [andb orb].
    + destruct (Z.leb_spec (bits T - c) i); [lia|]. cbn [andb].
      rewrite orb_false_r, Z.mod_small by lia. reflexivity.
    + destruct (Z.leb_spec (bits T - c) i); [|lia]. cbn [andb].
      f_equal. rewrite <- (Z.mod_add (i + c) (-1)), Z.mod_small by lia. lia.
Qed.
Lemma rotate_left_fits T v s : 0 < bits T -> fits T (rotate_left T v s).
Proof. intros. apply fits_wrap. assumption. Qed.
Lemma rotate_right_fits T v s : 0 < bits T -> fits T (rotate_right T v s).
Proof. intros. apply fits_wrap. assumption. Qed.
Lemma rotate_right_left T v s : 0 < bits T -> 0 <= s -> fits T v ->
  rotate_right T (rotate_left T v s) s = v.
Proof.
  intros HB Hs Hv. apply (bit_ext T); try assumption; [apply rotate_right_fits; assumption|].
  intros i Hi. rewrite rotate_right_bit by assumption.
  rewrite rotate_left_bit by (try assumption; apply Z.mod_pos_bound; assumption).
  rewrite Zminus_mod_idemp_l. replace (i + s - s) with i by lia.
  rewrite Z.mod_small by assumption. reflexivity.
Qed.
Lemma rotate_left_right T v s : 0 < bits T -> 0 <= s -> fits T v ->
  rotate_left T (rotate_right T v s) s = v.
Proof.
  intros HB Hs Hv. apply (bit_ext T); try assumption; [apply rotate_left_fits; assumption|].
  intros i Hi. rewrite rotate_left_bit by assumption.
  rewrite rotate_right_bit by (try assumption; apply Z.mod_pos_bound; assumption).
  rewrite Zplus_mod_idemp_l. replace (i - s + s) with i by lia.
  rewrite Z.mod_small by assumption. reflexivity.
Qed.
Lemma rotl_nominal_eq T v s : 0 < bits T -> sg T = false -> 0 <= s -> fits T v ->
  rotl_nominal T v s = rotate_left T v s.
Proof.
  intros HB S Hs Hv. apply (bit_ext T); try assumption.
  - unfold rotl_nominal. destruct (_ =? _); [assumption|apply fits_wrap; assumption].
  - apply rotate_left_fits; assumption.
  - intros i Hi. unfold rotl_nominal, rotate_left.
    pose proof (Z.mod_pos_bound s (bits T) HB) as Hc.
    destruct (Z.eqb_spec (s mod bits T) 0) as [E|E].
    + fold (rotate_left T v s). rewrite rotate_left_bit by assumption.
      f_equal. rewrite <- Zminus_mod_idemp_r, E, Z.sub_0_r, Z.mod_small by lia. reflexivity.
    + rewrite bit_wrap, bit_or_bit by assumption.
      rewrite shift_left_bit, shift_right_bit by lia. cbn [andb].
      rewrite Zmod_mod, (Z.mod_small (bits T - _)) by lia.
      unfold bit at 1. rewrite Z.lor_spec, Z.shiftl_spec, Z.shiftr_spec by lia.
      f_equal.
      * destruct (Z.leb_spec (s mod bits T) i); [reflexivity|]. apply Z.testbit_neg_r; lia.
      * destruct (Z.ltb_spec (i + (bits T - s mod bits T)) (bits T)); [reflexivity|].
        rewrite fits_unsigned in Hv by assumption.
        rewrite <- (Z.mod_small v (2 ^ bits T)) by lia. apply Z.mod_pow2_bits_high. lia.
Qed.

Lemma rotr_nominal_eq T v s : 0 < bits T -> sg T = false -> 0 <= s -> fits T v ->
  rotr_nominal T v s = rotate_right T v s.
Proof.
  intros HB S Hs Hv. apply (bit_ext T); try assumption.
  - unfold rotr_nominal. destruct (_ =? _); [assumption|apply fits_wrap; assumption].
  - apply rotate_right_fits; assumption.
  - intros i Hi. unfold rotr_nominal, rotate_right.
    pose proof (Z.mod_pos_bound s (bits T) HB) as Hc.
    destruct (Z.eqb_spec (s mod bits T) 0) as [E|E].
    + fold (rotate_right T v s). rewrite rotate_right_bit by assumption.
      f_equal. rewrite <- Zplus_mod_idemp_r, E, Z.add_0_r, Z.mod_small by lia. reflexivity.
    + rewrite bit_wrap, bit_or_bit by assumption.
      rewrite shift_left_bit, shift_right_bit by lia. cbn [andb].
      rewrite Zmod_mod, (Z.mod_small (bits T - _)) by lia.
      unfold bit at 1. rewrite Z.lor_spec, Z.shiftl_spec, Z.shiftr_spec by lia.
      f_equal.
      * destruct (Z.ltb_spec (i + s mod bits T) (bits T)); [reflexivity|].
        rewrite fits_unsigned in Hv by assumption.
        rewrite <- (Z.mod_small v (2 ^ bits T)) by lia. apply Z.mod_pow2_bits_high. lia.
      * destruct (Z.leb_spec (bits T - s mod bits T) i); [reflexivity|]. apply Z.testbit_neg_r; lia.
Qed.

Lemma bit_right_bit T o i : 0 < bits T -> 0 <= o < bits T -> 0 <= i < bits T ->
  bit (bit_right T o) i = (i =? o).
Proof.
  intros HB Ho Hi. unfold bit_right. rewrite shift_left_bit by lia. cbn [andb].
  rewrite Z.mod_small by lia. unfold bit.
  destruct (Z.leb_spec o i); cbn [andb]; [|lia].
  destruct (Z.eqb_spec i o) as [->|]; [rewrite Z.sub_diag; reflexivity|].
  apply Z.bits_above_log2; cbn; lia.
Qed.
Lemma bit_left_bit T o i : 0 < bits T -> 0 <= o -> 0 <= i < bits T ->
  bit (bit_left T o) i = (i =? bits T - 1 - o).
Proof.
  intros HB Ho Hi. unfold bit_left. destruct (Z.leb_spec (bits T) o).
  - unfold bit. rewrite Z.testbit_0_l. lia.
  - rewrite bit_right_bit by lia. lia.
Qed.
Lemma fits_0 T : 0 < bits T -> fits T 0.
Proof. intros. ity_facts T. unfold fits, imin, imax. destruct (sg T); lia. Qed.
Lemma and_single T v w o : 0 < bits T -> 0 <= o < bits T ->
  (forall i, 0 <= i < bits T -> bit w i = (i =? o)) ->
  negb (bit_and T v w =? 0) = bit v o.
Proof.
  intros HB Ho Hw. destruct (Z.eqb_spec (bit_and T v w) 0) as [E|E]; cbn [negb].
  - pose proof (bit_and_bit T v w o Ho) as H. rewrite E, Hw, Z.eqb_refl, andb_true_r in H by assumption.
    rewrite <- H. unfold bit. symmetry. apply Z.testbit_0_l.
  - destruct (bit v o) eqn:C; [reflexivity|]. exfalso. apply E.
    apply (bit_ext T); [assumption|apply fits_wrap; assumption|apply fits_0; assumption|].
    intros i Hi. rewrite bit_and_bit, Hw by assumption.
    unfold bit at 2. rewrite Z.testbit_0_l.
    destruct (Z.eqb_spec i o) as [->|]; [rewrite C; reflexivity|apply andb_false_r].
Qed.
Lemma get_right_ok T v o : 0 < bits T -> 0 <= o < bits T -> get_right T v o = bit v o.
Proof.
  intros HB Ho. unfold get_right. apply and_single; try assumption.
  intros. apply bit_right_bit; assumption.
Qed.
Lemma get_left_ok T v o : 0 < bits T -> 0 <= o < bits T ->
  get_left T v o = bit v (bits T - 1 - o).
Proof.
  intros HB Ho. unfold get_left. apply and_single; try assumption; [lia|].
  intros. apply bit_left_bit; try assumption; lia.
Qed.
Lemma set_right_bit T v o s i : 0 < bits T -> 0 <= o < bits T -> 0 <= i < bits T ->
  bit (set_right T v o s) i = if i =? o then s else bit v i.
Proof.
  intros HB Ho Hi. unfold set_right. destruct s.
  - rewrite bit_or_bit, bit_right_bit by assumption. destruct (i =? o); [apply orb_true_r|apply orb_false_r].
  - rewrite bit_and_bit, bit_not_bit, bit_right_bit by assumption.
    destruct (i =? o); cbn; [apply andb_false_r|apply andb_true_r].
Qed.
Lemma set_left_bit T v o s i : 0 < bits T -> 0 <= o < bits T -> 0 <= i < bits T ->
  bit (set_left T v o s) i = if i =? bits T - 1 - o then s else bit v i.
Proof.
  intros HB Ho Hi. unfold set_left. destruct s.
  - rewrite bit_or_bit, bit_left_bit by lia. destruct (i =? _); [apply orb_true_r|apply orb_false_r].
  - rewrite bit_and_bit, bit_not_bit, bit_left_bit by lia.
    destruct (i =? _); cbn; [apply andb_false_r|apply andb_true_r].
Qed.
Lemma mask_left_bit T n i : 0 < bits T -> 0 <= n -> 0 <= i < bits T ->
  bit (mask_left T n) i = (i <? bits T - n).
Proof.
  intros HB Hn Hi. unfold mask_left. rewrite shift_right_bit by lia. cbn [andb].
  destruct (Z.leb_spec (bits T) n); [lia|].
  rewrite Z.mod_small by lia. destruct (Z.ltb_spec (i + n) (bits T)); cbn [andb]; [|lia].
  rewrite bit_all_bit by lia. lia.
Qed.
Lemma mask_right_bit T n i : 0 < bits T -> 0 <= n -> 0 <= i < bits T ->
  bit (mask_right T n) i = (n <=? i).
Proof.
  intros HB Hn Hi. unfold mask_right. rewrite shift_left_bit by lia. cbn [andb].
  destruct (Z.leb_spec (bits T) n); [lia|].
  rewrite Z.mod_small by lia. destruct (Z.leb_spec n i); cbn [andb]; [|lia].
  rewrite bit_all_bit by lia. reflexivity.
Qed.
Lemma unmask_left_bit T n i : 0 < bits T -> 0 <= n -> 0 <= i < bits T ->
  bit (unmask_left T n) i = (bits T - n <=? i).
Proof. intros. unfold unmask_left. rewrite bit_not_bit, mask_left_bit by assumption. lia. Qed.
Lemma unmask_right_bit T n i : 0 < bits T -> 0 <= n -> 0 <= i < bits T ->
  bit (unmask_right T n) i = (i <? n).
Proof. intros. unfold unmask_right. rewrite bit_not_bit, mask_right_bit by assumption. lia. Qed.

(** left shift overflow predicate: exactly when bits are lost. *)
Lemma is_left_shift_overflow_ok T v n : 0 < bits T -> sg T = false -> fits T v -> 0 <= n ->
  is_left_shift_overflow T v n = negb (v * 2 ^ n <? 2 ^ bits T).
Proof.
  intros HB S Hv Hn. unfold is_left_shift_overflow. f_equal.
  rewrite fits_unsigned in Hv by assumption.
  assert (0 < 2 ^ n) by (apply pow2_pos; lia).
  destruct (Z.eqb_spec (bit_and T v (unmask_left T n)) 0) as [E|E]; symmetry.
  - apply Z.ltb_lt.
    assert (Hbits : forall i, bits T - n <= i -> 0 <= i -> Z.testbit v i = false).
    { intros i Hi Hi0. destruct (Z.lt_ge_cases i (bits T)).
      - pose proof (bit_and_bit T v (unmask_left T n) i ltac:(lia)) as H1.
        rewrite E, unmask_left_bit in H1 by lia. unfold bit in H1.
        rewrite Z.testbit_0_l in H1. destruct (Z.leb_spec (bits T - n) i); [|lia].
        rewrite andb_true_r in H1. symmetry. exact H1.
      - rewrite <- (Z.mod_small v (2 ^ bits T)) by lia. apply Z.mod_pow2_bits_high. lia. }
    destruct (Z.eq_dec v 0) as [->|Hv0]; [rewrite Z.mul_0_l; apply pow2_pos; lia|].
    destruct (Z.le_gt_cases (bits T - n) (Z.log2 v)) as [C|C].
    + pose proof (Hbits (Z.log2 v) C (Z.log2_nonneg v)) as H1.
      rewrite Z.bit_log2 in H1 by lia. discriminate.
    + pose proof (Z.log2_spec v ltac:(lia)) as [_ H1].
      assert (2 ^ Z.succ (Z.log2 v) <= 2 ^ (bits T - n)).
      { apply Z.pow_le_mono_r; lia. }
      pose proof (Z.log2_nonneg v).
      assert (2 ^ bits T = 2 ^ (bits T - n) * 2 ^ n).
      { rewrite <- Z.pow_add_r by lia. f_equal. lia. }
      nia.
  - apply Z.ltb_ge. destruct (Z.le_gt_cases (2 ^ bits T) (v * 2 ^ n)) as [|C]; [assumption|].
    exfalso. apply E. apply (bit_ext T); [assumption|apply fits_wrap; assumption|apply fits_0; assumption|].
    intros i Hi. rewrite bit_and_bit, unmask_left_bit by lia. unfold bit at 2. rewrite Z.testbit_0_l.
    destruct (Z.leb_spec (bits T - n) i); [|apply andb_false_r]. rewrite andb_true_r.
    unfold bit. destruct (Z.eq_dec v 0) as [->|Hv0]; [apply Z.testbit_0_l|].
    apply Z.bits_above_log2; [lia|].
    assert (Z.log2 v < i); [|lia]. apply Z.log2_lt_pow2; [lia|].
    destruct (Z.le_gt_cases n (bits T)).
    + assert (2 ^ bits T = 2 ^ (bits T - n) * 2 ^ n).
      { rewrite <- Z.pow_add_r by lia. f_equal. lia. }
      assert (v < 2 ^ (bits T - n)) by nia.
      assert (2 ^ (bits T - n) <= 2 ^ i) by (apply Z.pow_le_mono_r; lia). lia.
    + assert (2 ^ bits T <= 2 ^ n) by (apply Z.pow_le_mono_r; lia). nia.
Qed.

Lemma pack_unpack_word T H v :
  0 < bits H -> bits T = 2 * bits H -> sg T = false -> sg H = false -> fits T v ->
  let '(hi, lo) := unpack_word T H v in fits H hi /\ fits H lo /\ pack_word T hi lo = v.
Proof.
  intros HH HT ST SH Hv. unfold unpack_word. rewrite HT.
  replace (2 * bits H / 2) with (bits H) by (rewrite Z.mul_comm, Z.div_mul; lia).
  split; [apply fits_wrap; assumption|]. split; [apply fits_wrap; assumption|].
  assert (HB : 0 < bits T) by lia.
  apply (bit_ext T); [assumption|apply fits_wrap; assumption|assumption|].
  intros i Hi. unfold pack_word. rewrite HT.
  replace (2 * bits H / 2) with (bits H) by (rewrite Z.mul_comm, Z.div_mul; lia).
  rewrite bit_or_bit by assumption. rewrite shift_left_bit, bit_and_bit, unmask_right_bit by lia.
  cbn [andb]. rewrite Z.mod_small by lia.
  destruct (Z.leb_spec (bits H) i).
  - destruct (Z.ltb_spec i (bits H)); [lia|]. cbn [andb orb]. rewrite orb_false_r.
    rewrite bit_wrap by lia. rewrite shift_right_bit by lia. cbn [andb].
    rewrite Z.mod_small by lia. destruct (Z.ltb_spec (i - bits H + bits H) (bits T)); [|lia].
    cbn [andb]. f_equal. lia.
  - destruct (Z.ltb_spec i (bits H)); [|lia]. cbn [andb orb].
    rewrite bit_wrap by lia. rewrite bit_and_bit, unmask_right_bit by lia.
    destruct (Z.ltb_spec i (bits H)); [|lia]. reflexivity.
Qed.
Lemma unpack_pack_word T H hi lo :
  0 < bits H -> bits T = 2 * bits H -> sg T = false -> sg H = false ->
  fits H hi -> fits H lo -> unpack_word T H (pack_word T hi lo) = (hi, lo).
Proof.
  intros HH HT ST SH Fh Fl.
  assert (HB : 0 < bits T) by lia.
  unfold unpack_word. rewrite HT.
  replace (2 * bits H / 2) with (bits H) by (rewrite Z.mul_comm, Z.div_mul; lia).
  assert (Hp : forall i, 0 <= i < bits T -> bit (pack_word T hi lo) i =
     if bits H <=? i then bit hi (i - bits H) else bit lo i).
  { intros i Hi. unfold pack_word. rewrite HT.
    replace (2 * bits H / 2) with (bits H) by (rewrite Z.mul_comm, Z.div_mul; lia).
    rewrite bit_or_bit by assumption. rewrite shift_left_bit, bit_and_bit, unmask_right_bit by lia.
    cbn [andb]. rewrite Z.mod_small by lia.
    destruct (Z.leb_spec (bits H) i), (Z.ltb_spec i (bits H)); try lia; cbn [andb orb];
      rewrite ?orb_false_r; reflexivity. }
  f_equal; (apply (bit_ext H); [assumption|apply fits_wrap; assumption|assumption|]); intros i Hi;
    rewrite bit_wrap by assumption.
  - rewrite shift_right_bit by lia. cbn [andb]. rewrite Z.mod_small by lia.
    destruct (Z.ltb_spec (i + bits H) (bits T)); [|lia]. cbn [andb].
    rewrite Hp by lia. destruct (Z.leb_spec (bits H) (i + bits H)); [|lia]. f_equal. lia.
  - rewrite bit_and_bit, unmask_right_bit by lia. destruct (Z.ltb_spec i (bits H)); [|lia].
    cbn [andb]. rewrite Hp by lia. destruct (Z.leb_spec (bits H) i); [lia|]. reflexivity.
Qed.

(** ** Byte swap, positionally. *)
Lemma byte_at_bit v i j : 0 <= i -> 0 <= j < 8 -> bit (byte_at v i) j = bit v (8 * i + j).
Proof.
  intros Hi Hj. unfold byte_at, bit. change 256 with (2 ^ 8).
  rewrite Z.mod_pow2_bits_low by lia. rewrite <- Z.pow_mul_r by lia.
  rewrite Z.div_pow2_bits by lia. f_equal. lia.
Qed.
Lemma byte_at_range v i : fits u8 (byte_at v i).
Proof. unfold byte_at, fits. cbn. pose proof (Z.mod_pos_bound (v / 256 ^ i) 256). lia. Qed.
Lemma byte_at_ext v w i j : 0 <= i -> 0 <= j ->
  (forall k, 0 <= k < 8 -> bit v (8 * i + k) = bit w (8 * j + k)) -> byte_at v i = byte_at w j.
Proof.
  intros Hi Hj H. apply (bit_ext u8); [reflexivity|apply byte_at_range|apply byte_at_range|].
  cbn [bits u8]. intros k Hk. rewrite !byte_at_bit by assumption. apply H. assumption.
Qed.
Lemma testbit_small v n i : 0 <= v < 2 ^ n -> 0 <= n <= i -> Z.testbit v i = false.
Proof.
  intros H Hi. rewrite <- (Z.mod_small v (2 ^ n)) by lia. apply Z.mod_pow2_bits_high. lia.
Qed.
Lemma wrap_u_testbit n v i : 0 <= n -> 0 <= i -> Z.testbit (wrap (mkity false n) v) i = (i <? n) && Z.testbit v i.
Proof.
  intros Hn Hi. unfold wrap. cbn. destruct (Z.ltb_spec i n); cbn [andb].
  - apply Z.mod_pow2_bits_low. lia.
  - apply Z.mod_pow2_bits_high. lia.
Qed.
Definition mask_at (s : Z) : Z := 255 * 2 ^ s.
Lemma mask_at_bit s i : 0 <= s -> 0 <= i -> Z.testbit (mask_at s) i = (s <=? i) && (i <? s + 8).
Proof.
  intros Hs Hi. unfold mask_at. rewrite <- Z.shiftl_mul_pow2 by lia.
  rewrite Z.shiftl_spec by lia. change 255 with (Z.ones 8).
  destruct (Z.leb_spec s i); cbn [andb].
  - destruct (Z.ltb_spec i (s + 8)).
    + apply Z.ones_spec_low. lia.
    + apply Z.ones_spec_high. lia.
  - apply Z.testbit_neg_r. lia.
Qed.
Lemma shiftl_bit v s i : 0 <= i -> Z.testbit (Z.shiftl v s) i = Z.testbit v (i - s).
Proof. intros. apply Z.shiftl_spec. assumption. Qed.

Ltac enum8 k := assert (k = 0 \/ k = 1 \/ k = 2 \/ k = 3 \/ k = 4 \/ k = 5 \/ k = 6 \/ k = 7) as HK by lia;
  destruct HK as [->|[->|[->|[->|[->|[->|[->| ->]]]]]]].
Ltac swapbits :=
  repeat first [rewrite Z.lor_spec | rewrite Z.land_spec | rewrite wrap_u_testbit by lia
               | rewrite Z.shiftl_spec by lia | rewrite Z.shiftr_spec by lia];
  repeat match goal with |- context [Z.testbit (Zpos ?p) ?i] =>
    let x := eval vm_compute in (Z.testbit (Zpos p) i) in change (Z.testbit (Zpos p) i) with x end;
  repeat match goal with |- context [Z.testbit ?v ?i] =>
    let x := eval vm_compute in i in progress change (Z.testbit v i) with (Z.testbit v x) end;
  cbn [Z.ltb Z.compare Pos.compare Pos.compare_cont];
  repeat match goal with |- context [Z.testbit ?v (Zneg ?p)] => rewrite (Z.testbit_neg_r v (Zneg p)) by lia end;
  rewrite ?andb_true_r, ?andb_false_r, ?andb_true_l, ?andb_false_l, ?orb_false_r, ?orb_false_l.

Lemma byte_swap16_byte v i : 0 <= v < 2 ^ 16 -> 0 <= i < 2 ->
  byte_at (byte_swap16 v) i = byte_at v (1 - i).
Proof.
  intros Hv Hi. assert (Hs : forall j, 16 <= j -> Z.testbit v j = false) by (intros; apply (testbit_small v 16); lia).
  apply byte_at_ext; try lia. intros k Hk. unfold bit, byte_swap16.
  assert (i = 0 \/ i = 1) as [->| ->] by lia; enum8 k; unfold u16; swapbits;
   repeat match goal with |- context [Z.testbit v (Zpos ?p)] => rewrite (Hs (Zpos p)) by lia end; rewrite ?andb_false_r, ?orb_false_r, ?orb_false_l; reflexivity.
Qed.
Lemma byte_swap32_byte v i : 0 <= v < 2 ^ 32 -> 0 <= i < 4 ->
  byte_at (byte_swap32 v) i = byte_at v (3 - i).
Proof.
  intros Hv Hi. assert (Hs : forall j, 32 <= j -> Z.testbit v j = false) by (intros; apply (testbit_small v 32); lia).
  apply byte_at_ext; try lia. intros k Hk. unfold bit, byte_swap32.
  assert (i = 0 \/ i = 1 \/ i = 2 \/ i = 3) as [->|[->|[->| ->]]] by lia; enum8 k; unfold u32; swapbits;
   repeat match goal with |- context [Z.testbit v (Zpos ?p)] => rewrite (Hs (Zpos p)) by lia end; rewrite ?andb_false_r, ?orb_false_r, ?orb_false_l; reflexivity.
Qed.
Lemma byte_swap64_byte v i : 0 <= v < 2 ^ 64 -> 0 <= i < 8 ->
  byte_at (byte_swap64 v) i = byte_at v (7 - i).
Proof.
  intros Hv Hi. assert (Hs : forall j, 64 <= j -> Z.testbit v j = false) by (intros; apply (testbit_small v 64); lia).
  apply byte_at_ext; try lia. intros k Hk. unfold bit, byte_swap64.
  assert (i = 0 \/ i = 1 \/ i = 2 \/ i = 3 \/ i = 4 \/ i = 5 \/ i = 6 \/ i = 7)
    as [->|[->|[->|[->|[->|[->|[->| ->]]]]]]] by lia; enum8 k; unfold u64; swapbits;
   repeat match goal with |- context [Z.testbit v (Zpos ?p)] => rewrite (Hs (Zpos p)) by lia end; rewrite ?andb_false_r, ?orb_false_r, ?orb_false_l; reflexivity.
Qed.

Lemma byte_ext n v w : 0 <= n -> 0 <= v < 2 ^ (8 * n) -> 0 <= w < 2 ^ (8 * n) ->
  (forall i, 0 <= i < n -> byte_at v i = byte_at w i) -> v = w.
Proof.
  intros Hn Hv Hw H. apply Z.bits_inj'. intros i Hi.
  destruct (Z.lt_ge_cases i (8 * n)).
  - pose proof (Z.div_mod i 8 ltac:(lia)) as E. pose proof (Z.mod_pos_bound i 8 ltac:(lia)).
    assert (0 <= i / 8 < n) by (split; [apply Z.div_pos; lia|apply Z.div_lt_upper_bound; lia]).
    rewrite E. change (Z.testbit ?a ?b) with (bit a b).
    rewrite <- !byte_at_bit by lia. rewrite H by assumption. reflexivity.
  - rewrite !(testbit_small _ (8 * n)) by lia. reflexivity.
Qed.

Lemma lor_range a b n : 0 <= n -> 0 <= a < 2 ^ n -> 0 <= b < 2 ^ n -> 0 <= Z.lor a b < 2 ^ n.
Proof.
  intros Hn Ha Hb. split; [apply Z.lor_nonneg; lia|].
  destruct (Z.eq_dec (Z.lor a b) 0) as [->|H0]; [apply pow2_pos; lia|].
  assert (0 <= Z.lor a b) by (apply Z.lor_nonneg; lia).
  apply Z.log2_lt_pow2; [lia|]. rewrite Z.log2_lor by lia.
  destruct (Z.eq_dec a 0) as [->|]; destruct (Z.eq_dec b 0) as [->|]; cbn [Z.log2];
  repeat match goal with |- context [Z.log2 ?x] => lazymatch goal with H : Z.log2 x < n |- _ => fail | _ =>
     assert (Z.log2 x < n) by (apply Z.log2_lt_pow2; lia) end end; try lia.
  all: destruct (Z.eq_dec n 0) as [->|]; [cbn in *; lia|lia].
Qed.
Lemma land_range a b n : 0 <= n -> 0 <= a -> 0 <= b < 2 ^ n -> 0 <= Z.land a b < 2 ^ n.
Proof.
  intros Hn Ha Hb. split; [apply Z.land_nonneg; lia|].
  destruct (Z.eq_dec (Z.land a b) 0) as [->|H0]; [apply pow2_pos; lia|].
  assert (0 <= Z.land a b) by (apply Z.land_nonneg; lia).
  apply Z.log2_lt_pow2; [lia|]. pose proof (Z.log2_land a b ltac:(lia) ltac:(lia)).
  assert (b <> 0) by (intros ->; rewrite Z.land_0_r in H0; lia).
  assert (Z.log2 b < n) by (apply Z.log2_lt_pow2; lia). lia.
Qed.
Lemma shiftr_range v n s : 0 <= s -> 0 <= v < 2 ^ n -> 0 <= Z.shiftr v s < 2 ^ n.
Proof.
  intros Hs Hv. rewrite Z.shiftr_div_pow2 by lia. assert (0 < 2 ^ s) by (apply pow2_pos; lia).
  split; [apply Z.div_pos; lia|]. apply Z.div_lt_upper_bound; nia.
Qed.
Lemma byte_swap64_range v : 0 <= v < 2 ^ 64 -> 0 <= byte_swap64 v < 2 ^ 64.
Proof.
  intros Hv. unfold byte_swap64.
  assert (W : forall x, 0 <= wrap u64 x < 2 ^ 64) by (intros; unfold wrap; cbn; apply Z.mod_pos_bound; lia).
  repeat (apply lor_range; [lia| |]); try apply W;
   try (apply land_range; [lia| |lia]); try (apply W); try (apply (shiftr_range _ 64); lia).
Qed.
Lemma byte_swap32_range v : 0 <= v < 2 ^ 32 -> 0 <= byte_swap32 v < 2 ^ 32.
Proof.
  intros Hv. unfold byte_swap32.
  assert (W : forall x, 0 <= wrap u32 x < 2 ^ 32) by (intros; unfold wrap; cbn; apply Z.mod_pos_bound; lia).
  repeat (apply lor_range; [lia| |]); try apply W;
   try (apply land_range; [lia| |lia]); try (apply W); try (apply (shiftr_range _ 32); lia).
Qed.
Lemma byte_swap16_range v : 0 <= byte_swap16 v < 2 ^ 16.
Proof. unfold byte_swap16, wrap. cbn [sg u16 bits]. apply Z.mod_pos_bound. lia. Qed.

Lemma byte_swap16_inv v : 0 <= v < 2 ^ 16 -> byte_swap16 (byte_swap16 v) = v.
Proof.
  intros Hv. apply (byte_ext 2); [lia|apply byte_swap16_range|lia|]. intros i Hi.
  rewrite !byte_swap16_byte by (try apply byte_swap16_range; lia). f_equal. lia.
Qed.
Lemma byte_swap32_inv v : 0 <= v < 2 ^ 32 -> byte_swap32 (byte_swap32 v) = v.
Proof.
  intros Hv. pose proof (byte_swap32_range v Hv).
  apply (byte_ext 4); [lia|apply byte_swap32_range; assumption|lia|]. intros i Hi.
  rewrite !byte_swap32_byte by lia. f_equal. lia.
Qed.
Lemma byte_swap64_inv v : 0 <= v < 2 ^ 64 -> byte_swap64 (byte_swap64 v) = v.
Proof.
  intros Hv. pose proof (byte_swap64_range v Hv).
  apply (byte_ext 8); [lia|apply byte_swap64_range; assumption|lia|]. intros i Hi.
  rewrite !byte_swap64_byte by lia. f_equal. lia.
Qed.
