(** base85; fixed-width unpacking and packing (base32 and base2048). *)
From Verif Require Import Base Bytes MathModel MathSpec MathProofs BitProofs StreamModel StreamProofs2 BitStreamModel BitStreamSpec BitStreamProofs BitStreamProofs2
  RadixModel RadixSpec RadixProofs RadixProofs3.

(** * base85 *)
Lemma table85 d : 0 <= d < 85 -> let c := nth (Z.to_nat d) encoder85 0 in
  0 <= signed_char c - 32 <= 96 /\ nth (Z.to_nat (signed_char c - 32)) decoder85 0 = d.
Proof.
  intros Hd. assert (C : forallb (fun d => let c := nth (Z.to_nat d) encoder85 0 in
    (0 <=? signed_char c - 32) && (signed_char c - 32 <=? 96) && (nth (Z.to_nat (signed_char c - 32)) decoder85 0 =? d)) (range 85) = true) by (vm_compute; reflexivity).
  pose proof (forall_range _ 85 C d Hd) as C'. cbv beta zeta in C'. cbv zeta. rewrite !andb_true_iff in C'. lia.
Qed.
Lemma quad_ind (P : list Z -> Prop) : P [] -> (forall a b c d l, P l -> P (a :: b :: c :: d :: l)) ->
  forall l, len l mod 4 = 0 -> P l.
Proof.
  intros H0 H4. assert (G : forall n l, (length l <= n)%nat -> len l mod 4 = 0 -> P l).
  { induction n as [|n IH]; intros l L E; [destruct l; [exact H0|cbn in L; lia]|].
    destruct l as [|a [|b [|c [|d l]]]]; [exact H0|discriminate..|]. apply H4. apply IH; [cbn in L; lia|].
    rewrite !len_cons in E. replace (1 + (1 + (1 + (1 + len l)))) with (len l + 1 * 4) in E by lia. rewrite Z.mod_add in E by lia. exact E. }
  intros l. apply (G (length l)). lia.
Qed.
Lemma next_mod i m k : 0 < m -> i mod m = 0 -> 0 <= k < m -> (i + k) mod m = k.
Proof. intros Hm E Hk. pose proof (Z.div_mod i m ltac:(lia)). symmetry. apply (Z.mod_unique _ m (i / m)); lia. Qed.
Lemma next_mod_full i m : 0 < m -> i mod m = 0 -> (i + m) mod m = 0.
Proof. intros Hm E. replace (i + m) with (i + 1 * m) by lia. rewrite Z.mod_add by lia. exact E. Qed.
Lemma encode85_group a b c d r i : i mod 4 = 0 ->
  encode85 (a :: b :: c :: d :: r) 0 i = digits85 (((a * 256 + b) * 256 + c) * 256 + d) ++ encode85 r 0 (i + 4).
Proof.
  intros E. cbn [encode85].
  rewrite (next_mod i 4 1) by lia. change (1 =? 0) with false. cbv iota.
  replace (i + 1 + 1) with (i + 2) by lia. rewrite (next_mod i 4 2) by lia. change (2 =? 0) with false. cbv iota.
  replace (i + 2 + 1) with (i + 3) by lia. rewrite (next_mod i 4 3) by lia. change (3 =? 0) with false. cbv iota.
  replace (i + 3 + 1) with (i + 4) by lia. rewrite (next_mod_full i 4) by lia. reflexivity.
Qed.
Lemma decode85_char d r acc i out : 0 <= d < 85 ->
  decode85 (nth (Z.to_nat d) encoder85 0 :: r) acc i out =
  if (i + 1) mod 5 =? 0
  then decode85 r 0 (i + 1) (out ++ map (fun x => ((acc * 85 + d) / x) mod 256) [16777216; 65536; 256; 1])
  else decode85 r (acc * 85 + d) (i + 1) out.
Proof.
  intros Hd. destruct (table85 d Hd) as [R E]. cbn [decode85]. cbv zeta in *.
  replace ((signed_char (nth (Z.to_nat d) encoder85 0) - 32 <? 0) || (signed_char (nth (Z.to_nat d) encoder85 0) - 32 >? 96)) with false by lia.
  cbv iota. rewrite E. reflexivity.
Qed.
Lemma digits85_sum acc : 0 <= acc < 4294967296 ->
  let d k := (acc / k) mod 85 in
  (((d 52200625 * 85 + d 614125) * 85 + d 7225) * 85 + d 85) * 85 + d 1 = acc.
Proof.
  intros H. cbv beta zeta. rewrite Z.div_1_r.
  replace (acc / 52200625) with (acc / 85 / 85 / 85 / 85) by (rewrite !Z.div_div by lia; reflexivity).
  replace (acc / 614125) with (acc / 85 / 85 / 85) by (rewrite !Z.div_div by lia; reflexivity).
  replace (acc / 7225) with (acc / 85 / 85) by (rewrite !Z.div_div by lia; reflexivity).
  assert (0 <= acc / 85 / 85 / 85 / 85 < 85).
  { rewrite !Z.div_div by lia. split; [apply Z.div_pos; lia|apply Z.div_lt_upper_bound; lia]. }
  rewrite (Z.mod_small (acc / 85 / 85 / 85 / 85)) by lia.
  pose proof (Z.div_mod acc 85 ltac:(lia)). pose proof (Z.div_mod (acc / 85) 85 ltac:(lia)).
  pose proof (Z.div_mod (acc / 85 / 85) 85 ltac:(lia)). pose proof (Z.div_mod (acc / 85 / 85 / 85) 85 ltac:(lia)). lia.
Qed.
Lemma decode85_group acc r i out : 0 <= acc < 4294967296 -> i mod 5 = 0 ->
  decode85 (digits85 acc ++ r) 0 i out = decode85 r 0 (i + 5) (out ++ map (fun x => (acc / x) mod 256) [16777216; 65536; 256; 1]).
Proof.
  intros Ha Hi. pose proof (digits85_sum acc Ha) as E. cbv beta zeta in E. unfold digits85. cbn [map app].
  assert (M : forall k, 0 <= (acc / k) mod 85 < 85) by (intros; apply Z.mod_pos_bound; lia).
  rewrite decode85_char by apply M. rewrite (next_mod i 5 1) by lia. change (1 =? 0) with false. cbv iota.
  rewrite decode85_char by apply M. replace (i + 1 + 1) with (i + 2) by lia. rewrite (next_mod i 5 2) by lia. change (2 =? 0) with false. cbv iota.
  rewrite decode85_char by apply M. replace (i + 2 + 1) with (i + 3) by lia. rewrite (next_mod i 5 3) by lia. change (3 =? 0) with false. cbv iota.
  rewrite decode85_char by apply M. replace (i + 3 + 1) with (i + 4) by lia. rewrite (next_mod i 5 4) by lia. change (4 =? 0) with false. cbv iota.
  rewrite decode85_char by apply M. replace (i + 4 + 1) with (i + 5) by lia. rewrite (next_mod_full i 5) by lia. change (0 =? 0) with true. cbv iota.
  rewrite Z.mul_0_l, Z.add_0_l. rewrite E. reflexivity.
Qed.
Lemma bytes_of_word a b c d : 0 <= a < 256 -> 0 <= b < 256 -> 0 <= c < 256 -> 0 <= d < 256 ->
  map (fun x => ((((a * 256 + b) * 256 + c) * 256 + d) / x) mod 256) [16777216; 65536; 256; 1] = [a; b; c; d].
Proof.
  intros. cbn [map]. set (w := ((a * 256 + b) * 256 + c) * 256 + d). rewrite Z.div_1_r.
  rewrite (div_low w 16777216 a (b * 65536 + c * 256 + d)) by (unfold w; lia).
  rewrite (div_low w 65536 (a * 256 + b) (c * 256 + d)) by (unfold w; lia).
  rewrite (div_low w 256 (a * 65536 + b * 256 + c) d) by (unfold w; lia).
  rewrite (low8 a a 0), (low8 (a * 256 + b) b a), (low8 (a * 65536 + b * 256 + c) c (a * 256 + b)), (low8 w d (a * 65536 + b * 256 + c))
    by (unfold w; lia). reflexivity.
Qed.
Lemma decode85_encode l : len l mod 4 = 0 -> bytes_ok l -> forall i j out, i mod 4 = 0 -> j mod 5 = 0 ->
  decode85 (encode85 l 0 i) 0 j out = Some (out ++ l).
Proof.
  revert l. apply (quad_ind (fun l => bytes_ok l -> forall i j out, i mod 4 = 0 -> j mod 5 = 0 ->
    decode85 (encode85 l 0 i) 0 j out = Some (out ++ l))).
  - intros _ i j out _ _. cbn. rewrite app_nil_r. reflexivity.
  - intros a b c d l IH B i j out Hi Hj. inversion B as [|? ? Ha B1]; subst. inversion B1 as [|? ? Hb B2]; subst.
    inversion B2 as [|? ? Hc B3]; subst. inversion B3 as [|? ? Hd B4]; subst. unfold byte_ok in *.
    rewrite encode85_group by exact Hi. rewrite decode85_group by (try exact Hj; lia). rewrite bytes_of_word by lia.
    rewrite IH by (try assumption; try (apply next_mod_full; lia)). rewrite <- app_assoc. reflexivity.
Qed.
Lemma encode85_len l : len l mod 4 = 0 -> forall i, i mod 4 = 0 -> 4 * len (encode85 l 0 i) = 5 * len l.
Proof.
  revert l. apply (quad_ind (fun l => forall i, i mod 4 = 0 -> 4 * len (encode85 l 0 i) = 5 * len l)); [reflexivity|].
  intros a b c d l IH i Hi. rewrite encode85_group by exact Hi. unfold digits85. cbn [map app]. rewrite !len_cons.
  specialize (IH (i + 4) (next_mod_full i 4 ltac:(lia) Hi)). lia.
Qed.
Lemma decode85_round l t : bytes_ok l -> encode_base85 l = Some t -> decode_base85 t = Some l.
Proof.
  intros B E. unfold encode_base85 in E. destruct (Z.eqb_spec (len l mod 4) 0) as [M|M]; [|discriminate]. cbn [negb] in E. injection E as <-.
  unfold decode_base85. pose proof (encode85_len l M 0 eq_refl) as L.
  assert (len (encode85 l 0 0) mod 5 = 0) as ->.
  { pose proof (Z.div_mod (len l) 4 ltac:(lia)). replace (len (encode85 l 0 0)) with (len l / 4 * 5) by lia. apply Z.mod_mul. lia. }
  cbn [Z.eqb negb]. rewrite decode85_encode by (try assumption; reflexivity). reflexivity.
Qed.

(** * Reads past the end of the bit stream give zeros. *)
Definition zbad (b : brd) : Prop := bit_valid b = false /\ bbyte b = 0 /\ 0 <= boff b <= 8.
Lemma do_read1_zero s : good s = false \/ rest s = [] -> hd 0 (fst (do_read 1 s)) = 0.
Proof.
  intros H. unfold do_read, limiter. destruct (1 >? lim s); [reflexivity|]. unfold istream_read. cbn [good set_lim rest].
  destruct H as [H|H]; rewrite H; [reflexivity|]. cbn. destruct (negb (good s)); reflexivity.
Qed.
Lemma zbad_step b : zbad b -> let b1 := if bshift b =? 0 then load b else b in
  get_left u8 (bbyte b1) (boff b1) = false /\ zbad (mkbrd (bbase b1) (bbyte b1) (boff b1 + 1)).
Proof.
  intros (V & Z0 & R). cbv zeta. unfold bshift. destruct (Z.eqb_spec (8 - boff b) 0) as [E|E].
  - pose proof (load_bad b V) as LB. unfold load in *. pose proof (do_read1_zero (bbase b) (or_introl V)) as H.
    destruct (do_read 1 (bbase b)) as [d s]. cbn [bbase bbyte boff fst] in *. rewrite H. split; [reflexivity|].
    split; [exact LB|]. cbn [bbyte boff]. lia.
  - rewrite Z0. split; [rewrite get_left_ok by (cbn [bits u8]; lia); apply Z.bits_0|].
    split; [exact V|]. cbn [bbyte boff]. split; [reflexivity|lia].
Qed.
Lemma zbad_end src k u b : at_bit src k u b -> k = 8 * len src -> let b1 := if bshift b =? 0 then load b else b in
  get_left u8 (bbyte b1) (boff b1) = false /\ zbad (mkbrd (bbase b1) (bbyte b1) (boff b1 + 1)).
Proof.
  intros A E. pose proof (step_at src k u b A) as [_ S2]. specialize (S2 E). cbv zeta in *. pose proof A as (p & H1 & H2 & H3 & H4 & H5 & H6 & H7).
  destruct H2 as (P0 & G & _ & _ & R).
  assert (Pp : p = len src /\ boff b = 8) by lia. destruct Pp as [Pp P8]. unfold bshift in *. rewrite P8 in *.
  change (8 - 8 =? 0) with true in *. cbv iota in *.
  assert (RN : rest (bbase b) = []) by (rewrite R, Pp; unfold len; rewrite Nat2Z.id, skipn_all; reflexivity).
  unfold load in *. pose proof (do_read1_zero (bbase b) (or_intror RN)) as H.
  destruct (do_read 1 (bbase b)) as [d s]. cbn [bbase bbyte boff fst] in *. rewrite H. split; [reflexivity|].
  split; [exact S2|]. cbn [bbyte boff]. lia.
Qed.
Lemma set_right_false out n : 0 <= n < 64 -> 0 <= out < 2 ^ 64 -> (forall i, 0 <= i <= n -> Z.testbit out i = false) -> set_right u64 out n false = out.
Proof. intros. rewrite set_right_add by assumption. cbn [Z.b2z]. lia. Qed.
Lemma read_loop_zbad n : forall out b, zbad b -> (n <= 64)%nat -> 0 <= out < 2 ^ 64 ->
  (forall i, 0 <= i < Z.of_nat n -> Z.testbit out i = false) -> fst (read_bits_loop n out b) = out.
Proof.
  induction n as [|n IH]; intros out b Z0 Hn Ho Hz; [reflexivity|]. cbn [read_bits_loop]. unfold read_bit.
  destruct (zbad_step b Z0) as [V N]. cbv zeta in V, N. rewrite V. rewrite set_right_false by (try assumption; try lia; intros; apply Hz; lia).
  apply IH; [exact N|lia|exact Ho|intros; apply Hz; lia].
Qed.
Lemma bit_at_past src k : 8 * len src <= k -> bit_at src k = false.
Proof.
  intros H. unfold bit_at. rewrite nth_overflow; [apply Z.bits_0|]. assert (len src <= k / 8) by (apply Z.div_le_lower_bound; lia).
  unfold len in *. lia.
Qed.
Lemma field_past src n : 0 <= n -> forall k, 8 * len src <= k -> field src k n = 0.
Proof.
  intros Hn. pattern n. apply natlike_ind; [reflexivity| |exact Hn]. intros m Hm IH k H. unfold Z.succ. rewrite field_S by lia.
  rewrite bit_at_past by exact H. rewrite IH by lia. reflexivity.
Qed.
Lemma read_loop_past src n : forall out k u b, at_bit src k u b -> (n <= 64)%nat -> 0 <= out < 2 ^ 64 ->
  (forall i, 0 <= i < Z.of_nat n -> Z.testbit out i = false) -> fst (read_bits_loop n out b) = out + field src k (Z.of_nat n).
Proof.
  induction n as [|n IH]; intros out k u b H Hn Ho Hz.
  - cbn [read_bits_loop fst Z.of_nat]. rewrite field_0. lia.
  - destruct (Z.eq_dec k (8 * len src)) as [Ek|Ek].
    + cbn [read_bits_loop]. unfold read_bit. destruct (zbad_end src k u b H Ek) as [V N]. cbv zeta in V, N. rewrite V.
      rewrite set_right_false by (try assumption; try lia; intros; apply Hz; lia).
      rewrite read_loop_zbad by (try exact N; try lia; try exact Ho; intros; apply Hz; lia). rewrite field_past by lia. lia.
    + cbn [read_bits_loop]. unfold read_bit. destruct (step_at src k u b H) as [S1 _]. pose proof (at_bit_range _ _ _ _ H) as R.
      set (b1 := if bshift b =? 0 then load b else b) in *.
      destruct (S1 ltac:(lia)) as [V A]. rewrite V.
      assert (W : set_right u64 out (Z.of_nat n) (bit_at src k) = out + Z.b2z (bit_at src k) * 2 ^ Z.of_nat n).
      { apply set_right_add; [lia|exact Ho|]. intros i Hi. apply Hz. lia. }
      assert (Q : 0 <= out + Z.b2z (bit_at src k) * 2 ^ Z.of_nat n < 2 ^ 64 /\
        forall i, 0 <= i < Z.of_nat n -> Z.testbit (out + Z.b2z (bit_at src k) * 2 ^ Z.of_nat n) i = false).
      { rewrite <- W. split.
        - assert (F : fits u64 (set_right u64 out (Z.of_nat n) (bit_at src k))) by (unfold set_right; destruct (bit_at src k); unfold bit_or, bit_and; apply fits_wrap; reflexivity).
          unfold fits in F. cbn [imin imax u64 sg bits] in F. lia.
        - intros i Hi. change (bit (set_right u64 out (Z.of_nat n) (bit_at src k)) i = false). rewrite set_right_bit by (cbn [bits u64]; lia).
          destruct (Z.eqb_spec i (Z.of_nat n)); [lia|]. apply Hz. lia. }
      destruct Q as [Q1 Q2]. rewrite W. rewrite (IH _ (k + 1) true _ A ltac:(lia) Q1 Q2).
      rewrite Nat2Z.inj_succ. unfold Z.succ. rewrite field_S by lia. lia.
Qed.
Lemma read_bits_past src n k u b : at_bit src k u b -> 0 <= n <= 64 -> fst (read_bits n b) = field src k n.
Proof.
  intros H Hn. unfold read_bits. rewrite Z.min_r by lia.
  rewrite (read_loop_past src (Z.to_nat n) 0 k u b H) by (try lia; intros; apply Z.bits_0). rewrite Z2Nat.id by lia. lia.
Qed.
(** Number of fields of a width that cover a number of bits. *)
Definition cover (n w : Z) : Z := (n + w - 1) / w.
Lemma cover_bounds n w : 0 <= n -> 1 <= w -> n <= w * cover n w < n + w /\ 0 <= cover n w.
Proof.
  intros Hn Hw. unfold cover. pose proof (Z.div_mod (n + w - 1) w ltac:(lia)). pose proof (Z.mod_pos_bound (n + w - 1) w ltac:(lia)).
  split; [lia|]. apply Z.div_pos; lia.
Qed.
Lemma unpack_spec src w : 1 <= w <= 64 -> forall fuel k u b, at_bit src k u b -> cover (8 * len src - k) w <= Z.of_nat fuel ->
  unpack_loop w fuel b = map (fun i => field src (k + w * Z.of_nat i) w) (seq 0 (Z.to_nat (cover (8 * len src - k) w))).
Proof.
  intros Hw. induction fuel as [|f IH]; intros k u b A C.
  - pose proof (at_bit_range _ _ _ _ A). pose proof (cover_bounds (8 * len src - k) w ltac:(lia) ltac:(lia)) as [_ N].
    assert (cover (8 * len src - k) w = 0) as -> by lia. reflexivity.
  - cbn [unpack_loop]. rewrite (exhausted_at _ _ _ _ A). pose proof (at_bit_range _ _ _ _ A) as R.
    destruct (Z.eqb_spec k (8 * len src)) as [E|E].
    { assert (cover (8 * len src - k) w = 0) as ->; [|reflexivity]. unfold cover. rewrite E. apply Z.div_small. lia. }
    assert (CS : cover (8 * len src - k) w = 1 + cover (Z.max 0 (8 * len src - (k + w))) w).
    { unfold cover. destruct (Z.le_gt_cases 0 (8 * len src - (k + w))).
      - rewrite Z.max_r by lia. replace (8 * len src - k + w - 1) with (8 * len src - (k + w) + w - 1 + 1 * w) by lia. rewrite Z.div_add by lia. lia.
      - rewrite Z.max_l by lia. replace ((0 + w - 1) / w) with 0 by (symmetry; apply Z.div_small; lia).
        symmetry. apply (Z.div_unique _ w 1 (8 * len src - k - 1)); lia. }
    pose proof (cover_bounds (Z.max 0 (8 * len src - (k + w))) w ltac:(lia) ltac:(lia)) as [_ N].
    rewrite CS. replace (Z.to_nat (1 + cover (Z.max 0 (8 * len src - (k + w))) w)) with (S (Z.to_nat (cover (Z.max 0 (8 * len src - (k + w))) w))) by lia.
    cbn [seq map]. rewrite Z.mul_0_r, Z.add_0_r. pose proof (read_bits_at src w k u b A ltac:(lia)) as RB.
    pose proof (read_bits_past src w k u b A ltac:(lia)) as RP. destruct (read_bits w b) as [v b'] eqn:Er. cbn [fst snd] in RP, RB. subst v. f_equal.
    rewrite <- seq_shift, map_map. destruct (Z.leb_spec (k + w) (8 * len src)) as [L|L].
    + destruct RB as (b2 & E2 & A2). injection E2 as <-. rewrite Z.max_r in * by lia.
      rewrite (IH _ _ _ A2) by lia. apply map_ext. intros i. f_equal. lia.
    + rewrite Z.max_l by lia. assert (cover 0 w = 0) as -> by (unfold cover; apply Z.div_small; lia). cbn [Z.to_nat seq map].
      destruct f; [reflexivity|]. cbn [unpack_loop]. unfold bit_exhausted, bit_valid in *. rewrite RB. reflexivity.
Qed.
Lemma unpack_fresh d w fuel : 1 <= w <= 64 -> len d < 2 ^ 64 -> cover (8 * len d) w <= Z.of_nat fuel ->
  unpack_loop w fuel (bit_reader (fresh d)) = map (fun i => field d (w * Z.of_nat i) w) (seq 0 (Z.to_nat (cover (8 * len d) w))).
Proof.
  intros Hw Hl Hf. pose proof (unpack_spec d w Hw fuel 0 false _ (fresh_at_bit d Hl)) as H. rewrite Z.sub_0_r in H. rewrite (H Hf).
  apply map_ext. intros i. f_equal.
Qed.

(** * Packing. *)
Definition pack_bits (w : Z) (l : list Z) : list bool := flat_map (fun v => low_bits v w) l.
Lemma pack_packed w l : 0 <= w <= 64 -> packed (pack_bits w l) (bout (bit_flush (fold_left (fun a v => write_bits v w a) l bit_writer))).
Proof.
  intros Hw. assert (E : fold_left (fun a v => write_bits v w a) l bit_writer = write_fields (map (fun v => (v, w)) l) bit_writer).
  { unfold write_fields. rewrite fold_left_map. reflexivity. }
  rewrite E. apply flush_packed.
  assert (F : Forall (fun f : Z * Z => 0 <= snd f <= 64) (map (fun v => (v, w)) l)) by (apply Forall_map; apply Forall_forall; intros; cbn [snd]; lia).
  pose proof (write_fields_wrote _ [] _ F wrote_fresh) as H. cbn [app] in H.
  assert (EB : fields_bits (map (fun v => (v, w)) l) = pack_bits w l).
  { unfold fields_bits, pack_bits. clear. induction l as [|v l IH]; [reflexivity|]. cbn [map flat_map fst snd]. rewrite IH. reflexivity. }
  rewrite <- EB. exact H.
Qed.
Lemma pack_bits_len w l : 0 <= w -> len (pack_bits w l) = w * len l.
Proof. intros Hw. induction l as [|v l IH]; [cbn; lia|]. unfold pack_bits in *. cbn [flat_map]. rewrite len_app, low_bits_len, IH, len_cons by lia. lia. Qed.
Lemma low_bits_nth v n i : 0 <= i < n -> nth (Z.to_nat i) (low_bits v n) false = Z.testbit v (n - 1 - i).
Proof.
  intros H. unfold low_bits. rewrite (nth_indep _ false (Z.testbit v (n - 1 - Z.of_nat 0))) by (rewrite map_length, seq_length; lia).
  rewrite (map_nth (fun i => Z.testbit v (n - 1 - Z.of_nat i)) (seq 0 (Z.to_nat n)) 0%nat), seq_nth by lia. f_equal. lia.
Qed.
Lemma pack_bits_nth w l k : 1 <= w -> 0 <= k < w * len l ->
  nth (Z.to_nat k) (pack_bits w l) false = Z.testbit (nth (Z.to_nat (k / w)) l 0) (w - 1 - k mod w).
Proof.
  intros Hw. revert k. induction l as [|v l IH]; intros k Hk; [change (len (@nil Z)) with 0 in Hk; lia|]. rewrite len_cons in Hk.
  unfold pack_bits. cbn [flat_map]. fold (pack_bits w l). pose proof (low_bits_len v w ltac:(lia)) as LL. unfold len in LL.
  destruct (Z.lt_ge_cases k w) as [C|C].
  - rewrite app_nth1 by lia. rewrite low_bits_nth by lia. rewrite Z.div_small, Z.mod_small by lia. reflexivity.
  - rewrite app_nth2 by lia. replace (Z.to_nat k - length (low_bits v w))%nat with (Z.to_nat (k - w)) by lia. rewrite IH by lia.
    replace k with (k - w + 1 * w) at 3 4 by lia. rewrite Z.div_add, Z.mod_add by lia.
    replace (Z.to_nat ((k - w) / w + 1)) with (S (Z.to_nat ((k - w) / w))) by (pose proof (Z.div_pos (k - w) w ltac:(lia) ltac:(lia)); lia). reflexivity.
Qed.
(** The bits of the fields of a source are its bits, then zeros. *)
Lemma unpack_bits_nth d w c k : 1 <= w -> 0 <= k < w * Z.of_nat c ->
  nth (Z.to_nat k) (pack_bits w (map (fun i => field d (w * Z.of_nat i) w) (seq 0 c))) false = bit_at d k.
Proof.
  intros Hw Hk. rewrite pack_bits_nth by (unfold len; rewrite ?map_length, ?seq_length; lia).
  assert (Q : 0 <= k / w < Z.of_nat c) by (split; [apply Z.div_pos; lia|apply Z.div_lt_upper_bound; lia]).
  rewrite (nth_indep _ 0 (field d (w * Z.of_nat 0) w)) by (rewrite map_length, seq_length; lia).
  rewrite (map_nth (fun i => field d (w * Z.of_nat i) w) (seq 0 c) 0%nat), seq_nth by lia. cbn [Nat.add]. rewrite Z2Nat.id by lia.
  pose proof (Z.mod_pos_bound k w ltac:(lia)). rewrite field_testbit by lia. f_equal. pose proof (Z.div_mod k w ltac:(lia)). lia.
Qed.
Lemma bit_at_zero d k : 8 * len d <= k -> bit_at (d ++ [0]) k = false.
Proof.
  intros H. rewrite bit_at_app_r by exact H. unfold bit_at.
  destruct (Z.to_nat ((k - 8 * len d) / 8)) as [|[|n]]; cbn [nth]; apply Z.bits_0.
Qed.
Lemma pack_unpack d w : 1 <= w <= 8 -> bytes_ok d -> let n := cover (8 * len d) w in
  bout (bit_flush (fold_left (fun a v => write_bits v w a) (map (fun i => field d (w * Z.of_nat i) w) (seq 0 (Z.to_nat n))) bit_writer)) =
  if (n * w) mod 8 =? 0 then d else d ++ [0].
Proof.
  intros Hw B n. pose proof (len_nonneg d) as Ld. pose proof (cover_bounds (8 * len d) w ltac:(lia) ltac:(lia)) as [C1 C2]. fold n in C1, C2.
  set (u := map (fun i => field d (w * Z.of_nat i) w) (seq 0 (Z.to_nat n))).
  assert (Lu : len u = n) by (unfold u, len; rewrite map_length, seq_length; lia).
  apply (packed_unique (pack_bits w u)); [apply pack_packed; lia|].
  assert (NB : forall k, 0 <= k < w * n -> nth (Z.to_nat k) (pack_bits w u) false = bit_at d k).
  { intros k Hk. apply unpack_bits_nth; lia. }
  assert (Len : len (pack_bits w u) = w * n) by (rewrite pack_bits_len, Lu by lia; reflexivity).
  destruct (Z.eqb_spec ((n * w) mod 8) 0) as [M|M].
  - pose proof (Z.div_mod (n * w) 8 ltac:(lia)). assert (w * n = 8 * len d) by lia.
    split; [exact B|]. split; [rewrite Len; symmetry; replace (w * n + 7) with (7 + len d * 8) by lia; rewrite Z.div_add by lia; reflexivity|].
    intros k Hk. symmetry. apply NB. lia.
  - assert (w * n <> 8 * len d). { intros X. apply M. replace (n * w) with (len d * 8) by lia. apply Z.mod_mul. lia. }
    split; [apply Forall_app; split; [exact B|constructor; [split; lia|constructor]]|]. rewrite len_app, Len. change (len [0]) with 1.
    split; [apply (Z.div_unique _ 8 (len d + 1) (w * n + 7 - 8 * (len d + 1))); lia|].
    intros k Hk. destruct (Z.lt_ge_cases k (w * n)) as [C|C].
    + rewrite NB by lia. destruct (Z.lt_ge_cases k (8 * len d)); [apply bit_at_app_l; lia|]. rewrite bit_at_zero, bit_at_past by lia. reflexivity.
    + rewrite bit_at_zero by lia. rewrite nth_overflow; [reflexivity|]. unfold len in Len. lia.
Qed.
Lemma base32_unpack_eq d : len d < 2 ^ 64 ->
  base32_unpack d = map (fun i => field d (5 * Z.of_nat i) 5) (seq 0 (Z.to_nat (cover (8 * len d) 5))).
Proof.
  intros H. unfold base32_unpack. apply unpack_fresh; [lia|exact H|]. unfold cover. 
  assert (len d = Z.of_nat (length d)) by reflexivity. apply Z.div_le_upper_bound; lia.
Qed.
Lemma base32_unpack_len d : len d < 2 ^ 64 -> len (base32_unpack d) = cover (8 * len d) 5.
Proof.
  intros H. rewrite base32_unpack_eq by exact H. unfold len at 1. rewrite map_length, seq_length.
  pose proof (cover_bounds (8 * len d) 5). pose proof (len_nonneg d). lia.
Qed.
Lemma base32_pack_unpack d : bytes_ok d -> len d < 2 ^ 64 -> base32_pack (base32_unpack d) = d.
Proof.
  intros B Hl. unfold base32_pack. rewrite base32_unpack_len by exact Hl. rewrite base32_unpack_eq by exact Hl.
  pose proof (pack_unpack d 5 ltac:(lia) B) as P. cbv zeta in P. rewrite P.
  destruct (Z.eqb_spec ((cover (8 * len d) 5 * 5) mod 8) 0) as [M|M]; [reflexivity|].
  rewrite last_last. rewrite removelast_last. reflexivity.
Qed.
Lemma table32 v : 0 <= v < 32 -> let c := nth (Z.to_nat v) encode32 0 in
  nth_error decode32 (Z.to_nat c) = Some v /\ is_ascii_upper c = false.
Proof.
  intros Hv. assert (C : forallb (fun v => let c := nth (Z.to_nat v) encode32 0 in
    match nth_error decode32 (Z.to_nat c) with Some x => (x =? v) && negb (is_ascii_upper c) | None => false end) (range 32) = true) by (vm_compute; reflexivity).
  pose proof (forall_range _ 32 C v Hv) as C'. cbv beta zeta in C'. cbv zeta.
  destruct (nth_error decode32 (Z.to_nat (nth (Z.to_nat v) encode32 0))) as [x|]; [|discriminate].
  rewrite andb_true_iff, negb_true_iff in C'. split; [f_equal; lia|apply C'].
Qed.
Lemma decode_symbols_encode u : digits_ok 32 u -> decode_symbols (encode_base32_chunk u) = Some (Some u) /\ existsb is_ascii_upper (encode_base32_chunk u) = false.
Proof.
  induction u as [|v u IH]; intros F; [split; reflexivity|]. inversion F as [|? ? Hv F']; subst. destruct (IH F') as [E1 E2].
  destruct (table32 v Hv) as [T1 T2]. unfold encode_base32_chunk in *. cbn [map decode_symbols existsb]. rewrite T1, T2, E1, E2.
  replace (v =? 255) with false by lia. split; reflexivity.
Qed.
Lemma decode32_chunk_round u : digits_ok 32 u -> decode_base32_chunk (encode_base32_chunk u) = Some (Some u).
Proof.
  intros F. destruct (decode_symbols_encode u F) as [E1 E2]. unfold decode_base32_chunk, has_mixed_ascii_case. rewrite E2, andb_false_r. exact E1.
Qed.
Lemma unpack_digits d : len d < 2 ^ 64 -> digits_ok 32 (base32_unpack d).
Proof.
  intros H. rewrite base32_unpack_eq by exact H. apply Forall_map. apply Forall_forall. intros i _. cbv beta. pose proof (field_range d (5 * Z.of_nat i) 5 ltac:(lia)). change (2 ^ 5) with 32 in *. lia.
Qed.
Lemma decode32_round d : bytes_ok d -> len d < 2 ^ 64 -> decode_base32 (encode_base32 d) = Some (Some d).
Proof.
  intros B Hl. unfold decode_base32, encode_base32. rewrite decode32_chunk_round by (apply unpack_digits; exact Hl). cbn [omap].
  rewrite base32_pack_unpack by assumption. reflexivity.
Qed.

(** * Accepted base32 texts. *)
Lemma table32_inv c v : 0 <= c -> nth_error decode32 (Z.to_nat c) = Some v -> v =? 255 = false ->
  0 <= v < 32 /\ nth (Z.to_nat v) encode32 0 = lower c.
Proof.
  intros Hc E V. assert (L : (Z.to_nat c < 128)%nat) by (change 128%nat with (length decode32); apply nth_error_Some; congruence).
  assert (C : forallb (fun c => match nth_error decode32 (Z.to_nat c) with
    | Some v => (v =? 255) || ((0 <=? v) && (v <? 32) && (nth (Z.to_nat v) encode32 0 =? lower c)) | None => false end) (range 128) = true) by (vm_compute; reflexivity).
  pose proof (forall_range _ 128 C c ltac:(lia)) as C'. cbv beta in C'. rewrite E in C'. rewrite V in C'. cbn [orb] in C'. rewrite !andb_true_iff in C'. lia.
Qed.
Lemma decode_symbols_inv l : Forall (fun c => 0 <= c) l -> forall u, decode_symbols l = Some (Some u) ->
  digits_ok 32 u /\ encode_base32_chunk u = map lower l.
Proof.
  induction l as [|c l IH]; intros F u H; cbn [decode_symbols] in H; [injection H as <-; split; [constructor|reflexivity]|].
  inversion F as [|? ? Hc F']; subst. destruct (nth_error decode32 (Z.to_nat c)) as [v|] eqn:E; [|discriminate].
  destruct (v =? 255) eqn:V; [discriminate|]. destruct (decode_symbols l) as [[t|]|] eqn:D; [|discriminate..]. injection H as <-.
  destruct (IH F' t eq_refl) as [A B]. destruct (table32_inv c v Hc E V) as [R T]. split; [constructor; assumption|].
  unfold encode_base32_chunk in *. cbn [map]. rewrite T, B. reflexivity.
Qed.
Lemma decode_symbols_defined l : Forall (fun c => 0 <= c < 128) l -> decode_symbols l <> None.
Proof.
  induction l as [|c l IH]; intros F; cbn [decode_symbols]; [discriminate|]. inversion F as [|? ? Hc F']; subst.
  destruct (nth_error decode32 (Z.to_nat c)) as [v|] eqn:E.
  - destruct (v =? 255); [discriminate|]. specialize (IH F'). destruct (decode_symbols l) as [[t|]|]; [discriminate..|congruence].
  - apply nth_error_None in E. change (length decode32) with 128%nat in E. lia.
Qed.
