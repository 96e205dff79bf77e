(** C57: bit_reader / bit_writer. *)
From Verif Require Import Base Bytes MathModel StreamModel StreamProofs2 BitStreamModel BitStreamSpec BitStreamProofs BitStreamProofs2.

(** Reader: any history of bit reads (0-64 bits), skips and rewinds over any
    byte source yields exactly the addressed bits of the source, most
    significant first; a move outside the source invalidates the stream, for
    good; exhaustion is exactly "all bits consumed". *)
Theorem C57_reader_history src ops : len src < 2 ^ 64 - 2 -> Forall bop_ok ops ->
  match bexpect src ops 0 false with
  | Done outs k => exists b, brun ops (bit_reader (fresh src)) = (outs, b) /\ bit_valid b = true /\
                     bit_exhausted b = (k =? 8 * len src)
  | OutOfRange => bit_valid (snd (brun ops (bit_reader (fresh src)))) = false
  | RewindsUnread => True
  end.
Proof.
  intros Hl F. pose proof (brun_at src ops Hl 0 false _ F (fresh_at_bit src ltac:(lia))) as H.
  destruct (bexpect src ops 0 false); [|exact H|exact I]. destruct H as (b & u & E & A). exists b. split; [exact E|].
  split; [exact (at_bit_valid _ _ _ _ A)|exact (exhausted_at _ _ _ _ A)].
Qed.
Print Assumptions C57_reader_history.
Example C57_reader_sat :
  bexpect [165; 60] [BRead 3; BSkip 2; BRead 7; BRewind 4; BRead 8] 0 false = Done [5; 83; 60] 16 /\
  bexpect [165; 60] [BRead 17] 0 false = OutOfRange /\ bexpect [165] [BRead 1; BRewind 2] 0 false = OutOfRange.
Proof. vm_compute. auto. Qed.
(** An invalid bit stream stays invalid under every operation. *)
Theorem C57_reader_sticky ops b : bit_valid b = false -> bit_valid (snd (brun ops b)) = false.
Proof. apply brun_bad. Qed.
Print Assumptions C57_reader_sticky.
(** Byte reads at any bit position return the eight bits from each position on. *)
Theorem C57_unaligned_bytes src skip n : len src < 2 ^ 64 - 2 -> 0 <= skip -> skip + 8 * Z.of_nat n <= 8 * len src ->
  fst (bit_read_bytes n (skip_bits (Z.to_nat skip) (bit_reader (fresh src)))) =
    map (fun i => field src (skip + 8 * Z.of_nat i) 8) (seq 0 n) /\
  bit_valid (snd (bit_read_bytes n (skip_bits (Z.to_nat skip) (bit_reader (fresh src))))) = true.
Proof.
  intros Hl Hs HL. pose proof (skip_at src (Z.to_nat skip) 0 false _ (fresh_at_bit src ltac:(lia))) as S. rewrite Z2Nat.id in S by lia.
  rewrite Z.add_0_l in S. destruct (Z.leb_spec skip (8 * len src)); [|lia].
  destruct (bit_read_bytes_at src n skip _ _ S HL) as (b & u & E & A). rewrite E. cbn [fst snd]. split; [reflexivity|exact (at_bit_valid _ _ _ _ A)].
Qed.
Print Assumptions C57_unaligned_bytes.
(** Reading bytes through a fresh bit reader is reading the bytes themselves. *)
Theorem C57_aligned_bytes src n : len src < 2 ^ 64 - 2 -> Forall byte_ok src -> Z.of_nat n <= len src ->
  fst (bit_read_bytes n (bit_reader (fresh src))) = firstn n src.
Proof.
  intros Hl F HL. destruct (C57_unaligned_bytes src 0 n Hl ltac:(lia) ltac:(lia)) as [E _]. change (skip_bits (Z.to_nat 0) (bit_reader (fresh src))) with (bit_reader (fresh src)) in E.
  rewrite E. unfold len in HL. apply (nth_ext _ _ 0 0); [rewrite map_length, seq_length, firstn_length_le by lia; reflexivity|].
  intros i Hi. rewrite map_length, seq_length in Hi.
  rewrite (nth_indep _ 0 (field src (0 + 8 * Z.of_nat 0) 8)) by (rewrite map_length, seq_length; exact Hi).
  rewrite (map_nth (fun i => field src (0 + 8 * Z.of_nat i) 8) (seq 0 n) 0%nat), seq_nth by exact Hi. cbn [Nat.add]. rewrite Z.add_0_l.
  rewrite field_byte by (try exact F; unfold len; lia). rewrite Nat2Z.id.
  rewrite <- (firstn_skipn n src) at 1. rewrite app_nth1 by (rewrite firstn_length_le; lia). reflexivity.
Qed.
Print Assumptions C57_aligned_bytes.

(** Writer: after any sequence of fields (value, width 0-64) and a flush the
    output is exactly the written bits in order, zero bits up to the next byte
    boundary, and nothing else. *)
Theorem C57_writer_packs fields : Forall (fun f => 0 <= snd f <= 64) fields ->
  let out := bout (bit_flush (write_fields fields bit_writer)) in
  let written := flat_map (fun f => low_bits (fst f) (snd f)) fields in
  Forall byte_ok out /\ len out = (len written + 7) / 8 /\
  forall k, 0 <= k < 8 * len out -> bit_at out k = nth (Z.to_nat k) written false.
Proof. intros F. apply flush_packed. apply (write_fields_wrote fields [] _ F wrote_fresh). Qed.
Print Assumptions C57_writer_packs.
(** Flush is idempotent and adds less than a byte. *)
Theorem C57_flush_idempotent w : 0 <= woff w < 8 -> bit_flush (bit_flush w) = bit_flush w.
Proof. intros _. unfold bit_flush. destruct (Z.eqb_spec (woff w) 0) as [E|E]; [rewrite E; reflexivity|reflexivity]. Qed.
Print Assumptions C57_flush_idempotent.
(** Writing bytes from a byte boundary writes those bytes. *)
Theorem C57_write_bytes_identity data : Forall byte_ok data -> bout (bit_flush (bit_write_bytes data bit_writer)) = data.
Proof.
  intros F. rewrite bit_write_bytes_fields. set (fs := map (fun b => (b, 8)) data).
  assert (W : Forall (fun f : Z * Z => 0 <= snd f <= 64) fs) by (unfold fs; apply Forall_map; apply Forall_forall; intros; cbn [snd]; lia).
  apply (packed_unique (fields_bits fs)); [apply flush_packed; apply (write_fields_wrote fs [] _ W wrote_fresh)|].
  assert (L : forall d, len (fields_bits (map (fun b => (b, 8)) d)) = 8 * len d).
  { induction d as [|b d IH]; [reflexivity|]. unfold fields_bits in *. cbn [map flat_map fst snd]. rewrite len_app, len_cons, IH, low_bits_len by lia. lia. }
  split; [exact F|]. split; [unfold fs; rewrite L; apply (Z.div_unique _ _ _ 7); lia|].
  clear W. unfold fs. clear fs. induction data as [|b d IH]; intros k Hk; [change (len (@nil Z)) with 0 in Hk; lia|].
  inversion F as [|? ? Hb F']; subst. unfold fields_bits. cbn [map flat_map fst snd]. change (b :: d) with ([b] ++ d). pose proof (low_bits_len b 8 ltac:(lia)) as L8. unfold len in L8.
  rewrite len_cons in Hk. destruct (Z.lt_ge_cases k 8) as [C|C].
  - rewrite bit_at_app_l by (change (len [b]) with 1; lia). rewrite app_nth1 by lia.
    unfold bit_at, low_bits. rewrite Z.div_small, Z.mod_small by lia. cbn [nth Z.to_nat].
    rewrite (nth_indep _ false (Z.testbit b (8 - 1 - Z.of_nat 0))) by (rewrite map_length, seq_length; lia).
    rewrite (map_nth (fun i => Z.testbit b (8 - 1 - Z.of_nat i)) (seq 0 (Z.to_nat 8)) 0%nat), seq_nth by lia. f_equal. lia.
  - rewrite bit_at_app_r by (change (len [b]) with 1; lia). change (len [b]) with 1. rewrite app_nth2 by lia.
    rewrite (IH F') by lia. unfold fields_bits. f_equal. lia.
Qed.
Print Assumptions C57_write_bytes_identity.

(** Round trip: what was written field by field is read back field by field,
    truncated to the field width, and the stream stays valid. *)
Theorem C57_fields_round_trip fields : Forall (fun f => 0 <= snd f <= 64) fields ->
  let out := bout (bit_flush (write_fields fields bit_writer)) in
  len out < 2 ^ 64 - 2 ->
  exists b, brun (map (fun f => BRead (snd f)) fields) (bit_reader (fresh out)) = (map (fun f => fst f mod 2 ^ snd f) fields, b) /\
            bit_valid b = true.
Proof.
  intros F out Hl. destruct (flush_packed _ _ (write_fields_wrote fields [] _ F wrote_fresh)) as (P1 & P2 & P3). fold out in P1, P2, P3. cbn [app] in *.
  assert (LL : len (fields_bits fields) <= 8 * len out).
  { rewrite P2. pose proof (Z.mul_div_le (len (fields_bits fields) + 7) 8 ltac:(lia)). pose proof (Z.mod_pos_bound (len (fields_bits fields) + 7) 8 ltac:(lia)).
    pose proof (Z.div_mod (len (fields_bits fields) + 7) 8 ltac:(lia)). lia. }
  pose proof (expect_fields out fields 0 false F ltac:(lia) ltac:(lia) ltac:(intros i Hi; rewrite Z.add_0_l; apply P3; lia)) as E.
  assert (Fo : Forall bop_ok (map (fun f : Z * Z => BRead (snd f)) fields)) by (apply Forall_map; exact F).
  pose proof (C57_reader_history out _ Hl Fo) as H. rewrite E in H. destruct H as (b & E2 & V & _). exists b. auto.
Qed.
Print Assumptions C57_fields_round_trip.
Example C57_round_trip_sat : bout (bit_flush (write_fields [(5, 3); (1000, 7); (1, 1); (7, 4)] bit_writer)) = [186; 46].
Proof. vm_compute. reflexivity. Qed.

(** Peeking. Missing from the full claim ("peek shows the next eight bits"):
    the position reached by rewinding to a byte boundary. *)
Theorem C57_peek_partial src ops : len src < 2 ^ 64 - 2 -> Forall byte_ok src -> Forall bop_ok ops ->
  match bexpect src ops 0 false with
  | Done outs k => let b := snd (brun ops (bit_reader (fresh src))) in
      k + 8 <= 8 * len src -> boff b <> 0 -> bit_peek_byte b = (field src k 8, b)
  | _ => True
  end.
Proof.
  intros Hl Fb F. pose proof (brun_at src ops Hl 0 false _ F (fresh_at_bit src ltac:(lia))) as H.
  destruct (bexpect src ops 0 false); [|exact I|exact I]. destruct H as (b & u & E & A). rewrite E. cbn [snd]. intros HL Hb. apply (peek_at src k u b Fb A HL Hb).
Qed.
Print Assumptions C57_peek_partial.
(** ... and there it is false: after reading eight bits and rewinding them, the
    peek shows the second byte. *)
Theorem C57_peek_after_rewind_refuted : ~ (forall src ops, len src < 2 ^ 64 - 2 -> Forall byte_ok src -> Forall bop_ok ops ->
  match bexpect src ops 0 false with
  | Done outs k => k + 8 <= 8 * len src -> fst (bit_peek_byte (snd (brun ops (bit_reader (fresh src))))) = field src k 8
  | _ => True
  end).
Proof.
  intros H. specialize (H [1; 2] [BRead 8; BRewind 8]). vm_compute in H.
  enough (2 = 1) by discriminate. apply H; [reflexivity| | |discriminate].
  - constructor; [split; [discriminate|reflexivity]|constructor; [split; [discriminate|reflexivity]|constructor]].
  - constructor; [split; discriminate|constructor; [discriminate|constructor]].
Qed.
Print Assumptions C57_peek_after_rewind_refuted.
(** A rewind before anything was read is not rejected, and the next bit read
    is not a bit of the source. *)
Theorem C57_rewind_unread_refuted : ~ (forall src n, 0 < n ->
  bit_valid (rewind_bits (Z.to_nat n) (bit_reader (fresh src))) = false).
Proof. intros H. specialize (H [255] 1 eq_refl). vm_compute in H. discriminate. Qed.
Print Assumptions C57_rewind_unread_refuted.
Example C57_rewind_unread_reads_zero :
  let b := rewind_bits 1 (bit_reader (fresh [255])) in fst (read_bit b) = false /\ bit_valid (snd (read_bit b)) = true.
Proof. vm_compute. auto. Qed.
