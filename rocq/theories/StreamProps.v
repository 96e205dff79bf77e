(** Properties C01 (variable integers), C02 (endian integers), C03 (byte reader
    limits) and C04 (read_line).  Spec vocabulary: Bytes.v (positional value of
    byte strings), StreamSpec.v (array-and-budget reader, first occurrence). *)
From Verif Require Import Base Bytes MathModel MathSpec EndianModel StreamModel StreamSpec.
From Verif Require EndianProofs StreamProofs StreamProofs2 LineProofs.
From Verif Require MathProofs2.

(** ** C01 *)

(** Reading back a written value: same value, exactly variable_size bytes
    consumed, the suffix and everything before untouched, reader still valid. *)
Theorem C01_round_trip : forall v s suffix,
  0 <= v < 2 ^ 64 -> good s = true -> rest s = write_variable v ++ suffix ->
  variable_size v <= lim s ->
  exists s', read_variable s = (v, s') /\ good s' = true /\ rest s' = suffix /\
    position s' = position s + variable_size v /\ lim s' = lim s - variable_size v /\
    rev (past s') ++ rest s' = rev (past s) ++ rest s.
Proof.
  intros v s t Hv Hg Hr Hl. exists (StreamProofs.eat (write_variable v) t s).
  rewrite <- StreamProofs.len_write_variable in *.
  split; [apply StreamProofs.read_variable_parses; assumption|].
  unfold StreamProofs.eat, position; cbn [good rest past lim]. split; [reflexivity|]. split; [reflexivity|]. unfold position. cbn [past].
  rewrite len_app, len_rev. split; [lia|]. split; [reflexivity|].
  rewrite rev_app_distr, rev_involutive, <- app_assoc, <- Hr. reflexivity.
Qed.
Print Assumptions C01_round_trip.

(** No other encoding is accepted: whatever read_variable accepts is exactly
    what write_variable produces for the returned value. *)
Theorem C01_only_canonical : forall s v s',
  bytes_ok (rest s) -> read_variable s = (v, s') -> good s' = true ->
  0 <= v < 2 ^ 64 /\ rest s = write_variable v ++ rest s' /\ position s' = position s + variable_size v.
Proof.
  intros s v s' Hok E G.
  destruct (StreamProofs.read_variable_exact s v s' Hok E G) as (_ & Hv & t & Hr & _ & ->).
  split; [exact Hv|]. split; [exact Hr|]. unfold position, StreamProofs.eat. cbn [past]. rewrite len_app, len_rev, StreamProofs.len_write_variable. lia.
Qed.
Print Assumptions C01_only_canonical.

(** The encodings are distinct and prefix-free. *)
Theorem C01_prefix_free : forall v w a b,
  0 <= v < 2 ^ 64 -> 0 <= w < 2 ^ 64 -> write_variable v ++ a = write_variable w ++ b -> v = w /\ a = b.
Proof.
  intros v w a b Hv Hw E.
  pose proof (StreamProofs.read_variable_parses v Hv (mkrd [] (write_variable v ++ a) true 100) a eq_refl eq_refl) as P.
  pose proof (StreamProofs.read_variable_parses w Hw (mkrd [] (write_variable v ++ a) true 100) b eq_refl E) as Q.
  assert (B : forall x, variable_size x <= 100) by (intros; unfold variable_size; repeat destruct (_ <? _); repeat destruct (_ <=? _); lia).
  rewrite P in Q by (rewrite StreamProofs.len_write_variable; apply B).
  specialize (Q ltac:(rewrite StreamProofs.len_write_variable; apply B)).
  injection Q as Hvw _ Hab _. auto.
Qed.
Print Assumptions C01_prefix_free.

(** read_size: additionally bounded by the given limit, otherwise invalid and 0. *)
Theorem C01_read_size : forall limit s v s',
  bytes_ok (rest s) -> read_variable s = (v, s') -> good s' = true ->
  read_size limit s = if v <=? limit then (v, s') else (0, invalid s').
Proof.
  intros limit s v s' _ E _. unfold read_size. rewrite E.
  destruct (Z.gtb_spec v limit), (Z.leb_spec v limit); try lia; reflexivity.
Qed.
Print Assumptions C01_read_size.

Example C01_nontrivial :
  read_variable (fresh (write_variable 70000 ++ [1; 2])) =
    (70000, mkrd [0; 1; 17; 112; 254] [1; 2] true (max_size_t - 5)) /\
  good (snd (read_variable (fresh [253; 10; 0]))) = false /\
  good (snd (read_variable (fresh [254; 10; 0; 0; 0]))) = false /\
  write_variable 252 = [252] /\ write_variable 253 = [253; 253; 0] /\
  write_variable 65536 = [254; 0; 0; 1; 0].
Proof. repeat split; vm_compute; reflexivity. Qed.

(** ** C02 *)

(** The encoders emit exactly the base 256 digits of the value: run time form on
    either host, constant evaluated form and shift loop form agree. *)
Theorem C02_encoders : forall host_le w v,
  (w = 1 \/ w = 2 \/ w = 4 \/ w = 8)%nat -> 0 <= v < 256 ^ Z.of_nat w ->
  to_little_endian host_le w v = le_bytes w v /\ to_big_endian host_le w v = be_bytes w v /\
  to_little_const w v = le_bytes w v /\ to_big_const w v = be_bytes w v /\
  to_big_endian host_le w v = rev (to_little_endian host_le w v) /\
  length (to_little_endian host_le w v) = w.
Proof.
  intros h w v Hw Hv.
  rewrite (EndianProofs.to_little_endian_eq h w v Hw Hv), (EndianProofs.to_big_endian_eq h w v Hw Hv).
  rewrite EndianProofs.to_little_const_eq, EndianProofs.to_big_const_eq.
  repeat split; try reflexivity. apply le_bytes_length.
Qed.
Print Assumptions C02_encoders.

(** The decoders return the positional value of the bytes. *)
Theorem C02_decoders : forall host_le w data,
  (w = 1 \/ w = 2 \/ w = 4 \/ w = 8)%nat -> length data = w -> bytes_ok data ->
  let T := mkity false (8 * Z.of_nat w) in
  from_little_endian host_le w data = le_value data /\ from_big_endian host_le w data = be_value data /\
  from_little_const T data = le_value data /\ from_big_const T data = be_value data.
Proof.
  intros h w d Hw Hl Hd T.
  rewrite (EndianProofs.from_little_endian_eq h w d Hw Hl Hd), (EndianProofs.from_big_endian_eq h w d Hw Hl Hd).
  rewrite (EndianProofs.from_little_const_eq T d Hd), (EndianProofs.from_big_const_eq T d Hd).
  pose proof (le_value_range d Hd) as R1. pose proof (be_value_range d Hd) as R2.
  unfold len in R1, R2. rewrite Hl in R1, R2.
  assert (HT : 0 < bits T) by (unfold T; cbn [bits]; destruct Hw as [->|[->|[->| ->]]]; lia).
  assert (HM : imax T = 256 ^ Z.of_nat w - 1) by (unfold T, imax; cbn [sg bits]; rewrite Z.pow_mul_r by lia; reflexivity).
  assert (Hm : imin T = 0) by reflexivity.
  rewrite !wrap_fits by (try assumption; unfold fits; lia). auto.
Qed.
Print Assumptions C02_decoders.

(** Round trips, either direction. *)
Theorem C02_round_trip : forall host_le w v data,
  (w = 1 \/ w = 2 \/ w = 4 \/ w = 8)%nat -> 0 <= v < 256 ^ Z.of_nat w ->
  length data = w -> bytes_ok data ->
  from_little_endian host_le w (to_little_endian host_le w v) = v /\
  from_big_endian host_le w (to_big_endian host_le w v) = v /\
  to_little_endian host_le w (from_little_endian host_le w data) = data /\
  to_big_endian host_le w (from_big_endian host_le w data) = data.
Proof.
  intros h w v d Hw Hv Hl Hd.
  rewrite (EndianProofs.to_little_endian_eq h w v Hw Hv), (EndianProofs.to_big_endian_eq h w v Hw Hv).
  rewrite (EndianProofs.from_little_endian_eq h w d Hw Hl Hd), (EndianProofs.from_big_endian_eq h w d Hw Hl Hd).
  rewrite (EndianProofs.from_little_endian_eq h w _ Hw (le_bytes_length w v) (le_bytes_ok w v)).
  rewrite (EndianProofs.from_big_endian_eq h w _ Hw (be_bytes_length w v) (be_bytes_ok w v)).
  pose proof (le_value_range d Hd) as R1. pose proof (be_value_range d Hd) as R2.
  unfold len in R1, R2. rewrite Hl in R1, R2.
  rewrite (EndianProofs.to_little_endian_eq h w _ Hw R1), (EndianProofs.to_big_endian_eq h w _ Hw R2).
  rewrite le_value_bytes_small, be_value_bytes_small by assumption.
  rewrite <- Hl. rewrite le_bytes_value, be_bytes_value by assumption. auto.
Qed.
Print Assumptions C02_round_trip.

(** Any sized conversions (shift loops): for every integer type wider than a
    byte (uintx/uint256 and signed included) and every array size the encoder
    emits the low order (two's complement) digits, and the decoder returns the
    value of the leading [length] bytes, modulo the type. *)
Theorem C02_any_size : forall T n v data,
  0 < bits T -> bits T <> 8 -> bytes_ok data ->
  to_little_data T n v = le_bytes n v /\ to_big_data T n v = be_bytes n v /\
  from_little_data T n data = wrap T (le_value (firstn n data)) /\
  from_big_data T n data = wrap T (be_value (firstn n data)).
Proof.
  intros T n v d HB H8 Hd. unfold to_little_data, to_big_data.
  destruct (Z.eqb_spec (bits T) 8); [contradiction|].
  rewrite EndianProofs.to_little_loop_eq, EndianProofs.to_big_loop_eq.
  rewrite (EndianProofs.from_little_eq T n d HB H8 Hd), (EndianProofs.from_big_eq T n d HB H8 Hd). auto.
Qed.
Print Assumptions C02_any_size.

(** A signed or unsigned value survives the any-sized round trip whenever the
    array is as wide as the type. *)
Theorem C02_any_size_round_trip : forall T n v,
  0 < bits T -> bits T <> 8 -> bits T = 8 * Z.of_nat n -> fits T v ->
  from_little_data T n (to_little_data T n v) = v /\ from_big_data T n (to_big_data T n v) = v.
Proof.
  intros T n v HB H8 Hn Hf.
  destruct (C02_any_size T n v (le_bytes n v) HB H8 (le_bytes_ok n v)) as (E1 & E2 & E3 & _).
  destruct (C02_any_size T n v (be_bytes n v) HB H8 (be_bytes_ok n v)) as (_ & _ & _ & E4).
  rewrite E1, E2, E3, E4.
  rewrite <- (le_bytes_length n v) at 1. rewrite firstn_all.
  rewrite <- (be_bytes_length n v) at 2. rewrite firstn_all.
  rewrite le_value_bytes, be_value_bytes.
  assert (W : wrap T (v mod 256 ^ Z.of_nat n) = v).
  { rewrite <- (wrap_fits T v HB Hf) at 2. apply EndianProofs.wrap_eq_of_cong; [exact HB|].
    rewrite Hn, Z.pow_mul_r by lia. apply Z.mod_mod. pose proof (pow256_pos n). change (2 ^ 8) with 256. lia. }
  auto.
Qed.
Print Assumptions C02_any_size_round_trip.

(** Stream reads of n bytes yield the positional value of those bytes. *)
Theorem C02_stream_read : forall bytes s suffix,
  good s = true -> rest s = bytes ++ suffix -> len bytes <= lim s ->
  fst (read_le (len bytes) s) = le_value bytes /\ rest (snd (read_le (len bytes) s)) = suffix /\
  fst (read_be (len bytes) s) = be_value bytes /\ rest (snd (read_be (len bytes) s)) = suffix.
Proof.
  intros b s t Hg Hr Hl. unfold read_le, read_be.
  rewrite (StreamProofs.do_read_parses b s t Hg Hr Hl). auto.
Qed.
Print Assumptions C02_stream_read.

(** The property fails for one byte integers with a wider explicit size: the
    big-endian form places the value in the most significant position. *)
Theorem C02_one_byte_integer_refuted :
  to_big_endian_size u8 2 5 = [5; 0] /\ be_value (to_big_endian_size u8 2 5) = 1280 /\
  from_big_data u8 2 (be_bytes 2 5) = 0.
Proof. repeat split; vm_compute; reflexivity. Qed.
Print Assumptions C02_one_byte_integer_refuted.

Example C02_nontrivial :
  to_big_endian true 4 0x01020304 = [1; 2; 3; 4] /\ to_big_endian false 4 0x01020304 = [1; 2; 3; 4] /\
  to_little_endian true 2 0x0102 = [2; 1] /\ from_big_endian true 8 [0; 0; 0; 0; 0; 0; 1; 2] = 258 /\
  from_little_data i16 2 (to_little_data i16 2 (-2)) = -2.
Proof. repeat split; vm_compute; reflexivity. Qed.

(** ** C03 *)

(** For every source, limit and sequence of operations, the reader is valid
    exactly when no operation exceeded the source or the budget; the outputs are
    then the source bytes (or their value) at the tracked position. *)
Theorem C03_reader_refines_array : forall src limit ops,
  0 <= limit <= 2 ^ 64 - 1 -> Forall rop_ok ops ->
  let '(outs, s) := StreamProofs2.run ops (set_limit limit (fresh src)) in
  match expect src ops 0 limit with
  | Some (outs', pos, budget) =>
      good s = true /\ outs = outs' /\ position s = pos /\ lim s = budget /\
      rest s = skipn (Z.to_nat pos) src
  | None => good s = false
  end.
Proof.
  intros src l ops Hl Hok.
  pose proof (StreamProofs2.run_expect src ops 0 l _ Hok Hl (StreamProofs2.fresh_at src l)) as H.
  destruct (StreamProofs2.run ops (set_limit l (fresh src))) as [outs s].
  destruct (expect src ops 0 l) as [[[o p] b]|]; [|exact H].
  destruct H as [E A]. cbn [fst snd] in *. pose proof (StreamProofs2.at_pos_len_past _ _ _ _ A) as P.
  destruct A as (_ & G & L & _ & R). auto.
Qed.
Print Assumptions C03_reader_refines_array.

(** Once invalid, always invalid, and the position no longer moves. *)
Theorem C03_invalid_is_permanent : forall ops s, good s = false ->
  good (snd (StreamProofs2.run ops s)) = false /\
  position (snd (StreamProofs2.run ops s)) = position s.
Proof.
  intros ops. induction ops as [|o ops IH]; intros s H; [auto|]. cbn [StreamProofs2.run].
  pose proof (StreamProofs2.step_sticky o s H) as G. pose proof (StreamProofs2.step_bad_fixed o s H) as [P _].
  destruct (StreamProofs2.step o s) as [out s1]. cbn in G, P. specialize (IH s1 G).
  destruct (StreamProofs2.run ops s1). cbn in *. unfold position in *. rewrite P in IH. exact IH.
Qed.
Print Assumptions C03_invalid_is_permanent.

(** Composite readers keep an invalid reader invalid too. *)
Theorem C03_composites_stay_invalid : forall limit s, good s = false ->
  good (snd (read_byte s)) = false /\ good (snd (read_variable s)) = false /\
  good (snd (read_size limit s)) = false /\ good (snd (read_bytes limit s)) = false.
Proof.
  intros l s H. split; [apply StreamProofs.read_byte_sticky, H|].
  split; [apply StreamProofs.read_variable_sticky, H|]. split; [apply StreamProofs.read_size_sticky, H|].
  unfold read_bytes. destruct (l =? 0); [exact H|]. rewrite H. exact H.
Qed.
Print Assumptions C03_composites_stay_invalid.

(** The source is never modified and the position never leaves it, whatever the
    state and operations. *)
Theorem C03_within_source : forall ops s,
  rev (past (snd (StreamProofs2.run ops s))) ++ rest (snd (StreamProofs2.run ops s)) = rev (past s) ++ rest s /\
  0 <= position (snd (StreamProofs2.run ops s)) <= len (rev (past s) ++ rest s).
Proof.
  intros ops s.
  assert (W : rev (past (snd (StreamProofs2.run ops s))) ++ rest (snd (StreamProofs2.run ops s)) = rev (past s) ++ rest s).
  { revert s. induction ops as [|o ops IH]; intros s; [reflexivity|]. cbn [StreamProofs2.run].
    pose proof (StreamProofs2.step_whole o s) as W. destruct (StreamProofs2.step o s) as [out s1]. specialize (IH s1).
    destruct (StreamProofs2.run ops s1). cbn [snd] in *. rewrite IH. exact W. }
  split; [exact W|]. rewrite <- W, len_app, len_rev. unfold position.
  pose proof (len_nonneg (past (snd (StreamProofs2.run ops s)))). pose proof (len_nonneg (rest (snd (StreamProofs2.run ops s)))). lia.
Qed.
Print Assumptions C03_within_source.

(** A limit set at the current position bounds how far a valid reader can get,
    whatever mix of reads, skips and rewinds. *)
Theorem C03_limit_bounds_position : forall src limit ops,
  0 <= limit <= 2 ^ 64 - 1 -> Forall rop_ok ops ->
  let s := snd (StreamProofs2.run ops (set_limit limit (fresh src))) in
  good s = true -> position s <= limit.
Proof.
  intros src l ops Hl Hok s G.
  pose proof (StreamProofs2.run_expect src ops 0 l _ Hok Hl (StreamProofs2.fresh_at src l)) as H. fold s in H.
  assert (B : forall ops pos lm o p b, Forall rop_ok ops -> 0 <= lm -> pos + lm <= l ->
     expect src ops pos lm = Some (o, p, b) -> 0 <= b /\ p + b <= l).
  { clear. induction ops as [|x ops IH]; intros pos lm o p b Hok Hlm Hs E; [inversion E; subst; lia|].
    inversion Hok as [|? ? Hx Hok']; subst. cbn [expect] in E.
    assert (N : forall q r out, 0 <= r -> q + r <= l ->
      match expect src ops q r with Some (outs, p', l') => Some (out :: outs, p', l') | None => None end = Some (o, p, b) -> 0 <= b /\ p + b <= l).
    { intros q r out Hr Hq X. destruct (expect src ops q r) as [[[o1 p1] b1]|] eqn:E1; [|discriminate]. inversion X; subst. exact (IH _ _ _ _ _ Hok' Hr Hq E1). }
    destruct x; cbn [rop_ok] in Hx;
      match type of E with (if ?c then _ else _) = _ => destruct c eqn:C; [|discriminate] end;
      try (apply andb_prop in C as [C1 C2]; apply Z.leb_le in C1, C2); try apply Z.leb_le in C;
      eapply N; try exact E; lia. }
  destruct (expect src ops 0 l) as [[[o p] b]|] eqn:E; [|congruence].
  destruct H as [_ A]. pose proof (StreamProofs2.at_pos_len_past _ _ _ _ A) as P. unfold position. rewrite P.
  destruct (B ops 0 l o p b Hok ltac:(lia) ltac:(lia) E). lia.
Qed.
Print Assumptions C03_limit_bounds_position.

(** Explicit repositioning revives the reader: it is valid again, at the
    requested index, when the index is in the source and within the budget. *)
Theorem C03_set_position_revives : forall src s p,
  rev (past s) ++ rest s = src -> 0 <= p <= len src -> len src < 2 ^ 63 ->
  0 <= lim s <= 2 ^ 64 - 1 -> p - position s <= lim s ->
  good (set_position p s) = true /\ position (set_position p s) = p /\
  rest (set_position p s) = skipn (Z.to_nat p) src.
Proof.
  intros src s p H Hp Hs Hl Hb. destruct (StreamProofs2.set_position_at src s p H Hp Hl Hs Hb) as [l A].
  pose proof (StreamProofs2.at_pos_len_past _ _ _ _ A) as P. destruct A as (_ & G & _ & _ & R). auto.
Qed.
Print Assumptions C03_set_position_revives.

(** An over-long read returns only source bytes, padded with zeros. *)
Theorem C03_overread_pads : forall s n,
  good s = true -> 0 <= n -> n <= lim s -> len (rest s) < n ->
  fst (do_read n s) = rest s ++ repeat 0 (Z.to_nat (n - len (rest s))) /\ good (snd (do_read n s)) = false.
Proof.
  intros s n Hg Hn Hl Hr. unfold do_read, limiter. destruct (Z.gtb_spec n (lim s)); [lia|].
  unfold istream_read, set_lim. cbn [good rest]. rewrite Hg. cbn [negb].
  destruct (Z.gtb_spec n (len (rest s))); [|lia]. split; reflexivity.
Qed.
Print Assumptions C03_overread_pads.

Example C03_nontrivial :
  expect [1; 2; 3; 4; 5] [RRead 2; RRewind 1; RPeek; RLittle 2; RSkip 1] 0 4
    = Some ([[1; 2]; []; [2]; [770]; []], 4, 0) /\
  good (snd (StreamProofs2.run [RRead 2; RRewind 1; RPeek; RLittle 2; RSkip 1] (set_limit 4 (fresh [1; 2; 3; 4; 5])))) = true /\
  good (snd (StreamProofs2.run [RRead 2; RRead 3] (set_limit 4 (fresh [1; 2; 3; 4; 5])))) = false.
Proof. repeat split; vm_compute; reflexivity. Qed.

(** ** C04 *)

(** Proved for terminators of 7-bit characters whose first character does not
    recur within the terminator (e.g. "\n", "\r\n").  Missing for the full claim:
    other terminators, for which it is false (refuted below). *)
Theorem C04_read_line_partial : forall e es s,
  Forall (fun c => 0 <= c < 128) (e :: es) -> ~ In e es ->
  good s = true -> 0 <= lim s <= 2 ^ 64 - 1 ->
  let source := firstn (Z.to_nat (Z.min (lim s) (len (rest s)))) (rest s) in
  let (line, s') := read_line (e :: es) s in
  (exists k, first_occurrence (e :: es) source k /\ line = firstn k source /\
     good s' = true /\ rest s = line ++ (e :: es) ++ rest s' /\
     position s' = position s + len line + len (e :: es))
  \/ ((forall k, ~ occurs (e :: es) source k) /\ line = [] /\ good s' = false).
Proof.
  intros e es s Ha Hn Hg Hl source. pose proof (LineProofs.read_line_ok e es s Ha Hn Hg Hl) as H.
  destruct (read_line (e :: es) s) as [line s']. destruct H as [(k & u & H1 & H2 & H3 & ->)|H]; [left|right; exact H].
  exists k. split; [exact H1|]. split; [exact H2|]. split; [reflexivity|]. split; [exact H3|].
  unfold position, StreamProofs.eat. cbn [past]. rewrite len_app, len_rev, len_app. lia.
Qed.
Print Assumptions C04_read_line_partial.

(** A self-overlapping terminator is missed although it occurs: "aab" in "aaab". *)
Theorem C04_read_line_self_overlapping_refuted :
  occurs [97; 97; 98] [97; 97; 97; 98] 1 /\
  fst (read_line [97; 97; 98] (fresh [97; 97; 97; 98])) = [] /\
  good (snd (read_line [97; 97; 98] (fresh [97; 97; 97; 98]))) = false.
Proof. repeat split; vm_compute; reflexivity. Qed.
Print Assumptions C04_read_line_self_overlapping_refuted.

(** A terminator with a byte above 127 is never found (char is signed). *)
Theorem C04_read_line_high_byte_refuted :
  occurs [200] [65; 200; 66] 1 /\
  good (snd (read_line [200] (fresh [65; 200; 66]))) = false.
Proof. repeat split; vm_compute; reflexivity. Qed.
Print Assumptions C04_read_line_high_byte_refuted.

Example C04_nontrivial :
  read_line [13; 10] (fresh [65; 13; 66; 13; 10; 67]) =
    ([65; 13; 66], mkrd [10; 13; 66; 13; 65] [67] true (max_size_t - 5)).
Proof. vm_compute. reflexivity. Qed.
