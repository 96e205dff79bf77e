From Verif Require Import Base Bytes MathModel MathSpec MathProofs BitProofs StreamModel StreamSpec StreamProofs StreamProofs2 BitStreamModel BitStreamSpec.

(** ** Values of bit strings *)
Lemma bits_value_acc l : forall a, fold_left (fun a b => 2 * a + Z.b2z b) l a = a * 2 ^ len l + bits_value l.
Proof.
  unfold bits_value. induction l as [|b l IH]; intros a; cbn [fold_left]; [change (len (@nil bool)) with 0; lia|].
  rewrite IH, (IH (2 * 0 + Z.b2z b)). rewrite len_cons, Z.pow_add_r by (pose proof (len_nonneg l); lia). rewrite Z.pow_1_r. ring.
Qed.
Lemma bits_value_cons b l : bits_value (b :: l) = Z.b2z b * 2 ^ len l + bits_value l.
Proof. unfold bits_value at 1. cbn [fold_left]. rewrite bits_value_acc. destruct b; reflexivity. Qed.
Lemma bits_value_range l : 0 <= bits_value l < 2 ^ len l.
Proof.
  induction l as [|b l IH]; [split; [apply Z.le_refl|reflexivity]|]. rewrite bits_value_cons, len_cons, Z.pow_add_r by (pose proof (len_nonneg l); lia).
  destruct b; cbn [Z.b2z]; lia.
Qed.
Lemma bit_slice_S src k n : 0 <= n -> bit_slice src k (n + 1) = bit_at src k :: bit_slice src (k + 1) n.
Proof.
  intros Hn. unfold bit_slice. replace (Z.to_nat (n + 1)) with (S (Z.to_nat n)) by lia. cbn [seq map]. f_equal; [f_equal; lia|].
  rewrite <- seq_shift, map_map. apply map_ext. intros i. f_equal. lia.
Qed.
Lemma bit_slice_len src k n : 0 <= n -> len (bit_slice src k n) = n.
Proof. intros Hn. unfold bit_slice, len. rewrite map_length, seq_length. lia. Qed.
Lemma field_S src k n : 0 <= n -> field src k (n + 1) = Z.b2z (bit_at src k) * 2 ^ n + field src (k + 1) n.
Proof. intros Hn. unfold field. rewrite bit_slice_S, bits_value_cons, bit_slice_len by lia. reflexivity. Qed.
Lemma field_0 src k : field src k 0 = 0. Proof. reflexivity. Qed.
Lemma field_range src k n : 0 <= n -> 0 <= field src k n < 2 ^ n.
Proof. intros Hn. unfold field. pose proof (bits_value_range (bit_slice src k n)) as H. rewrite bit_slice_len in H by lia. exact H. Qed.

Lemma set_right_add out n v : 0 <= n < 64 -> 0 <= out < 2 ^ 64 -> (forall i, 0 <= i <= n -> Z.testbit out i = false) ->
  set_right u64 out n v = out + Z.b2z v * 2 ^ n.
Proof.
  intros Hn Ho Hz.
  assert (L : Z.land out (2 ^ n) = 0).
  { apply Z.bits_inj'. intros i Hi. rewrite Z.land_spec, Z.pow2_bits_eqb, Z.bits_0 by lia. destruct (Z.eqb_spec n i) as [<-|]; [rewrite Hz by lia; reflexivity|apply andb_false_r]. }
  assert (A : out + 2 ^ n = Z.lor out (2 ^ n)) by (rewrite Z.add_nocarry_lxor, Z.lxor_lor by exact L; reflexivity).
  assert (R : 0 <= out + 2 ^ n < 2 ^ 64).
  { rewrite A. apply lor_range; [lia|lia|]. split; [apply Z.pow_nonneg; lia|apply Z.pow_lt_mono_r; lia]. }
  assert (P : 0 < 2 ^ n) by (apply Z.pow_pos_nonneg; lia).
  apply (bit_ext u64); [reflexivity| | |].
  - unfold set_right. destruct v; unfold bit_or, bit_and; apply fits_wrap; reflexivity.
  - unfold fits. cbn [imin imax u64 sg bits]. destruct v; cbn [Z.b2z]; lia.
  - intros i Hi. cbn [bits u64] in Hi. rewrite set_right_bit by (cbn [bits u64]; lia). destruct v; cbn [Z.b2z].
    + rewrite Z.mul_1_l, A. unfold bit. rewrite Z.lor_spec, Z.pow2_bits_eqb by lia. rewrite (Z.eqb_sym n i). destruct (i =? n); [rewrite orb_true_r; reflexivity|rewrite orb_false_r; reflexivity].
    + rewrite Z.mul_0_l, Z.add_0_r. destruct (Z.eqb_spec i n) as [->|]; [unfold bit; rewrite Hz by lia; reflexivity|reflexivity].
Qed.

(** ** The reader at a bit position *)
Definition at_bit (src : list Z) (k : Z) (used : bool) (b : brd) : Prop :=
  exists p, 0 <= boff b <= 8 /\ at_pos src p (lim (bbase b)) (bbase b) /\ len src - p <= lim (bbase b) <= 2 ^ 64 - 1 /\
    (p = 0 -> boff b = 8) /\ (1 <= p -> bbyte b = nth (Z.to_nat (p - 1)) src 0) /\ k = 8 * (p - 1) + boff b /\ (used = true -> 1 <= p).
Lemma fresh_at_bit src : len src < 2 ^ 64 -> at_bit src 0 false (bit_reader (fresh src)).
Proof.
  intros H. exists 0. cbn [bit_reader bbase boff bbyte fresh lim]. pose proof (fresh_at src max_size_t) as F. pose proof (len_nonneg src). unfold max_size_t in *.
  repeat split; try lia; try discriminate; try apply F. 
Qed.
Lemma slice_one src p : 0 <= p < len src -> hd 0 (slice src p 1) = nth (Z.to_nat p) src 0.
Proof.
  intros Hp. unfold slice. change (Z.to_nat 1) with 1%nat. rewrite <- (firstn_skipn (Z.to_nat p) src) at 2.
  rewrite app_nth2; rewrite firstn_length_le by (unfold len in *; lia); [|lia]. rewrite Nat.sub_diag. destruct (skipn (Z.to_nat p) src); reflexivity.
Qed.
Lemma at_bit_range src k u b : at_bit src k u b -> 0 <= k <= 8 * len src.
Proof. intros (p & H1 & (H2 & _) & _ & H4 & _ & -> & _). destruct (Z.eq_dec p 0) as [E|E]; [rewrite (H4 E)|]; lia. Qed.
Lemma load_at src k u b : at_bit src k u b -> boff b = 8 ->
  (k < 8 * len src -> at_bit src k true (load b) /\ boff (load b) = 0) /\ (k = 8 * len src -> bit_valid (load b) = false).
Proof.
  intros (p & H1 & H2 & H3 & H4 & H5 & H6 & H7) E8. pose proof H2 as (R & _). unfold load. pose proof (do_read_at src p _ _ 1 H2 ltac:(lia)) as D.
  destruct (do_read 1 (bbase b)) as [d s] eqn:Ed. cbn [fst snd] in D.
  split; intros Hk.
  - destruct (Z.leb_spec 1 (lim (bbase b))); [|lia]. destruct (Z.leb_spec (p + 1) (len src)); [|lia]. cbn [andb] in D. destruct D as [D1 D2].
    split; [|reflexivity]. exists (p + 1). cbn [bbase bbyte boff]. split; [lia|]. assert (Es : lim s = lim (bbase b) - 1) by apply D2. rewrite Es. split; [exact D2|].
    split; [lia|]. split; [lia|]. split; [intros _; rewrite D1, slice_one by lia; f_equal; f_equal; lia|]. split; [lia|lia].
  - unfold bit_valid. cbn [bbase]. destruct (Z.leb_spec (p + 1) (len src)); [lia|]. rewrite andb_false_r in D. exact D.
Qed.
Lemma step_at src k u b : at_bit src k u b ->
  let b1 := if bshift b =? 0 then load b else b in let b2 := mkbrd (bbase b1) (bbyte b1) (boff b1 + 1) in
  (k < 8 * len src -> get_left u8 (bbyte b1) (boff b1) = bit_at src k /\ at_bit src (k + 1) true b2) /\
  (k = 8 * len src -> bit_valid b2 = false).
Proof.
  intros H. pose proof H as (p & H1 & H2 & H3 & H4 & H5 & H6 & H7). unfold bshift. cbv zeta.
  assert (G : forall b1, at_bit src k true b1 -> boff b1 < 8 ->
    get_left u8 (bbyte b1) (boff b1) = bit_at src k /\ at_bit src (k + 1) true (mkbrd (bbase b1) (bbyte b1) (boff b1 + 1))).
  { intros b1 (q & Q1 & Q2 & Q3 & Q4 & Q5 & Q6 & Q7) Q8. specialize (Q7 eq_refl). split.
    - rewrite get_left_ok by (cbn [bits u8]; lia). cbn [bits u8]. unfold bit, bit_at. rewrite Q5 by exact Q7. rewrite Q6.
      replace ((8 * (q - 1) + boff b1) / 8) with (q - 1) by (rewrite Z.add_comm, Z.mul_comm, Z.div_add, Z.div_small by lia; lia).
      replace ((8 * (q - 1) + boff b1) mod 8) with (boff b1) by (apply (Z.mod_unique _ _ (q - 1)); lia). reflexivity.
    - exists q. cbn [bbase bbyte boff]. repeat (split; [first [assumption|lia]|]). lia. }
  destruct (Z.eqb_spec (8 - boff b) 0) as [E|E].
  - destruct (load_at src k u b H ltac:(lia)) as [L1 L2]. split; intros Hk.
    + destruct (L1 Hk) as [L3 L4]. apply G; [exact L3|lia].
    + apply (L2 Hk).
  - split; intros Hk.
    + apply G; [|lia]. exists p. repeat (split; [first [assumption|lia]|]). intros _. destruct (Z.eq_dec p 0) as [Z0|Z0]; [specialize (H4 Z0); lia|]. destruct H2 as (? & _). lia.
    + exfalso. destruct H2 as (R & _). lia.
Qed.

Lemma load_bad b : bit_valid b = false -> bit_valid (load b) = false.
Proof. intros H. unfold load. pose proof (do_read_sticky 1 (bbase b) H) as K. destruct (do_read 1 (bbase b)). exact K. Qed.
Lemma step_bad b : bit_valid b = false ->
  let b1 := if bshift b =? 0 then load b else b in bit_valid (mkbrd (bbase b1) (bbyte b1) (boff b1 + 1)) = false.
Proof. intros H. cbv zeta. destruct (bshift b =? 0); [apply (load_bad b H)|exact H]. Qed.
Lemma read_loop_bad n : forall out b, bit_valid b = false -> bit_valid (snd (read_bits_loop n out b)) = false.
Proof. induction n as [|n IH]; intros out b H; [exact H|]. cbn [read_bits_loop]. unfold read_bit. apply IH. apply (step_bad b H). Qed.
Lemma skip_bad n : forall b, bit_valid b = false -> bit_valid (skip_bits n b) = false.
Proof. induction n as [|n IH]; intros b H; [exact H|]. cbn [skip_bits]. apply IH. apply (step_bad b H). Qed.
Lemma reload_bad b : bit_valid b = false -> bit_valid (reload b) = false.
Proof.
  intros H. unfold reload. pose proof (do_read_sticky 1 _ (do_rewind_bad 2 _ H)) as K. destruct (do_read 1 (do_rewind 2 (bbase b))). exact K.
Qed.
Lemma rewind_bad n : forall b, bit_valid b = false -> bit_valid (rewind_bits n b) = false.
Proof. induction n as [|n IH]; intros b H; [exact H|]. cbn [rewind_bits]. apply IH. unfold rewind_bit. destruct (boff b =? 0); [apply (reload_bad b H)|exact H]. Qed.

Lemma at_bit_valid src k u b : at_bit src k u b -> bit_valid b = true.
Proof. intros (p & _ & (_ & G & _) & _). exact G. Qed.
Lemma read_loop_at src n : forall out k u b, at_bit src k u b -> (n <= 64)%nat -> 0 <= out < 2 ^ 64 ->
  (forall i, 0 <= i < Z.of_nat n -> Z.testbit out i = false) ->
  if k + Z.of_nat n <=? 8 * len src
  then exists b', read_bits_loop n out b = (out + field src k (Z.of_nat n), b') /\ at_bit src (k + Z.of_nat n) (u || (0 <? Z.of_nat n)) b'
  else bit_valid (snd (read_bits_loop n out b)) = false.
Proof.
  induction n as [|n IH]; intros out k u b H Hn Ho Hz.
  - cbn [read_bits_loop Z.of_nat]. pose proof (at_bit_range _ _ _ _ H). destruct (Z.leb_spec (k + 0) (8 * len src)); [|lia]. exists b. rewrite field_0, !Z.add_0_r. cbn. rewrite orb_false_r. auto.
  - cbn [read_bits_loop]. unfold read_bit. destruct (step_at src k u b H) as [S1 S2]. pose proof (at_bit_range _ _ _ _ H) as R.
    set (b1 := if bshift b =? 0 then load b else b) in *.
    destruct (Z.eq_dec k (8 * len src)) as [Ek|Ek].
    { destruct (Z.leb_spec (k + Z.of_nat (S n)) (8 * len src)); [lia|]. apply read_loop_bad. apply S2, Ek. }
    destruct (S1 ltac:(lia)) as [V A]. rewrite V.
    assert (W : set_right u64 out (Z.of_nat n) (bit_at src k) = out + Z.b2z (bit_at src k) * 2 ^ Z.of_nat n).
    { apply set_right_add; [lia|exact Ho|]. intros i Hi. apply Hz. lia. }
    assert (P : 0 < 2 ^ Z.of_nat n) by (apply Z.pow_pos_nonneg; lia).
    specialize (IH (out + Z.b2z (bit_at src k) * 2 ^ Z.of_nat n) (k + 1) true (mkbrd (bbase b1) (bbyte b1) (boff b1 + 1)) A ltac:(lia)).
    rewrite W. replace (k + Z.of_nat (S n)) with (k + 1 + Z.of_nat n) by lia.
    assert (Q : 0 <= out + Z.b2z (bit_at src k) * 2 ^ Z.of_nat n < 2 ^ 64 /\
      forall i, 0 <= i < Z.of_nat n -> Z.testbit (out + Z.b2z (bit_at src k) * 2 ^ Z.of_nat n) i = false).
    { rewrite <- W. split.
      - assert (F : fits u64 (set_right u64 out (Z.of_nat n) (bit_at src k))) by (unfold set_right; destruct (bit_at src k); unfold bit_or, bit_and; apply fits_wrap; reflexivity).
        unfold fits in F. cbn [imin imax u64 sg bits] in F. lia.
      - intros i Hi. change (bit (set_right u64 out (Z.of_nat n) (bit_at src k)) i = false). rewrite set_right_bit by (cbn [bits u64]; lia).
        destruct (Z.eqb_spec i (Z.of_nat n)); [lia|]. apply Hz. lia. }
    destruct Q as [Q1 Q2]. specialize (IH Q1 Q2). destruct (k + 1 + Z.of_nat n <=? 8 * len src); [|exact IH].
    destruct IH as (b' & E & A'). exists b'. rewrite E. split.
    + f_equal. rewrite Nat2Z.inj_succ. unfold Z.succ. rewrite field_S by lia. lia.
    + destruct (Z.ltb_spec 0 (Z.of_nat (S n))); [|lia]. rewrite orb_true_r. exact A'.
Qed.
Lemma read_bits_at src n k u b : at_bit src k u b -> 0 <= n <= 64 ->
  if k + n <=? 8 * len src
  then exists b', read_bits n b = (field src k n, b') /\ at_bit src (k + n) (u || (0 <? n)) b'
  else bit_valid (snd (read_bits n b)) = false.
Proof.
  intros H Hn. unfold read_bits. rewrite Z.min_r by lia.
  pose proof (read_loop_at src (Z.to_nat n) 0 k u b H ltac:(lia) ltac:(lia) ltac:(intros; apply Z.bits_0)) as L. rewrite Z2Nat.id in L by lia.
  destruct (k + n <=? 8 * len src); [|exact L]. destruct L as (b' & E & A). exists b'. rewrite E. auto.
Qed.
Lemma skip_at src n : forall k u b, at_bit src k u b ->
  if k + Z.of_nat n <=? 8 * len src then at_bit src (k + Z.of_nat n) (u || (0 <? Z.of_nat n)) (skip_bits n b)
  else bit_valid (skip_bits n b) = false.
Proof.
  induction n as [|n IH]; intros k u b H.
  - cbn [skip_bits Z.of_nat]. pose proof (at_bit_range _ _ _ _ H). destruct (Z.leb_spec (k + 0) (8 * len src)); [|lia]. rewrite Z.add_0_r. cbn. rewrite orb_false_r. auto.
  - cbn [skip_bits]. unfold skip_bit. destruct (step_at src k u b H) as [S1 S2]. pose proof (at_bit_range _ _ _ _ H) as R.
    set (b1 := if bshift b =? 0 then load b else b) in *.
    destruct (Z.eq_dec k (8 * len src)) as [Ek|Ek].
    { destruct (Z.leb_spec (k + Z.of_nat (S n)) (8 * len src)); [lia|]. apply skip_bad. apply S2, Ek. }
    destruct (S1 ltac:(lia)) as [_ A]. specialize (IH (k + 1) true _ A). replace (k + Z.of_nat (S n)) with (k + 1 + Z.of_nat n) by lia.
    destruct (k + 1 + Z.of_nat n <=? 8 * len src); [|exact IH]. destruct (Z.ltb_spec 0 (Z.of_nat (S n))); [|lia]. rewrite orb_true_r. exact IH.
Qed.
Lemma rewind_one src k u b : at_bit src k u b -> len src < 2 ^ 64 - 2 ->
  (0 < k -> at_bit src (k - 1) u (rewind_bit b)) /\ (k = 0 -> u = true -> bit_valid (rewind_bit b) = false).
Proof.
  intros (p & H1 & H2 & H3 & H4 & H5 & H6 & H7) Hlen. unfold rewind_bit. pose proof H2 as (R & _).
  destruct (Z.eqb_spec (boff b) 0) as [E|E].
  - assert (P1 : 1 <= p) by (destruct (Z.eq_dec p 0) as [Z0|]; [specialize (H4 Z0)|]; lia).
    unfold reload. pose proof (do_rewind_at src p _ _ 2 H2 ltac:(lia) ltac:(lia)) as D. split; intros Hk.
    + destruct (Z.leb_spec 2 p) as [P2|]; [|lia].
      pose proof (do_read_at src (p - 2) _ _ 1 D ltac:(lia)) as D1. destruct (do_read 1 (do_rewind 2 (bbase b))) as [d s] eqn:Ed. cbn [fst snd] in D1.
      destruct (Z.leb_spec 1 (Z.min (2 ^ 64 - 1) (lim (bbase b) + 2))); [|lia]. destruct (Z.leb_spec (p - 2 + 1) (len src)); [|lia]. cbn [andb] in D1. destruct D1 as [D1 D2].
      exists (p - 1). cbn [bbase bbyte boff]. assert (Es : lim s = Z.min (2 ^ 64 - 1) (lim (bbase b) + 2) - 1) by apply D2. rewrite Es.
      split; [lia|]. split; [replace (p - 1) with (p - 2 + 1) by lia; exact D2|]. split; [lia|]. split; [lia|].
      split; [intros _; rewrite D1, slice_one by lia; f_equal; f_equal; lia|]. split; lia.
    + intros _. destruct (Z.leb_spec 2 p) as [P2|P2]; [lia|]. unfold bit_valid.
      pose proof (do_read_sticky 1 _ D) as K. destruct (do_read 1 (do_rewind 2 (bbase b))). exact K.
  - split; intros Hk.
    + exists p. cbn [bbase bbyte boff]. destruct (Z.eq_dec p 0) as [Z0|Z0]; [specialize (H4 Z0); lia|]. repeat (split; [first [assumption|lia]|]). exact H7.
    + intros U. specialize (H7 U). lia.
Qed.
Lemma rewind_at src n : forall k u b, at_bit src k u b -> len src < 2 ^ 64 - 2 ->
  (Z.of_nat n <= k -> at_bit src (k - Z.of_nat n) u (rewind_bits n b)) /\
  (k < Z.of_nat n -> u = true -> bit_valid (rewind_bits n b) = false).
Proof.
  induction n as [|n IH]; intros k u b H Hl.
  - cbn [rewind_bits Z.of_nat]. rewrite Z.sub_0_r. pose proof (at_bit_range _ _ _ _ H). split; [auto|lia].
  - cbn [rewind_bits]. pose proof (at_bit_range _ _ _ _ H). destruct (rewind_one src k u b H Hl) as [R1 R2]. split; intros Hk.
    + destruct (IH (k - 1) u _ (R1 ltac:(lia)) Hl) as [I _]. replace (k - Z.of_nat (S n)) with (k - 1 - Z.of_nat n) by lia. apply I. lia.
    + intros U. destruct (Z.eq_dec k 0) as [->|]; [apply rewind_bad, R2; auto|].
      destruct (IH (k - 1) u _ (R1 ltac:(lia)) Hl) as [_ I]. apply I; [lia|exact U].
Qed.

Definition bstep (o : bop) (b : brd) : list Z * brd :=
  match o with
  | BRead n => let (v, b') := read_bits n b in ([v], b')
  | BSkip n => ([], skip_bits (Z.to_nat n) b)
  | BRewind n => ([], rewind_bits (Z.to_nat n) b)
  end.
Fixpoint brun (ops : list bop) (b : brd) : list Z * brd :=
  match ops with
  | [] => ([], b)
  | o :: ops' => let (v, b1) := bstep o b in let (l, b2) := brun ops' b1 in (v ++ l, b2)
  end.
Lemma bstep_bad o b : bit_valid b = false -> bit_valid (snd (bstep o b)) = false.
Proof.
  intros H. destruct o as [n|n|n]; cbn [bstep].
  - pose proof (read_loop_bad (Z.to_nat (Z.min 64 n)) 0 b H) as K. unfold read_bits. destruct (read_bits_loop _ _ _). exact K.
  - apply skip_bad, H.
  - apply rewind_bad, H.
Qed.
Lemma brun_bad ops : forall b, bit_valid b = false -> bit_valid (snd (brun ops b)) = false.
Proof.
  induction ops as [|o ops IH]; intros b H; [exact H|]. cbn [brun]. pose proof (bstep_bad o b H) as K. destruct (bstep o b) as [v b1]. specialize (IH b1 K). destruct (brun ops b1). exact IH.
Qed.
Lemma brun_at src ops : len src < 2 ^ 64 - 2 -> forall k u b, Forall bop_ok ops -> at_bit src k u b ->
  match bexpect src ops k u with
  | Done outs k' => exists b' u', brun ops b = (outs, b') /\ at_bit src k' u' b'
  | OutOfRange => bit_valid (snd (brun ops b)) = false
  | RewindsUnread => True
  end.
Proof.
  intros Hl. induction ops as [|o ops IH]; intros k u b F H; [exists b, u; auto|]. inversion F as [|? ? Ho F']; subst.
  cbn [bexpect brun]. destruct o as [n|n|n]; cbn [bop_ok] in Ho; cbn [bstep].
  - pose proof (read_bits_at src n k u b H Ho) as R. destruct (k + n <=? 8 * len src).
    + destruct R as (b1 & E & A). rewrite E. specialize (IH _ _ b1 F' A). destruct (bexpect src ops (k + n) (u || (0 <? n))) as [outs k'| |].
      * destruct IH as (b' & u' & E' & A'). rewrite E'. exists b', u'. auto.
      * destruct (brun ops b1). exact IH.
      * exact I.
    + destruct (read_bits n b) as [v b1]. pose proof (brun_bad ops b1 R) as K. destruct (brun ops b1). exact K.
  - pose proof (skip_at src (Z.to_nat n) k u b H) as R. rewrite Z2Nat.id in R by lia. destruct (k + n <=? 8 * len src).
    + specialize (IH _ _ _ F' R). destruct (bexpect src ops (k + n) (u || (0 <? n))) as [outs k'| |].
      * destruct IH as (b' & u' & E' & A'). rewrite E'. exists b', u'. auto.
      * destruct (brun ops _). exact IH.
      * exact I.
    + pose proof (brun_bad ops _ R) as K. destruct (brun ops _). exact K.
  - destruct (rewind_at src (Z.to_nat n) k u b H Hl) as [R1 R2]. rewrite Z2Nat.id in R1, R2 by lia. destruct (Z.leb_spec n k).
    + specialize (IH _ _ _ F' (R1 ltac:(lia))). destruct (bexpect src ops (k - n) u) as [outs k'| |].
      * destruct IH as (b' & u' & E' & A'). rewrite E'. exists b', u'. auto.
      * destruct (brun ops _). exact IH.
      * exact I.
    + destruct u; [|exact I]. pose proof (brun_bad ops _ (R2 ltac:(lia) eq_refl)) as K. destruct (brun ops _). exact K.
Qed.
Lemma exhausted_at src k u b : at_bit src k u b -> bit_exhausted b = (k =? 8 * len src).
Proof.
  intros (p & H1 & H2 & H3 & H4 & H5 & H6 & H7). unfold bit_exhausted, bshift, exhausted. pose proof H2 as (R & G & _). rewrite G. cbn [negb].
  pose proof (at_pos_len_rest _ _ _ _ H2) as L. destruct (Z.eqb_spec (8 - boff b) 0) as [E|E]; cbn [andb].
  - destruct (rest (bbase b)) as [|x r] eqn:Er.
    + change (len (@nil Z)) with 0 in L. destruct (Z.eqb_spec k (8 * len src)); [|lia]. destruct (lim (bbase b) =? 0); reflexivity.
    + rewrite len_cons in L. pose proof (len_nonneg r). destruct (Z.eqb_spec (lim (bbase b)) 0); [lia|]. destruct (Z.eqb_spec k (8 * len src)); [lia|reflexivity].
  - destruct (Z.eqb_spec k (8 * len src)); [lia|reflexivity].
Qed.
