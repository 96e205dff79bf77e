From Verif Require Import Base Bytes MathModel MathSpec MathProofs BitProofs StreamModel StreamSpec StreamProofs StreamProofs2 BitStreamModel BitStreamSpec BitStreamProofs.

(** ** The writer: the bits so far, with zero bits after them *)
Definition wrote (bl : list bool) (w : bwr) : Prop :=
  0 <= woff w < 8 /\ Forall byte_ok (bout w) /\ len bl = 8 * len (bout w) + woff w /\ 0 <= wbyte w < 256 /\
  (forall k, 0 <= k < 8 * len (bout w) -> bit_at (bout w) k = nth (Z.to_nat k) bl false) /\
  (forall i, 0 <= i < 8 -> Z.testbit (wbyte w) (7 - i) = nth (Z.to_nat (8 * len (bout w) + i)) bl false).
Lemma nth_app_bit (bl : list bool) v k : 0 <= k -> nth (Z.to_nat k) (bl ++ [v]) false = if k =? len bl then v else nth (Z.to_nat k) bl false.
Proof.
  intros Hk. unfold len. destruct (Z.eqb_spec k (Z.of_nat (length bl))) as [->|N].
  - rewrite Nat2Z.id, app_nth2, Nat.sub_diag by lia. reflexivity.
  - destruct (Z.lt_ge_cases k (Z.of_nat (length bl))).
    + rewrite app_nth1 by lia. reflexivity.
    + rewrite !nth_overflow; [reflexivity|lia|rewrite app_length; cbn [length]; lia].
Qed.
Lemma wrote_fresh : wrote [] bit_writer.
Proof.
  unfold wrote, bit_writer. cbn [woff bout wbyte]. change (len (@nil Z)) with 0. change (len (@nil bool)) with 0.
  split; [lia|]. split; [apply Forall_nil|]. split; [lia|]. split; [lia|]. split; intros; [lia|]. rewrite Z.bits_0. destruct (Z.to_nat _); reflexivity.
Qed.
Lemma bit_at_app_l a b k : 0 <= k < 8 * len a -> bit_at (a ++ b) k = bit_at a k.
Proof. intros H. unfold bit_at. rewrite app_nth1; [reflexivity|]. unfold len in H. pose proof (Z.div_lt_upper_bound k 8 (Z.of_nat (length a)) ltac:(lia) ltac:(lia)). lia. Qed.
Lemma bit_at_app_r a b k : 8 * len a <= k -> bit_at (a ++ b) k = bit_at b (k - 8 * len a).
Proof.
  intros H. unfold bit_at. pose proof (len_nonneg a).
  assert (D : k / 8 = len a + (k - 8 * len a) / 8).
  { replace k with (len a * 8 + (k - 8 * len a)) at 1 by lia. rewrite Z.div_add_l by lia. reflexivity. }
  assert (M : k mod 8 = (k - 8 * len a) mod 8).
  { replace k with ((k - 8 * len a) + len a * 8) at 1 by lia. rewrite Z.mod_add by lia. reflexivity. }
  rewrite M. f_equal. pose proof (Z.div_pos (k - 8 * len a) 8 ltac:(lia) ltac:(lia)). rewrite app_nth2; rewrite D; unfold len in *; [|lia]. f_equal. lia.
Qed.
Lemma set_left_range v o s : 0 <= set_left u8 v o s < 256.
Proof. assert (F : fits u8 (set_left u8 v o s)) by (unfold set_left; destruct s; unfold bit_or, bit_and; apply fits_wrap; reflexivity). unfold fits in F. cbn [imin imax u8 sg bits] in F. lia. Qed.
Lemma write_bit_wrote bl v w : wrote bl w -> wrote (bl ++ [v]) (write_bit v w).
Proof.
  intros (H1 & H2 & H3 & H4 & H5 & H6). unfold write_bit. cbn [woff bout wbyte]. pose proof (set_left_range (wbyte w) (woff w) v) as R.
  set (y := set_left u8 (wbyte w) (woff w) v) in *. pose proof (len_nonneg (bout w)) as N.
  assert (B : forall i, 0 <= i < 8 -> Z.testbit y (7 - i) = nth (Z.to_nat (8 * len (bout w) + i)) (bl ++ [v]) false).
  { intros i Hi. change (bit y (7 - i) = nth (Z.to_nat (8 * len (bout w) + i)) (bl ++ [v]) false).
    unfold y. rewrite set_left_bit by (cbn [bits u8]; lia). cbn [bits u8]. rewrite nth_app_bit by lia.
    destruct (Z.eqb_spec (7 - i) (8 - 1 - woff w)); destruct (Z.eqb_spec (8 * len (bout w) + i) (len bl)); try lia; try reflexivity. apply H6. lia. }
  assert (L : len (bl ++ [v]) = len bl + 1) by (rewrite len_app; reflexivity).
  assert (O : forall k, 0 <= k < 8 * len (bout w) -> bit_at (bout w) k = nth (Z.to_nat k) (bl ++ [v]) false).
  { intros k Hk. rewrite nth_app_bit by lia. destruct (Z.eqb_spec k (len bl)); [lia|]. apply H5, Hk. }
  destruct (Z.eqb_spec (8 - (woff w + 1)) 0) as [E|E]; unfold unload, wrote; cbn [woff bout wbyte].
  - rewrite L, len_app. change (len [y]) with 1. split; [lia|]. split; [apply Forall_app; split; [exact H2|constructor; [unfold byte_ok; lia|constructor]]|].
    split; [lia|]. split; [lia|]. split.
    + intros k Hk. destruct (Z.lt_ge_cases k (8 * len (bout w))) as [K|K].
      * rewrite bit_at_app_l by lia. apply O. lia.
      * rewrite bit_at_app_r by lia. unfold bit_at. rewrite Z.div_small, Z.mod_small by lia. cbn [nth Z.to_nat]. rewrite B by lia. f_equal. f_equal. lia.
    + intros i Hi. rewrite Z.bits_0, nth_overflow; [reflexivity|]. rewrite app_length. cbn [length]. unfold len in *. lia.
  - rewrite L. split; [lia|]. split; [exact H2|]. split; [lia|]. split; [exact R|]. split; [exact O|exact B].
Qed.
Lemma low_bits_S v n : 0 <= n -> low_bits v (n + 1) = Z.testbit v n :: low_bits v n.
Proof.
  intros Hn. unfold low_bits. replace (Z.to_nat (n + 1)) with (S (Z.to_nat n)) by lia. cbn [seq map]. f_equal; [f_equal; lia|].
  rewrite <- seq_shift, map_map. apply map_ext. intros i. f_equal. lia.
Qed.
Lemma low_bits_len v n : 0 <= n -> len (low_bits v n) = n.
Proof. intros Hn. unfold low_bits, len. rewrite map_length, seq_length. lia. Qed.
Lemma write_loop_wrote n : forall bl v w, (n <= 64)%nat -> wrote bl w -> wrote (bl ++ low_bits v (Z.of_nat n)) (write_bits_loop n v w).
Proof.
  induction n as [|n IH]; intros bl v w Hn H.
  - cbn. rewrite app_nil_r. exact H.
  - cbn [write_bits_loop]. rewrite Nat2Z.inj_succ. unfold Z.succ. rewrite low_bits_S by lia.
    rewrite get_right_ok by (cbn [bits u64]; lia). change (bit v (Z.of_nat n)) with (Z.testbit v (Z.of_nat n)).
    replace (bl ++ Z.testbit v (Z.of_nat n) :: low_bits v (Z.of_nat n)) with ((bl ++ [Z.testbit v (Z.of_nat n)]) ++ low_bits v (Z.of_nat n)) by (rewrite <- app_assoc; reflexivity).
    apply IH; [lia|]. apply write_bit_wrote, H.
Qed.
Lemma write_bits_wrote bl v n w : 0 <= n <= 64 -> wrote bl w -> wrote (bl ++ low_bits v n) (write_bits v n w).
Proof. intros Hn H. unfold write_bits. rewrite Z.min_r by lia. pose proof (write_loop_wrote (Z.to_nat n) bl v w ltac:(lia) H) as K. rewrite Z2Nat.id in K by lia. exact K. Qed.

Definition fields_bits (l : list (Z * Z)) : list bool := flat_map (fun f => low_bits (fst f) (snd f)) l.
Definition write_fields (l : list (Z * Z)) (w : bwr) : bwr := fold_left (fun w f => write_bits (fst f) (snd f) w) l w.
Lemma write_fields_wrote l : forall bl w, Forall (fun f => 0 <= snd f <= 64) l -> wrote bl w -> wrote (bl ++ fields_bits l) (write_fields l w).
Proof.
  induction l as [|f l IH]; intros bl w F H; [cbn; rewrite app_nil_r; exact H|]. inversion F; subst.
  unfold fields_bits, write_fields. cbn [flat_map fold_left]. rewrite app_assoc. apply IH; [assumption|]. apply write_bits_wrote; assumption.
Qed.
Lemma fold_left_map {A B C} (f : C -> B -> C) (g : A -> B) l : forall w, fold_left f (map g l) w = fold_left (fun w x => f w (g x)) l w.
Proof. induction l as [|x l IH]; intros w; [reflexivity|]. apply IH. Qed.
Lemma bit_write_bytes_fields d w : bit_write_bytes d w = write_fields (map (fun b => (b, 8)) d) w.
Proof. unfold bit_write_bytes, write_fields. rewrite fold_left_map. reflexivity. Qed.

(** Output after flush: exactly the bits, zero padded to a whole byte. *)
Definition packed (bl : list bool) (out : list Z) : Prop :=
  Forall byte_ok out /\ len out = (len bl + 7) / 8 /\ forall k, 0 <= k < 8 * len out -> bit_at out k = nth (Z.to_nat k) bl false.
Lemma flush_packed bl w : wrote bl w -> packed bl (bout (bit_flush w)).
Proof.
  intros (H1 & H2 & H3 & H4 & H5 & H6). unfold bit_flush, packed. destruct (Z.eqb_spec (woff w) 0) as [E|E].
  - split; [exact H2|]. split; [|exact H5]. rewrite H3, E. symmetry. rewrite Z.mul_comm, Z.add_0_r. rewrite Z.div_add_l by lia. rewrite Z.div_small by lia. lia.
  - unfold unload. cbn [bout]. rewrite len_app. change (len [wbyte w]) with 1.
    split; [apply Forall_app; split; [exact H2|constructor; [unfold byte_ok; lia|constructor]]|]. split.
    + apply (Z.div_unique _ _ _ (woff w - 1)); lia.
    + pose proof (len_nonneg (bout w)). intros k Hk. destruct (Z.lt_ge_cases k (8 * len (bout w))) as [K|K].
      * rewrite bit_at_app_l by lia. apply H5. lia.
      * rewrite bit_at_app_r by lia. unfold bit_at. rewrite Z.div_small, Z.mod_small by lia. cbn [nth Z.to_nat]. rewrite H6 by lia. f_equal. f_equal. lia.
Qed.
Lemma packed_unique bl a b : packed bl a -> packed bl b -> a = b.
Proof.
  intros (A1 & A2 & A3) (B1 & B2 & B3). assert (L : length a = length b) by (unfold len in *; lia).
  apply (nth_ext _ _ 0 0 L). intros n Hn.
  assert (RA : byte_ok (nth n a 0)) by (eapply Forall_forall; [exact A1|apply nth_In; exact Hn]).
  assert (RB : byte_ok (nth n b 0)) by (eapply Forall_forall; [exact B1|apply nth_In; lia]).
  unfold byte_ok in RA, RB. apply (bit_ext u8); [reflexivity|unfold fits; cbn [imin imax u8 sg bits]; lia|unfold fits; cbn [imin imax u8 sg bits]; lia|].
  intros i Hi. cbn [bits u8] in Hi. unfold bit.
  assert (K : 0 <= 8 * Z.of_nat n + (7 - i) < 8 * len a) by (unfold len; lia).
  pose proof (A3 _ K) as KA. rewrite <- B3 in KA by (unfold len in *; lia). unfold bit_at in KA.
  replace ((8 * Z.of_nat n + (7 - i)) / 8) with (Z.of_nat n) in KA by (apply (Z.div_unique _ _ _ (7 - i)); lia).
  replace ((8 * Z.of_nat n + (7 - i)) mod 8) with (7 - i) in KA by (apply (Z.mod_unique _ _ (Z.of_nat n)); lia).
  rewrite Nat2Z.id in KA. replace (7 - (7 - i)) with i in KA by lia. exact KA.
Qed.
(** ** Reading back *)
Lemma bits_value_low v n : 0 <= n -> bits_value (low_bits v n) = v mod 2 ^ n.
Proof.
  intros Hn. pattern n. apply natlike_ind; [rewrite Z.pow_0_r, Z.mod_1_r; reflexivity| |exact Hn].
  clear n Hn. intros n Hn IH. unfold Z.succ. rewrite low_bits_S, bits_value_cons, low_bits_len, IH by lia.
  rewrite Z.pow_add_r, Z.pow_1_r by lia. rewrite Z.testbit_spec' by lia.
  rewrite (Z.rem_mul_r v (2 ^ n) 2) by (try lia; apply Z.pow_nonzero; lia). lia.
Qed.
Lemma bit_slice_eq src k n bl : 0 <= k -> 0 <= n -> (forall i, 0 <= i < n -> bit_at src (k + i) = nth (Z.to_nat i) bl false) -> len bl = n -> bit_slice src k n = bl.
Proof.
  intros Hk Hn H L. apply (nth_ext _ _ false false). { pose proof (bit_slice_len src k n Hn). unfold len in *. lia. }
  intros i Hi. assert (Hi' : (i < Z.to_nat n)%nat) by (unfold bit_slice in Hi; rewrite map_length, seq_length in Hi; exact Hi).
  unfold bit_slice. rewrite (nth_indep _ false (bit_at src (k + Z.of_nat 0%nat))) by (rewrite map_length, seq_length; exact Hi').
  rewrite (map_nth (fun i => bit_at src (k + Z.of_nat i)) (seq 0 (Z.to_nat n)) 0%nat i), seq_nth by exact Hi'. cbn [Nat.add].
  rewrite H by lia. rewrite Nat2Z.id. reflexivity.
Qed.
Lemma fields_bits_len l : Forall (fun f => 0 <= snd f) l -> 0 <= len (fields_bits l).
Proof. intros _. apply len_nonneg. Qed.
Lemma expect_fields src l : forall k u, Forall (fun f => 0 <= snd f <= 64) l -> 0 <= k -> k + len (fields_bits l) <= 8 * len src ->
  (forall i, 0 <= i < len (fields_bits l) -> bit_at src (k + i) = nth (Z.to_nat i) (fields_bits l) false) ->
  bexpect src (map (fun f => BRead (snd f)) l) k u = Done (map (fun f => fst f mod 2 ^ snd f) l) (k + len (fields_bits l)).
Proof.
  induction l as [|[v n] l IH]; intros k u F Hk HL HB.
  - cbn [map bexpect]. change (len (fields_bits [])) with 0. rewrite Z.add_0_r. reflexivity.
  - inversion F as [|? ? Hn F']; subst. cbn [snd] in Hn. cbn [map bexpect fst snd].
    assert (E : fields_bits ((v, n) :: l) = low_bits v n ++ fields_bits l) by reflexivity. rewrite E in *.
    rewrite len_app, low_bits_len in * by lia. pose proof (len_nonneg (fields_bits l)) as N.
    destruct (Z.leb_spec (k + n) (8 * len src)); [|lia].
    rewrite IH; [|assumption|lia|lia|].
    + f_equal; [|lia]. cbn [app]. f_equal. unfold field. rewrite (bit_slice_eq src k n (low_bits v n)); [apply bits_value_low; lia|lia|lia| |apply low_bits_len; lia].
      intros i Hi. rewrite HB by lia. rewrite app_nth1; [reflexivity|]. pose proof (low_bits_len v n ltac:(lia)) as L. unfold len in L. lia.
    + intros i Hi. replace (k + n + i) with (k + (n + i)) by lia. rewrite HB by lia.
      pose proof (low_bits_len v n ltac:(lia)) as L. unfold len in L. rewrite app_nth2 by lia. f_equal. lia.
Qed.
(** ** Bytes through the bit reader, and peek *)
Lemma bit_read_bytes_at src n : forall k u b, at_bit src k u b -> k + 8 * Z.of_nat n <= 8 * len src ->
  exists b' u', bit_read_bytes n b = (map (fun i => field src (k + 8 * Z.of_nat i) 8) (seq 0 n), b') /\ at_bit src (k + 8 * Z.of_nat n) u' b'.
Proof.
  induction n as [|n IH]; intros k u b H HL.
  - exists b, u. cbn [bit_read_bytes seq map]. rewrite Z.mul_0_r, Z.add_0_r. auto.
  - cbn [bit_read_bytes]. pose proof (read_bits_at src 8 k u b H ltac:(lia)) as R. destruct (Z.leb_spec (k + 8) (8 * len src)); [|lia].
    destruct R as (b1 & E & A). rewrite E. destruct (IH (k + 8) _ b1 A ltac:(lia)) as (b2 & u2 & E2 & A2). rewrite E2. exists b2, u2. split.
    + f_equal. cbn [seq map]. rewrite Z.mul_0_r, Z.add_0_r. f_equal.
      * pose proof (field_range src k 8 ltac:(lia)). apply wrap_fits; [reflexivity|]. unfold fits. cbn [imin imax u8 sg bits]. lia.
      * rewrite <- seq_shift, map_map. apply map_ext. intros i. f_equal. lia.
    + replace (k + 8 * Z.of_nat (S n)) with (k + 8 + 8 * Z.of_nat n) by lia. exact A2.
Qed.
Lemma field_byte src p : 0 <= p < len src -> Forall byte_ok src -> field src (8 * p) 8 = nth (Z.to_nat p) src 0.
Proof.
  intros Hp F. assert (R : byte_ok (nth (Z.to_nat p) src 0)) by (eapply Forall_forall; [exact F|apply nth_In; unfold len in *; lia]). unfold byte_ok in R.
  unfold field. rewrite (bit_slice_eq src (8 * p) 8 (low_bits (nth (Z.to_nat p) src 0) 8)); [|lia|lia| |apply low_bits_len; lia].
  - rewrite bits_value_low by lia. apply Z.mod_small. lia.
  - intros i Hi. unfold bit_at.
    replace ((8 * p + i) / 8) with p by (apply (Z.div_unique _ _ _ i); lia). replace ((8 * p + i) mod 8) with i by (apply (Z.mod_unique _ _ p); lia).
    unfold low_bits. rewrite (nth_indep _ false (Z.testbit (nth (Z.to_nat p) src 0) (8 - 1 - Z.of_nat 0))) by (rewrite map_length, seq_length; lia).
    rewrite (map_nth (fun i => Z.testbit (nth (Z.to_nat p) src 0) (8 - 1 - Z.of_nat i)) (seq 0 (Z.to_nat 8)) 0%nat), seq_nth by lia. f_equal. lia.
Qed.
Lemma field_testbit src k n i : 0 <= i < n -> Z.testbit (field src k n) i = bit_at src (k + (n - 1 - i)).
Proof.
  intros Hi. assert (Hn0 : 0 <= n) by lia. revert k i Hi. pattern n. apply natlike_ind; [intros; lia| |exact Hn0]. clear n Hn0. intros n Hn IH k i Hi. unfold Z.succ in *. rewrite field_S by lia.
  pose proof (field_range (src) (k + 1) n Hn) as R. destruct (Z.eq_dec i n) as [->|N].
  - rewrite Z.add_comm. rewrite Z.testbit_eqb by lia. rewrite Z.div_add, Z.div_small by lia. rewrite Z.add_0_l.
    replace (k + (n + 1 - 1 - n)) with k by lia. destruct (bit_at src k); reflexivity.
  - assert (T : Z.testbit (Z.b2z (bit_at src k) * 2 ^ n + field src (k + 1) n) i = Z.testbit (field src (k + 1) n) i).
    { rewrite <- (Z.mod_pow2_bits_low _ n i) by lia. rewrite Z.add_comm, Z.mod_add by lia. rewrite Z.mod_small by lia. reflexivity. }
    rewrite T, IH by lia. f_equal. lia.
Qed.
Lemma peek_at src k u b : Forall byte_ok src -> at_bit src k u b -> k + 8 <= 8 * len src -> boff b <> 0 ->
  bit_peek_byte b = (field src k 8, b).
Proof.
  intros F (p & H1 & H2 & H3 & H4 & H5 & H6 & H7) HL Hb. pose proof H2 as (R & G & Hl & Hpa & Hr). unfold bit_peek_byte, peek_byte.
  pose proof (at_pos_len_rest _ _ _ _ H2) as L. destruct (Z.eqb_spec (lim (bbase b)) 0); [lia|]. rewrite G. cbn [negb].
  destruct (rest (bbase b)) as [|x r] eqn:Er; [change (len (@nil Z)) with 0 in L; lia|].
  assert (Ex : x = nth (Z.to_nat p) src 0).
  { rewrite <- (firstn_skipn (Z.to_nat p) src). rewrite app_nth2; rewrite firstn_length_le by (unfold len in *; lia); [|lia]. rewrite Nat.sub_diag, <- Hr. reflexivity. }
  destruct b as [s y o]. cbn [bbase bbyte boff] in *. destruct (Z.eqb_spec o 0); [lia|]. f_equal.
  assert (RX : byte_ok x) by (rewrite Ex; eapply Forall_forall; [exact F|apply nth_In; unfold len in *; lia]). unfold byte_ok in RX. unfold bshift. cbn [boff].
  pose proof (field_range src k 8 ltac:(lia)) as RF.
  apply (bit_ext u8); [reflexivity|apply fits_wrap; reflexivity|unfold fits; cbn [imin imax u8 sg bits]; lia|].
  intros i Hi. cbn [bits u8] in Hi. rewrite (bit_wrap u8) by (cbn [bits u8]; lia). unfold bit. rewrite Z.lor_spec, Z.shiftr_spec by lia.
  rewrite field_testbit by lia. destruct (Z.lt_ge_cases i o) as [C|C].
  - rewrite Z.shiftl_spec_low by lia. cbn [orb]. rewrite Ex. unfold bit_at.
    replace ((k + (8 - 1 - i)) / 8) with p by (apply (Z.div_unique _ _ _ (o - 1 - i)); lia).
    replace ((k + (8 - 1 - i)) mod 8) with (o - 1 - i) by (apply (Z.mod_unique _ _ p); lia). f_equal. lia.
  - rewrite Z.shiftl_spec by lia.
    assert (Hx : Z.testbit x (i + (8 - o)) = false).
    { destruct (Z.eq_dec x 0) as [->|]; [apply Z.bits_0|]. apply Z.bits_above_log2; [lia|]. assert (Z.log2 x < 8) by (apply Z.log2_lt_pow2; lia). lia. }
    rewrite Hx, orb_false_r. assert (P1 : 1 <= p) by lia. rewrite H5 by lia. unfold bit_at.
    replace ((k + (8 - 1 - i)) / 8) with (p - 1) by (apply (Z.div_unique _ _ _ (7 - i + o)); lia).
    replace ((k + (8 - 1 - i)) mod 8) with (7 - i + o) by (apply (Z.mod_unique _ _ (p - 1)); lia). f_equal. lia.
Qed.
