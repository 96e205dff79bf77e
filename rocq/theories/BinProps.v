(** * C80: bit strings. *)
From Verif Require Import Base Bytes MathModel MathSpec MathProofs MathProofs2 MathProps BitProofs StreamModel StreamSpec StreamProofs StreamProofs2 BitStreamModel BitStreamSpec BitStreamProofs BitStreamProofs2 BinModel BinSpec.

Lemma holds_unique l a b : holds a l -> holds b l -> a = b.
Proof.
  intros (A1 & A2 & A3 & A4) (B1 & B2 & B3 & B4). destruct a as [n x], b as [m y]. cbn [b_bits b_bytes] in *. f_equal; [congruence|].
  apply (packed_unique l); split; try assumption; split; assumption.
Qed.
Lemma base2_bits text : is_base2 text = true -> exists l, text = bit_text l.
Proof.
  induction text as [|c text IH]; [exists []; reflexivity|]. cbn [is_base2 forallb]. intros H. apply andb_true_iff in H. destruct H as [Hc H]. destruct (IH H) as [l ->].
  apply orb_true_iff in Hc. rewrite !Z.eqb_eq in Hc. destruct Hc as [-> | ->]; [exists (false :: l)|exists (true :: l)]; reflexivity.
Qed.
Lemma bits_base2 l : is_base2 (bit_text l) = true.
Proof. induction l as [|[] l IH]; [reflexivity| |]; exact IH. Qed.
Lemma len_bits l : len (bit_text l) = len l.
Proof. unfold len, bit_text. rewrite map_length. reflexivity. Qed.
Lemma bit_text_inj a b : bit_text a = bit_text b -> a = b.
Proof. revert b. induction a as [|x a IH]; intros [|y b] E; try discriminate; [reflexivity|]. cbn [bit_text map] in E. injection E as E1 E2. f_equal; [destruct x, y; congruence|apply IH; exact E2]. Qed.

(** ** text *)
Lemma fold_wrote l : forall bl w, wrote bl w -> wrote (bl ++ l) (fold_left (fun w c => write_bit (c =? 49) w) (bit_text l) w).
Proof.
  induction l as [|v l IH]; intros bl w W; [rewrite app_nil_r; exact W|]. cbn [bit_text map fold_left]. replace ((if v then 49 else 48) =? 49) with v by (destruct v; reflexivity).
  change (v :: l) with ([v] ++ l). rewrite app_assoc. apply IH. apply write_bit_wrote. exact W.
Qed.
Lemma from_string_holds l : holds (binary_from_string (bit_text l)) l.
Proof.
  unfold binary_from_string. rewrite bits_base2. unfold holds. cbn [b_bits b_bytes]. split; [apply len_bits|]. pose proof (flush_packed l _ (fold_wrote l [] _ wrote_fresh)) as P. exact P.
Qed.
Lemma encode_loop_at src : forall f k u b, at_bit src k u b -> Z.of_nat f = 8 * len src - k -> encode_loop f b = bit_text (bit_slice src k (8 * len src - k)).
Proof.
  induction f as [|f IH]; intros k u b A E.
  - replace (8 * len src - k) with 0 by lia. reflexivity.
  - cbn [encode_loop]. rewrite (exhausted_at src k u b A). pose proof (at_bit_range src k u b A). destruct (Z.eqb_spec k (8 * len src)) as [K|K]; [lia|].
    pose proof (step_at src k u b A) as [S1 _]. specialize (S1 ltac:(lia)). destruct S1 as [S1 S2]. unfold read_bit. rewrite S1.
    replace (8 * len src - k) with ((8 * len src - (k + 1)) + 1) by lia. rewrite bit_slice_S by lia. cbn [bit_text map]. f_equal. apply (IH (k + 1) true); [exact S2|lia].
Qed.
Lemma resize_first l n : (n <= length l)%nat -> resize l (Z.of_nat n) = firstn n l.
Proof. intros H. unfold resize. rewrite Nat2Z.id. replace (n - length l)%nat with O by lia. cbn [repeat]. apply app_nil_r. Qed.
Lemma encoded_holds b l : holds b l -> len l < 2 ^ 66 -> binary_encoded b = bit_text l.
Proof.
  intros (A1 & A2 & A3 & A4) L. unfold binary_encoded. pose proof (len_nonneg l) as L0. set (src := b_bytes b) in *.
  assert (Hs : len src < 2 ^ 64) by (rewrite A3; apply Z.div_lt_upper_bound; lia). assert (Hr : len l <= 8 * len src).
  { rewrite A3. pose proof (Z.div_mod (len l + 7) 8 ltac:(lia)). pose proof (Z.mod_pos_bound (len l + 7) 8 ltac:(lia)). lia. }
  rewrite (encode_loop_at src (8 * length src) 0 false _ (fresh_at_bit src Hs)) by (unfold len; lia). rewrite Z.sub_0_r. rewrite A1. unfold len at 2.
  rewrite resize_first.
  2:{ unfold bit_text. rewrite map_length. pose proof (bit_slice_len src 0 (8 * len src) ltac:(unfold len; lia)) as E. unfold len in *. lia. }
  unfold bit_text. rewrite firstn_map. f_equal. assert (Sp : seq 0 (Z.to_nat (8 * len src)) = seq 0 (length l) ++ seq (length l) (Z.to_nat (8 * len src) - length l)).
  { rewrite <- (seq_app (length l) _ 0). f_equal. unfold len in *. lia. }
  unfold bit_slice. rewrite Sp, map_app, firstn_app, map_length, seq_length, Nat.sub_diag, firstn_O, app_nil_r, firstn_all2 by (rewrite map_length, seq_length; lia).
  change (map (fun i => bit_at src (0 + Z.of_nat i)) (seq 0 (length l)) = l). rewrite <- (Nat2Z.id (length l)) at 1. apply (bit_slice_eq src 0 (len l) l); [lia|exact L0| |reflexivity].
  intros k Hk. rewrite Z.add_0_l. apply A4. lia.
Qed.

(** A string of zeros and ones is the bits it spells, and is written back; any
    other string gives no bits. *)
Theorem C80_text text : len text < 2 ^ 64 ->
  (forall l, text = bit_text l -> holds (binary_from_string text) l /\ binary_encoded (binary_from_string text) = text) /\
  ((forall l, text <> bit_text l) -> holds (binary_from_string text) []).
Proof.
  intros L. split.
  - intros l ->. rewrite len_bits in L. pose proof (from_string_holds l) as Hh. split; [exact Hh|apply encoded_holds; [exact Hh|lia]].
  - intros N. unfold binary_from_string. destruct (is_base2 text) eqn:E; [apply base2_bits in E; destruct E as [l E]; destruct (N l E)|].
    repeat split; cbn [b_bits b_bytes]; [constructor|]. change (len (@nil Z)) with 0. intros k Hk. lia.
Qed.
Print Assumptions C80_text.

(** ** bytes *)
Lemma slice_nth src n k : 0 <= k -> nth (Z.to_nat k) (bit_slice src 0 n) false = if k <? n then bit_at src k else false.
Proof.
  intros K. unfold bit_slice. destruct (Z.ltb_spec k n) as [H|H].
  - rewrite (nth_indep _ false (bit_at src (0 + Z.of_nat 0))) by (rewrite map_length, seq_length; lia). rewrite (map_nth (fun i => bit_at src (0 + Z.of_nat i))). rewrite seq_nth by lia. f_equal. lia.
  - apply nth_overflow. rewrite map_length, seq_length. lia.
Qed.
Lemma mask_last_snoc d b n : mask_last (d ++ [b]) n = d ++ [bit_and u8 b (mask_right u8 n)].
Proof. induction d as [|x d IH]; [reflexivity|]. cbn [app]. destruct (d ++ [b]) as [|y r] eqn:E; [destruct d; discriminate|]. cbn [mask_last]. cbn [mask_last] in IH. rewrite IH. reflexivity. Qed.
Lemma resize_len d n : 0 <= n -> len (resize d n) = n.
Proof.
  intros N. unfold resize, len. rewrite app_length, repeat_length. destruct (Nat.le_gt_cases (Z.to_nat n) (length d)).
  - rewrite firstn_length_le by lia. lia.
  - rewrite firstn_all2 by lia. lia.
Qed.
Lemma resize_nth d n i : (i < Z.to_nat n)%nat -> nth i (resize d n) 0 = nth i d 0.
Proof.
  intros Hi. unfold resize. destruct (Nat.lt_ge_cases i (length d)) as [H|H].
  - rewrite app_nth1 by (rewrite firstn_length; lia). clear -Hi. revert d i Hi. induction (Z.to_nat n) as [|m IH]; intros d i Hi; [lia|]. destruct d as [|x d]; [destruct i; reflexivity|]. destruct i as [|i]; [reflexivity|]. cbn [firstn nth]. apply IH. lia.
  - rewrite (nth_overflow d) by lia. rewrite app_nth2 by (rewrite firstn_length; lia). apply nth_repeat.
Qed.
Lemma resize_ok d n : Forall byte_ok d -> Forall byte_ok (resize d n).
Proof. intros F. unfold resize. apply Forall_app. split.
  - apply Forall_forall. intros x I. rewrite Forall_forall in F. apply F. rewrite <- (firstn_skipn (Z.to_nat n) d). apply in_or_app. left. exact I.
  - apply Forall_forall. intros x I. apply repeat_spec in I. subst x. split; lia. Qed.
Theorem C80_data count data : 0 <= count < 2 ^ 64 -> Forall byte_ok data ->
  exists b, binary_from_data count data = Some b /\ holds b (bit_slice data 0 count).
Proof.
  intros R F. unfold binary_from_data. set (size := (count + 7) / 8). set (n := (8 - count mod 8) mod 8).
  assert (Hb : fits u64 count) by (apply fits_unsigned; [reflexivity|exact R]). assert (H8 : fits u64 8) by (apply fits_unsigned; [reflexivity|cbn; lia]).
  pose proof (Z.div_mod count 8 ltac:(lia)) as Dm. pose proof (Z.mod_pos_bound count 8 ltac:(lia)) as Mb.
  assert (Hsize : 8 * size = count + n /\ 0 <= n < 8 /\ - (- count / 8) = size).
  { unfold size, n. destruct (Z.eq_dec (count mod 8) 0) as [E|E].
    - rewrite E. change ((8 - 0) mod 8) with 0. assert (X : (count + 7) / 8 = count / 8) by (symmetry; apply (Z.div_unique _ _ _ 7); lia). rewrite Z.div_opp_l_z by lia. lia.
    - rewrite (Z.mod_small (8 - count mod 8)) by lia. assert (X : (count + 7) / 8 = count / 8 + 1) by (symmetry; apply (Z.div_unique _ _ _ (count mod 8 - 1)); lia). rewrite Z.div_opp_l_nz by lia. lia. }
  destruct Hsize as (S1 & N1 & S2). rewrite ceilinged_divide_eq by first [exact Hb|exact H8|cbn; lia|lia]. rewrite S2. cbn [obind].
  rewrite ceilinged_modulo_unsigned_eq by first [exact Hb|exact H8|reflexivity|cbn; lia|lia]. cbn [obind]. replace (count - 8 * - (- count / 8)) with (- n) by lia.
  rewrite absolute_exact; [|cbn; lia|reflexivity|apply fits_signed; [reflexivity|cbn; lia]|unfold imin; cbn; lia]. cbn [obind]. replace (Z.abs (- n)) with n by lia. eexists. split; [reflexivity|].
  assert (Ls : len (bit_slice data 0 count) = count) by (apply bit_slice_len; lia). unfold holds. cbn [b_bits b_bytes]. rewrite Ls. fold size.
  assert (Sz : 0 <= size) by lia. pose proof (resize_len data size Sz) as Lr. pose proof (resize_ok data size F) as Fr.
  assert (Bt : forall k, 0 <= k < 8 * size -> bit_at (resize data size) k = bit_at data k).
  { intros k Hk. unfold bit_at. rewrite resize_nth; [reflexivity|]. pose proof (Z.div_pos k 8). pose proof (Z.div_lt_upper_bound k 8 size). lia. }
  destruct (resize data size) as [|b d' _] eqn:Er using rev_ind.
  - change (len (@nil Z)) with 0 in Lr. cbn [mask_last]. split; [reflexivity|]. split; [constructor|]. split; [exact Lr|]. change (len (@nil Z)) with 0. intros k Hk. lia.
  - rewrite mask_last_snoc. apply Forall_app in Fr. destruct Fr as [Fd Fb]. inversion Fb as [|? ? Hb' _]; subst. rewrite len_app in *. change (len [b]) with 1 in *. change (len [bit_and u8 b (mask_right u8 n)]) with 1.
    split; [reflexivity|]. split; [apply Forall_app; split; [exact Fd|]; apply Forall_cons; [|apply Forall_nil]|split; [exact Lr|]].
    + unfold byte_ok, bit_and, wrap. cbn [sg bits u8]. apply Z.mod_pos_bound. lia.
    + intros k Hk. rewrite slice_nth by lia. specialize (Bt k ltac:(lia)). destruct (Z.lt_ge_cases k (8 * len d')) as [K|K].
      * rewrite bit_at_app_l in Bt |- * by lia. rewrite Bt. destruct (Z.ltb_spec k count); [reflexivity|lia].
      * rewrite bit_at_app_r in Bt |- * by lia. assert (I : 0 <= k - 8 * len d' < 8) by lia. set (j := k - 8 * len d') in *. unfold bit_at in Bt |- *. rewrite (Z.div_small j 8), (Z.mod_small j 8) in * by lia. cbn [nth Z.to_nat] in *.
        assert (J : 0 <= 7 - j < bits u8) by (change (bits u8) with 8; lia). pose proof (bit_and_bit u8 b (mask_right u8 n) (7 - j) J) as Bb. rewrite mask_right_bit in Bb by first [exact J|exact (proj1 N1)|reflexivity]. unfold bit in Bb. rewrite Bb, Bt.
        destruct (Z.leb_spec n (7 - j)), (Z.ltb_spec k count); lia.
Qed.
Print Assumptions C80_data.

(** Equal exactly when the bits are equal. *)
Theorem C80_equal a b l m : holds a l -> holds b m -> len l < 2 ^ 64 -> len m < 2 ^ 64 -> binary_equal a b = true <-> l = m.
Proof.
  intros A B L M. unfold binary_equal. rewrite (encoded_holds a l A), (encoded_holds b m B) by lia. destruct (list_eq_dec Z.eq_dec (bit_text l) (bit_text m)) as [E|E].
  - split; [intros _; apply bit_text_inj; exact E|reflexivity].
  - split; [discriminate|]. intros ->. contradiction.
Qed.
Print Assumptions C80_equal.
(** Bit k of the string, within it. *)
Theorem C80_index_partial b l k : holds b l -> 0 <= k < len l -> binary_index b k = Some (nth (Z.to_nat k) l false).
Proof.
  intros (A1 & A2 & A3 & A4) K. unfold binary_index. rewrite A1. pose proof (Z.div_pos k 8 ltac:(lia) ltac:(lia)). pose proof (Z.div_mod k 8 ltac:(lia)). pose proof (Z.mod_pos_bound k 8 ltac:(lia)) as Mk.
  destruct (Z.ltb_spec (k / 8) (len l)) as [_|X]; [|lia]. assert (Kl : k < 8 * len (b_bytes b)) by (rewrite A3; pose proof (Z.div_mod (len l + 7) 8 ltac:(lia)); pose proof (Z.mod_pos_bound (len l + 7) 8 ltac:(lia)); lia).
  destruct (nth_error (b_bytes b) (Z.to_nat (k / 8))) as [v|] eqn:E; [|apply nth_error_None in E; unfold len in *; lia]. cbn [obind]. f_equal. rewrite <- (A4 k) by lia. unfold bit_at. rewrite (nth_error_nth _ _ 0 E).
  destruct (C52_get_set u8 v (k mod 8) true 0) as (_ & G & _); [cbn; lia|cbn; lia|cbn; lia|]. rewrite G. reflexivity.
Qed.
Print Assumptions C80_index_partial.
(** The byte index is compared with the number of bits: an index past the end
    reads outside the bytes instead of giving false. *)
Theorem C80_index_refuted b l k : holds b l -> 8 * len (b_bytes b) <= k < 8 * len l -> binary_index b k = None.
Proof.
  intros (A1 & A2 & A3 & A4) K. unfold binary_index. rewrite A1. pose proof (len_nonneg (b_bytes b)). destruct (Z.ltb_spec (k / 8) (len l)) as [_|X]; [|pose proof (Z.div_lt_upper_bound k 8 (len l)); lia].
  replace (nth_error (b_bytes b) (Z.to_nat (k / 8))) with (@None Z); [reflexivity|]. symmetry. apply nth_error_None. pose proof (Z.div_le_lower_bound k 8 (len (b_bytes b))). unfold len in *. lia.
Qed.
Print Assumptions C80_index_refuted.

(** ** Satisfiability *)
Example C80_ex : binary_from_data 12 [0xab; 0xcd] = Some (mkbinary 12 [0xab; 0xc0]) /\ binary_encoded (mkbinary 12 [0xab; 0xc0]) = bit_text [true;false;true;false;true;false;true;true;true;true;false;false] /\
  binary_from_string (bit_text [true; true; false]) = mkbinary 3 [0xc0] /\ binary_index (mkbinary 8 [0xff]) 7 = Some true /\ binary_index (mkbinary 8 [0xff]) 8 = None.
Proof. vm_compute. repeat split. Qed.
