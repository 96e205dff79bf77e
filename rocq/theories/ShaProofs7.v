(** Padding blocks, finalisation, one-shot and double hashes of the SHA
    algorithms, as the accumulator needs them. *)
From Coq Require Import PeanoNat.
From Verif Require Import Base Bytes MathModel BitProofs BechProofs ShaModel ShaSpec ShaProofs ShaProofs2 ShaProofs3
  ShaProofs4 ShaProofs5 ShaProofs6 AccModel AccProofs.

Section Padding.
Variable A : sha.
Variable mix : list Z -> list Z -> list Z.
Hypothesis So : sound A mix.
Variables (s8 : bool) (widths : list nat).
Notation w := (word_bits A).
Notation wb := (word_bytes A).
Notation n := (state_words A).
Notation AL := (sha_algorithm A s8 widths).
Notation f := (fun st block => mix st (words_of A block)).

Lemma w_wb : w = 8 * Z.of_nat wb /\ (4 <= wb <= 8)%nat.
Proof using So. destruct (s_bytes _ _ So) as [[E F]|[E F]]; rewrite E, F; lia. Qed.

Lemma words_of_cons a b : length a = wb -> words_of A (a ++ b) = be_value a :: words_of A b.
Proof using So.
  intros L. destruct w_wb as [_ Hb]. unfold words_of. rewrite app_length, L.
  replace ((wb + length b) / wb)%nat with (S (length b / wb)).
  - cbn [chunks map]. rewrite firstn_app, <- L, firstn_all, Nat.sub_diag, firstn_O, app_nil_r.
    rewrite skipn_app, skipn_all, Nat.sub_diag. reflexivity.
  - replace (wb + length b)%nat with (length b + 1 * wb)%nat by lia. rewrite Nat.div_add by lia. lia.
Qed.
Lemma words_of_app k : forall a b, length a = (k * wb)%nat -> words_of A (a ++ b) = words_of A a ++ words_of A b.
Proof using So.
  induction k as [|k IH]; intros a b L.
  - destruct a; [|cbn in L; lia]. cbn [app]. unfold words_of at 2. cbn [length].
    destruct w_wb as [_ Hb]. rewrite Nat.div_0_l by lia. reflexivity.
  - destruct w_wb as [_ Hb]. rewrite <- (firstn_skipn wb a) at 1 2. rewrite <- app_assoc.
    assert (Lf : length (firstn wb a) = wb) by (rewrite firstn_length; lia).
    rewrite (words_of_cons _ (skipn wb a ++ b) Lf), (words_of_cons _ (skipn wb a) Lf).
    rewrite IH; [reflexivity|]. rewrite skipn_length. lia.
Qed.
Lemma words_of_zeros k : words_of A (repeat 0 (k * wb)) = repeat 0 k.
Proof using So.
  induction k as [|k IH].
  - destruct w_wb as [_ Hb]. unfold words_of. cbn [Nat.mul repeat length]. rewrite Nat.div_0_l by lia. reflexivity.
  - replace (S k * wb)%nat with (wb + k * wb)%nat by lia. rewrite repeat_app, words_of_cons by apply repeat_length.
    rewrite IH. cbn [repeat]. f_equal. destruct (s_bytes _ _ So) as [[E _]|[E _]]; rewrite E; reflexivity.
Qed.
Lemma words_of_nil : words_of A [] = [].
Proof using So. destruct w_wb as [_ Hb]. unfold words_of. cbn [length]. rewrite Nat.div_0_l by lia. reflexivity. Qed.

Lemma be_bytes_two v : 0 <= v < 2 ^ (2 * w) ->
  words_of A (be_bytes (2 * wb) v) = [v / 2 ^ w; v mod 2 ^ w].
Proof using So.
  intros Hv. destruct w_wb as [Ew Hb].
  assert (P : 256 ^ Z.of_nat wb = 2 ^ w) by (rewrite Ew, Z.pow_mul_r by lia; reflexivity).
  assert (Q : be_bytes (2 * wb) v = be_bytes wb (v / 2 ^ w) ++ be_bytes wb (v mod 2 ^ w)).
  { unfold be_bytes. rewrite <- rev_app_distr. f_equal.
    replace (2 * wb)%nat with (wb + wb)%nat by lia. rewrite le_bytes_app, P. f_equal.
    rewrite <- P. symmetry. apply le_bytes_mod. }
  assert (W0 : 0 < 2 ^ w) by (apply Z.pow_pos_nonneg; lia).
  assert (W2 : 2 ^ (2 * w) = 2 ^ w * 2 ^ w) by (rewrite <- Z.pow_add_r by lia; f_equal; lia).
  rewrite Q, words_of_cons by apply be_bytes_length.
  rewrite <- (app_nil_r (be_bytes wb (v mod 2 ^ w))), words_of_cons by apply be_bytes_length.
  rewrite words_of_nil, !be_value_bytes, P.
  rewrite Z.mod_mod by lia. rewrite (Z.mod_small (v / 2 ^ w)); [reflexivity|].
  split; [apply Z.div_pos; lia|]. apply Z.div_lt_upper_bound; lia.
Qed.
Lemma words_mark k : words_of A (128 :: repeat 0 (wb - 1 + k * wb)) = bit_hi A :: repeat 0 k.
Proof using So.
  rewrite repeat_app, app_comm_cons, words_of_cons, words_of_zeros.
  - f_equal. unfold bit_hi. destruct (s_bytes _ _ So) as [[E F]|[E F]]; rewrite E, F; reflexivity.
  - cbn [length]. rewrite repeat_length. destruct w_wb as [_ Hb]. lia.
Qed.

(** The words of a block of [16 - k] words of padding. *)
Lemma padding_words k v : (k <= 13)%nat -> 0 <= v < 2 ^ (2 * w) ->
  words_of A (128 :: repeat 0 (wb - 1 + (13 - k) * wb) ++ be_bytes (2 * wb) v) =
  bit_hi A :: repeat 0 (13 - k) ++ [v / 2 ^ w; v mod 2 ^ w].
Proof using So.
  intros Hk Hv. rewrite app_comm_cons, (words_of_app (1 + (13 - k))).
  - rewrite words_mark, be_bytes_two by exact Hv. reflexivity.
  - cbn [length]. rewrite repeat_length. destruct w_wb as [_ Hb]. nia.
Qed.

Lemma Beq : B AL = 16 * Z.of_nat wb /\ C AL = 2 * Z.of_nat wb.
Proof using. clear. unfold B, C. cbn [sha_algorithm block_bytes count_bytes]. unfold block_size. lia. Qed.
Lemma bits_bound m : 0 <= m < 2 ^ 61 -> 0 <= 8 * m < 2 ^ (2 * w).
Proof using So.
  intros H. destruct w_wb as [Ew Hb].
  assert (2 ^ 64 <= 2 ^ (2 * w)) by (apply Z.pow_le_mono_r; lia). change (2 ^ 64) with (8 * 2 ^ 61) in H0. lia.
Qed.

Lemma whole_padding_words m : 0 <= m -> m * B AL < 2 ^ 61 ->
  words_of A (md_padding AL (m * B AL)) =
    bit_hi A :: repeat 0 13 ++ [(8 * (m * B AL)) / 2 ^ w; (8 * (m * B AL)) mod 2 ^ w] /\
  length (md_padding AL (m * B AL)) = block_size A.
Proof using So.
  intros Hm Hs. destruct w_wb as [Ew Hb]. destruct Beq as [EB EC].
  assert (Z0 : (B AL - C AL - 1 - m * B AL) mod B AL = B AL - C AL - 1).
  { symmetry. apply (Z.mod_unique_pos _ _ (- m)); lia. }
  split.
  - unfold md_padding. rewrite Z0. cbn [sha_algorithm big_end_count count_bytes].
    replace (Z.to_nat (B AL - C AL - 1)) with (wb - 1 + (13 - 0) * wb)%nat by lia.
    rewrite padding_words; [reflexivity|lia|]. apply bits_bound. nia.
  - rewrite md_padding_length, Z0. cbn [sha_algorithm count_bytes]. unfold block_size. lia.
Qed.

Lemma half_padding_words : words_of A (md_padding AL (B AL / 2)) = chunk_pad A /\
  length (md_padding AL (B AL / 2)) = half_size A.
Proof using So.
  destruct w_wb as [Ew Hb]. destruct Beq as [EB EC].
  assert (E2 : B AL / 2 = 8 * Z.of_nat wb) by (rewrite EB; symmetry; apply Z.div_unique_exact; lia).
  assert (Z0 : (B AL - C AL - 1 - B AL / 2) mod B AL = 6 * Z.of_nat wb - 1).
  { rewrite E2. symmetry. apply (Z.mod_unique_pos _ _ 0); lia. }
  assert (W64 : 8 * (8 * Z.of_nat wb) < 2 ^ w).
  { assert (2 ^ 32 <= 2 ^ w) by (apply Z.pow_le_mono_r; lia). change (2 ^ 32) with 4294967296 in H. lia. }
  split.
  - unfold md_padding. rewrite Z0. cbn [sha_algorithm big_end_count count_bytes].
    replace (Z.to_nat (6 * Z.of_nat wb - 1)) with (wb - 1 + (13 - 8) * wb)%nat by lia.
    rewrite padding_words; [|lia|rewrite E2; apply bits_bound; lia].
    rewrite E2, Z.div_small, Z.mod_small by lia. unfold chunk_pad, half_size. cbn [Nat.sub repeat app].
    replace (Z.of_nat (8 * wb) * 8) with (8 * (8 * Z.of_nat wb)) by lia. reflexivity.
  - rewrite md_padding_length, Z0. cbn [sha_algorithm count_bytes]. unfold half_size. lia.
Qed.

(** * Buffers *)
Lemma write_at_firstn (v l : list Z) k i : (i + length v = k)%nat -> (k <= length l)%nat ->
  firstn k (write_at i v l) = firstn i l ++ v.
Proof using.
  clear. intros E L. unfold write_at. rewrite app_assoc, firstn_app.
  assert (Q : length (firstn i l ++ v) = k) by (rewrite app_length, firstn_length; lia).
  rewrite Q, Nat.sub_diag, firstn_O, app_nil_r, <- Q. apply firstn_all.
Qed.
Lemma chunk_pad_length : length (chunk_pad A) = 8%nat.
Proof using. unfold chunk_pad. cbn [length]. rewrite app_length, repeat_length. reflexivity. Qed.

Lemma pad_half_ok b (l : list Z) : length b = rounds A -> length l = 8%nat ->
  length (pad_half A (write_at 0 l b)) = rounds A /\ firstn 16 (pad_half A (write_at 0 l b)) = l ++ chunk_pad A.
Proof using So.
  intros L Ll. pose proof (s_16 _ _ So). pose proof chunk_pad_length as Lc.
  assert (L1 : length (write_at 0 l b) = rounds A) by (rewrite write_at_length; lia).
  unfold pad_half. split; [rewrite write_at_length; lia|].
  rewrite (write_at_firstn _ _ 16 8) by lia. f_equal. rewrite <- Ll. apply (write_at_0 l b). lia.
Qed.

Lemma firstn_all' {X} (l : list X) k : length l = k -> firstn k l = l.
Proof using. clear. intros <-. apply firstn_all. Qed.

Lemma pad_n_ok b m : length b = rounds A -> 0 <= m -> m * B AL < 2 ^ 61 ->
  length (pad_n A b m) = rounds A /\ firstn 16 (pad_n A b m) = words_of A (md_padding AL (m * B AL)).
Proof using So.
  intros L Hm Hs. pose proof (s_16 _ _ So) as R16. destruct (whole_padding_words m Hm Hs) as [-> _].
  unfold pad_n. cbv zeta. set (v := (m * Z.of_nat (block_size A) * 8) mod count_limit A).
  assert (Ev : v = 8 * (m * B AL)).
  { unfold v, count_limit. destruct Beq as [EB _]. unfold block_size. rewrite EB in *.
    replace (m * Z.of_nat (16 * wb) * 8) with (8 * (m * (16 * Z.of_nat wb))) by lia.
    apply Z.mod_small. apply bits_bound. nia. }
  rewrite Ev. set (hi := _ / 2 ^ w). set (lo := _ mod 2 ^ w).
  assert (L0 : length (write_at 0 (bit_hi A :: repeat 0 13) b) = rounds A).
  { rewrite write_at_length; cbn [length]; rewrite ?repeat_length; lia. }
  assert (L1 : length (upd 14 hi (write_at 0 (bit_hi A :: repeat 0 13) b)) = rounds A) by (rewrite upd_length; lia).
  split; [rewrite upd_length; lia|].
  rewrite upd_firstn by lia. rewrite upd_firstn by lia.
  rewrite (write_at_firstn _ _ 14 0) by (cbn [length]; rewrite ?repeat_length; lia).
  cbn [firstn app]. rewrite <- app_assoc. reflexivity.
Qed.

Lemma scheduled_pad_ok m : 0 <= m -> m * B AL * 8 < 2 ^ w ->
  let b := upd 15 ((m * Z.of_nat (block_size A) * 8) mod 2 ^ w) (upd 0 (bit_hi A) (zero_buffer A)) in
  scheduled_pad A m = schedule A false b /\ length b = rounds A /\ firstn 16 b = words_of A (md_padding AL (m * B AL)).
Proof using So.
  intros Hm Hs. pose proof (s_16 _ _ So) as R16. cbv zeta. destruct Beq as [EB _]. destruct w_wb as [Ew Hb].
  assert (L61 : m * B AL < 2 ^ 61).
  { assert (2 ^ w <= 2 ^ 64) by (apply Z.pow_le_mono_r; lia). change (2 ^ 64) with (8 * 2 ^ 61) in H. lia. }
  destruct (whole_padding_words m Hm L61) as [-> _].
  assert (Ev : m * Z.of_nat (block_size A) * 8 = 8 * (m * B AL)).
  { unfold block_size. rewrite EB. lia. }
  rewrite Ev. rewrite (Z.div_small (8 * (m * B AL))) by lia.
  set (lo := _ mod 2 ^ w). unfold zero_buffer.
  replace (rounds A) with (16 + (rounds A - 16))%nat by lia. rewrite repeat_app.
  set (r := repeat 0 (rounds A - 16)).
  assert (Lr : length r = (rounds A - 16)%nat) by apply repeat_length.
  cbn [repeat app upd firstn skipn length]. split; [|split].
  - unfold scheduled_pad, schedule, zero_buffer. rewrite Ev. fold lo.
    replace (rounds A) with (16 + (rounds A - 16))%nat by lia. rewrite repeat_app. fold r.
    cbn [repeat app upd firstn skipn length]. reflexivity.
  - cbn [length]. rewrite Lr. reflexivity.
  - reflexivity.
Qed.

(** * Compressing a prepared buffer *)
Notation out := (output A).
Definition is_blk (b : list Z) : Prop := length b = block_size A.

Lemma compress_block st b block t8 : words_ok A n st -> length b = rounds A -> firstn 16 b = words_of A block ->
  compress A st (schedule A t8 b) = f st block /\ words_ok A n (f st block).
Proof using So. intros Hs L E. cbv beta. rewrite <- E. apply (s_impl _ _ So); assumption. Qed.

Lemma finalize_ok st m : words_ok A n st -> 0 <= m -> m * B AL < 2 ^ 61 ->
  compress A st (schedule_n A s8 (zero_buffer A) m) = f st (md_padding AL (m * B AL)) /\
  words_ok A n (f st (md_padding AL (m * B AL))) /\ length (schedule_n A s8 (zero_buffer A) m) = rounds A.
Proof using So.
  intros Hs Hm Hl. unfold schedule_n, cached_blocks.
  destruct (Z.leb_spec 1 m) as [C1|C1], (Z.leb_spec m 4) as [C2|C2]; cbn [andb].
  1:{ destruct (scheduled_pad_ok m Hm) as (E & L & F).
      - destruct w_wb as [Ew Hb]. destruct Beq as [EB _]. rewrite EB.
        assert (2 ^ 32 <= 2 ^ w) by (apply Z.pow_le_mono_r; lia). change (2 ^ 32) with 4294967296 in H. nia.
      - rewrite E. destruct (compress_block st _ (md_padding AL (m * B AL)) false Hs L F) as [G1 G2].
        split; [exact G1|]. split; [exact G2|]. apply (schedule_length A mix So). exact L. }
  all: destruct (pad_n_ok (zero_buffer A) m (zero_length A) Hm Hl) as [L F];
    destruct (compress_block st _ (md_padding AL (m * B AL)) s8 Hs L F) as [G1 G2];
    (split; [exact G1|]); (split; [exact G2|]); apply (schedule_length A mix So); exact L.
Qed.

Lemma sha_md : md_sound AL f (words_ok A n).
Proof using So.
  destruct w_wb as [Ew Hb]. destruct Beq as [EB EC]. constructor.
  - cbn [sha_algorithm count_bytes block_bytes]. unfold block_size. lia.
  - rewrite EB. lia.
  - cbn [sha_algorithm limit_bytes]. rewrite EC.
    destruct (s_bytes _ _ So) as [[E F]|[E F]]; rewrite E, F; split; vm_compute; congruence.
  - cbn [sha_algorithm count_bytes]. lia.
  - apply (s_H _ _ So).
  - intros st bs Hs Fb. cbn [sha_algorithm accumulate_blocks]. apply (iterate_ok A mix So); assumption.
  - intros st b Hs Lb. apply (step_ok A mix So false st (zero_buffer A) b Hs (zero_length A) Lb).
  - intros st m Hs Hm Hl. cbn [sha_algorithm finalize_state normalize]. unfold finalize. f_equal.
    apply finalize_ok; assumption.
Qed.

(** * One-shot hashes *)
Notation MD := (MD AL f).
Lemma MD_blocks bs : Forall is_blk bs -> len bs * B AL < 2 ^ 61 ->
  MD (concat bs) = out (f (fold_left f bs (H A)) (md_padding AL (len bs * B AL))).
Proof using So.
  intros F Hl. unfold AccProofs.MD. cbn [sha_algorithm normalize init block_bytes]. f_equal.
  assert (E : len (concat bs) = len bs * B AL) by (apply (len_concat AL bs F)).
  rewrite E. destruct (whole_padding_words (len bs) (len_nonneg bs) Hl) as [_ L].
  replace (concat bs ++ md_padding AL (len bs * B AL)) with (concat (bs ++ [md_padding AL (len bs * B AL)])).
  - rewrite split_app.
    + rewrite fold_left_app. reflexivity.
    + unfold block_size. destruct w_wb. lia.
    + apply Forall_app. split; [exact F|]. constructor; [exact L|constructor].
  - rewrite concat_app. cbn [concat]. rewrite app_nil_r. reflexivity.
Qed.

Lemma f_fold_ok bs : Forall is_blk bs -> words_ok A n (fold_left f bs (H A)).
Proof using So. intros F. apply (iterate_ok A mix So false []); [exact F|apply (s_H _ _ So)]. Qed.

Lemma hash_iblocks_ok bs : Forall is_blk bs -> len bs * B AL < 2 ^ 61 -> hash_iblocks A s8 widths bs = MD (concat bs).
Proof using So.
  intros F Hl. rewrite MD_blocks by assumption. unfold hash_iblocks, finalize. f_equal.
  destruct (iterate_ok A mix So s8 widths bs (H A) F (s_H _ _ So)) as [-> O].
  apply finalize_ok; [exact O|apply len_nonneg|exact Hl].
Qed.
Lemma hash_ablocks_ok bs : Forall is_blk bs -> len bs * B AL * 8 < 2 ^ w -> hash_ablocks A s8 widths bs = MD (concat bs).
Proof using So.
  intros F Hl. assert (L61 : len bs * B AL < 2 ^ 61).
  { destruct w_wb as [Ew Hb]. assert (2 ^ w <= 2 ^ 64) by (apply Z.pow_le_mono_r; lia). change (2 ^ 64) with (8 * 2 ^ 61) in H. lia. }
  rewrite MD_blocks by assumption. unfold hash_ablocks, finalize_n. f_equal.
  destruct (iterate_ok A mix So s8 widths bs (H A) F (s_H _ _ So)) as [-> O].
  destruct (scheduled_pad_ok (len bs) (len_nonneg bs) Hl) as (E & L & E16). rewrite E.
  apply (compress_block _ _ (md_padding AL (len bs * B AL)) false O L E16).
Qed.

Lemma MD_half h : length h = half_size A -> MD h = out (f (H A) (h ++ md_padding AL (B AL / 2))).
Proof using So.
  intros L. unfold AccProofs.MD. cbn [sha_algorithm normalize init block_bytes]. f_equal.
  destruct half_padding_words as [_ Lp]. destruct Beq as [EB _].
  replace (len h) with (B AL / 2).
  - assert (F : Forall is_blk [h ++ md_padding AL (B AL / 2)]).
    { constructor; [|constructor]. unfold is_blk. rewrite app_length, L, Lp. unfold half_size, block_size. lia. }
    replace (h ++ md_padding AL (B AL / 2)) with (concat [h ++ md_padding AL (B AL / 2)]) at 1
      by (cbn [concat]; apply app_nil_r).
    rewrite split_app; [reflexivity|unfold block_size; destruct w_wb; lia|exact F].
  - rewrite EB. unfold len. rewrite L. unfold half_size. rewrite (Z.mul_comm 16).
    change 16 with (8 * 2). rewrite Z.mul_assoc, Z.div_mul by lia. lia.
Qed.
Lemma half_words h : length h = half_size A -> words_of A (h ++ md_padding AL (B AL / 2)) = words_of A h ++ chunk_pad A /\
  length (words_of A h) = 8%nat.
Proof using So.
  intros L. destruct half_padding_words as [E _]. split.
  - rewrite (words_of_app 8), E; [reflexivity|exact L].
  - apply (words_of_length A mix So). exact L.
Qed.
Lemma hash_half_ok h t8 : length h = half_size A -> hash_half A t8 h = MD h.
Proof using So.
  intros L. rewrite (MD_half h L). unfold hash_half. f_equal. destruct (half_words h L) as [E L8].
  destruct (pad_half_ok (zero_buffer A) (words_of A h) (zero_length A) L8) as [L1 F1].
  apply (compress_block (H A) _ (h ++ md_padding AL (B AL / 2)) t8 (s_H _ _ So) L1).
  rewrite F1, E. reflexivity.
Qed.

(** * Double hashes: the state of the first hash is the message of the second. *)
Hypothesis N8 : n = 8%nat.
Lemma words_of_output st : words_ok A n st -> words_of A (out st) = st /\ length (out st) = half_size A.
Proof using So N8.
  intros [L F]. rewrite N8 in L. destruct w_wb as [Ew Hb].
  assert (G : forall s, Forall (word w) s -> words_of A (out s) = s /\ length (out s) = (length s * wb)%nat).
  { clear L F st. induction 1 as [|x s Hx F IH]; cbn [output flat_map].
    - split; [apply words_of_nil|reflexivity].
    - destruct IH as [I1 I2]. split.
      + rewrite words_of_cons by apply be_bytes_length. unfold output in I1. rewrite I1. f_equal.
        apply be_value_bytes_small. unfold word in Hx. rewrite Ew, Z.pow_mul_r in Hx by lia. exact Hx.
      + rewrite app_length, be_bytes_length. unfold output in I2. rewrite I2. cbn [length]. lia. }
  destruct (G st F) as [G1 G2]. split; [exact G1|]. rewrite G2, L. reflexivity.
Qed.
Lemma second_ok b st : words_ok A n st -> length b = rounds A -> second A s8 b st = MD (out st).
Proof using So N8.
  intros Hs L. destruct (words_of_output st Hs) as [E1 L1]. rewrite (MD_half _ L1). unfold second. f_equal.
  destruct Hs as [L8 F]. rewrite N8 in L8. unfold inject_left_half.
  destruct (pad_half_ok b st L L8) as [P1 P2].
  apply (compress_block (H A) _ _ s8 (s_H _ _ So) P1). rewrite P2.
  destruct (half_words _ L1) as [E2 _]. rewrite E2, E1. reflexivity.
Qed.
Lemma finalize_second_ok st : words_ok A n st -> finalize_second A s8 st = MD (out st).
Proof using So N8. intros. apply second_ok; [assumption|apply zero_length]. Qed.
Lemma finalize_double_ok st m : words_ok A n st -> 0 <= m -> m * B AL < 2 ^ 61 ->
  finalize_double A s8 st m = MD (out (f st (md_padding AL (m * B AL)))).
Proof using So N8.
  intros Hs Hm Hl. unfold finalize_double. cbv zeta. destruct (finalize_ok st m Hs Hm Hl) as (E & O & L).
  rewrite E. apply second_ok; assumption.
Qed.
Lemma double_ablocks_ok bs : Forall is_blk bs -> len bs * B AL < 2 ^ 61 -> double_ablocks A s8 widths bs = MD (MD (concat bs)).
Proof using So N8.
  intros F Hl. rewrite MD_blocks by assumption. unfold double_ablocks.
  destruct (iterate_ok A mix So s8 widths bs (H A) F (s_H _ _ So)) as [-> O].
  apply finalize_double_ok; [exact O|apply len_nonneg|exact Hl].
Qed.
Lemma small_blocks m : 0 <= m <= 4 -> m * B AL * 8 < 2 ^ w.
Proof using So.
  clear N8. intros Hm. destruct w_wb as [Ew Hb]. destruct Beq as [EB _]. rewrite EB.
  assert (2 ^ 32 <= 2 ^ w) by (apply Z.pow_le_mono_r; lia). change (2 ^ 32) with 4294967296 in H. nia.
Qed.
Lemma small_61 m : 0 <= m <= 4 -> m * B AL < 2 ^ 61.
Proof using So. clear N8. intros Hm. destruct w_wb as [Ew Hb]. destruct Beq as [EB _]. rewrite EB. change (2 ^ 61) with 2305843009213693952. nia. Qed.
Lemma pad_1_ok st : words_ok A n st ->
  compress A st (scheduled_pad A 1) = f st (md_padding AL (1 * B AL)) /\
  words_ok A n (f st (md_padding AL (1 * B AL))) /\ length (scheduled_pad A 1) = rounds A.
Proof using So.
  clear N8. intros Hs. destruct (scheduled_pad_ok 1 ltac:(lia) (small_blocks 1 ltac:(lia))) as (E & L & F). rewrite E.
  destruct (compress_block st _ (md_padding AL (1 * B AL)) false Hs L F) as [G1 G2].
  split; [exact G1|]. split; [exact G2|]. apply (schedule_length A mix So). exact L.
Qed.
Lemma double_of_words b t8 block : length b = rounds A -> firstn 16 b = words_of A block -> is_blk block ->
  second A s8 (scheduled_pad A 1) (compress A (compress A (H A) (schedule A t8 b)) (scheduled_pad A 1)) = MD (MD block).
Proof using So N8.
  intros L E Lb. destruct (compress_block (H A) b block t8 (s_H _ _ So) L E) as [E1 O1]. rewrite E1.
  destruct (pad_1_ok _ O1) as (E2 & O2 & L2). rewrite E2, second_ok by assumption. f_equal.
  assert (F : Forall is_blk [block]) by (constructor; [exact Lb|constructor]).
  pose proof (MD_blocks [block] F (small_61 1 ltac:(lia))) as Q. cbn [concat] in Q. rewrite app_nil_r in Q.
  rewrite Q. reflexivity.
Qed.
Lemma double_block_ok block : is_blk block -> double_block A s8 block = MD (MD block).
Proof using So N8.
  intros Lb. unfold double_block. cbv zeta. destruct (input_ok A mix So _ block (zero_length A) Lb) as [L E].
  apply double_of_words; assumption.
Qed.
Lemma double_half_ok h : length h = half_size A -> double_half A s8 h = MD (MD h).
Proof using So N8.
  intros L. unfold double_half. cbv zeta. destruct (half_words h L) as [E L8]. unfold input_left.
  destruct (pad_half_ok (zero_buffer A) (words_of A h) (zero_length A) L8) as [L1 F1].
  destruct (compress_block (H A) _ (h ++ md_padding AL (B AL / 2)) s8 (s_H _ _ So) L1) as [E1 O1].
  { rewrite F1, E. reflexivity. }
  rewrite E1, second_ok; [|exact O1|apply (schedule_length A mix So); exact L1].
  f_equal. symmetry. apply MD_half. exact L.
Qed.
Lemma halves_words l r : length l = half_size A -> length r = half_size A ->
  let b := input_right A (input_left A (zero_buffer A) l) r in
  length b = rounds A /\ firstn 16 b = words_of A (l ++ r) /\ is_blk (l ++ r).
Proof using So.
  clear N8. intros Ll Lr. cbv zeta. pose proof (s_16 _ _ So) as R16.
  assert (L8l : length (words_of A l) = 8%nat) by (apply (words_of_length A mix So); exact Ll).
  assert (L8r : length (words_of A r) = 8%nat) by (apply (words_of_length A mix So); exact Lr).
  unfold input_right, input_left.
  assert (L1 : length (write_at 0 (words_of A l) (zero_buffer A)) = rounds A) by (rewrite write_at_length; rewrite zero_length; lia).
  split; [rewrite write_at_length; lia|]. split.
  - rewrite (write_at_firstn _ _ 16 8) by lia. rewrite (words_of_app 8) by exact Ll. f_equal.
    rewrite <- L8l. apply (write_at_0 (words_of A l)). rewrite zero_length. lia.
  - unfold is_blk. rewrite app_length, Ll, Lr. unfold half_size, block_size. lia.
Qed.
Lemma double_halves_ok l r : length l = half_size A -> length r = half_size A -> double_halves A s8 l r = MD (MD (l ++ r)).
Proof using So N8.
  intros Ll Lr. destruct (halves_words l r Ll Lr) as (L & E & Lb). unfold double_halves. cbv zeta.
  apply double_of_words; assumption.
Qed.
End Padding.
