(** One-shot dispatch, concatenation forms, double hashing and merkle hashing of
    the SHA algorithms. *)
From Coq Require Import PeanoNat.
From Verif Require Import Base Bytes MathModel BitProofs BechProofs ShaModel ShaSpec ShaProofs ShaProofs2 ShaProofs3
  ShaProofs4 ShaProofs5 ShaProofs6 AccModel AccProofs ShaProofs7.

Lemma compress_ext_lt {X} A (W : wops X) st wk wk' : (forall r, (r < rounds A)%nat -> wk r = wk' r) ->
  compress_ A W st wk = compress_ A W st wk'.
Proof.
  intros E. unfold compress_. f_equal.
  assert (G : forall l s, (forall r, In r l -> (r < rounds A)%nat) ->
    fold_left (fun s r => round A W r s (wk r)) l s = fold_left (fun s r => round A W r s (wk' r)) l s).
  { induction l as [|r l IH]; intros s Hl; cbn [fold_left]; [reflexivity|].
    rewrite E by (apply Hl; left; reflexivity). apply IH. intros; apply Hl; right; assumption. }
  apply G. intros r Hr. apply in_seq in Hr. lia.
Qed.

Lemma F2_write_at {X Y} (R : X -> Y -> Prop) i u v a b : Forall2 R u v -> Forall2 R a b ->
  Forall2 R (write_at i u a) (write_at i v b).
Proof.
  intros Hu Ha. unfold write_at. rewrite (F2_length _ _ _ Hu).
  apply Forall2_app; [apply F2_firstn; exact Ha|]. apply Forall2_app; [exact Hu|apply F2_skipn; exact Ha].
Qed.

Lemma lane_broadcast k j l : (j < k)%nat -> Forall2 (lane k j) (xbroadcast k l) l.
Proof. intros Hj. unfold xbroadcast. induction l; cbn [map]; constructor; [apply repeat_lane; exact Hj|assumption]. Qed.
Lemma lane_map k j xs b : Forall2 (lane k j) xs b -> map (fun x => nth j x 0) xs = b.
Proof. induction 1 as [|x y xs b [_ E] F IH]; cbn [map]; congruence. Qed.
Lemma lane_at k j xs b r : Forall2 (lane k j) xs b -> (r < length b)%nat -> lane k j (nth r xs []) (nth r b 0).
Proof.
  intros F. revert r. induction F as [|x y xs b L F IH]; intros r Hr; cbn [length] in Hr; [lia|].
  destruct r as [|r]; cbn [nth]; [exact L|]. apply IH. lia.
Qed.

Lemma skipn_chunks {X} n i : forall k (l : list X), skipn i (chunks n k l) = chunks n (k - i) (skipn (n * i) l).
Proof.
  induction i as [|i IH]; intros k l.
  - rewrite Nat.mul_0_r, Nat.sub_0_r. reflexivity.
  - destruct k as [|k]; cbn [chunks skipn Nat.sub]; [destruct i; reflexivity|].
    rewrite IH, skipn_skipn. f_equal. f_equal. lia.
Qed.
Lemma firstn_chunks {X} n i : forall k (l : list X), (i <= k)%nat -> firstn i (chunks n k l) = chunks n i l.
Proof.
  induction i as [|i IH]; intros k l H; [reflexivity|]. destruct k as [|k]; [lia|].
  cbn [chunks firstn]. rewrite IH by lia. reflexivity.
Qed.
Lemma chunks_group {X} n i j k (l : list X) : (i + j <= k)%nat ->
  chunks n j (skipn (n * i) l) = firstn j (skipn i (chunks n k l)).
Proof. intros H. rewrite skipn_chunks. symmetry. apply firstn_chunks. lia. Qed.

Lemma write_at_twice {X} (u v b : list X) : write_at (length u) v (write_at 0 u b) = write_at 0 (u ++ v) b.
Proof.
  unfold write_at. cbn [Nat.add]. rewrite !firstn_O, !app_nil_l, app_length, <- app_assoc.
  rewrite firstn_app, firstn_all, Nat.sub_diag, firstn_O, app_nil_r. f_equal. f_equal.
  rewrite skipn_app, skipn_all2 by lia. rewrite app_nil_l, skipn_skipn. f_equal. lia.
Qed.

Section Whole.
Variable A : sha.
Variable mix : list Z -> list Z -> list Z.
Hypothesis So : sound A mix.
Variables (s8 : bool) (widths : list nat).
Notation w := (word_bits A).
Notation wb := (word_bytes A).
Notation n := (state_words A).
Notation AL := (sha_algorithm A s8 widths).
Notation DL := (sha_double A s8 widths).
Notation f := (fun st block => mix st (words_of A block)).
Notation MD := (MD AL f).
Notation out := (output A).
Notation blk := (is_blk A).

Lemma Ms : md_sound AL f (words_ok A n). Proof using So. apply (sha_md A mix So). Qed.
Lemma BS : B AL = Z.of_nat (block_size A). Proof using. reflexivity. Qed.

Lemma one_block m : blk m -> MD m = out (f (f (H A) m) (md_padding AL (1 * B AL))).
Proof using So.
  intros L. assert (F : Forall blk [m]) by (constructor; [exact L|constructor]).
  pose proof (MD_blocks A mix So s8 widths [m] F (small_61 A mix So s8 widths 1 ltac:(lia))) as Q.
  cbn [concat] in Q. rewrite app_nil_r in Q. exact Q.
Qed.

(** * Two parts in one call *)
Lemma hash_halves_ok l r : length l = half_size A -> length r = half_size A -> hash_halves A s8 l r = MD (l ++ r).
Proof using So.
  intros Ll Lr. destruct (halves_words A mix So l r Ll Lr) as (L & E & Lb). rewrite (one_block _ Lb).
  unfold hash_halves. cbv zeta. f_equal.
  destruct (compress_block A mix So (H A) _ (l ++ r) s8 (s_H _ _ So) L E) as [E1 O1]. rewrite E1.
  apply (pad_1_ok A mix So s8 widths _ O1).
Qed.

Lemma hash_quarters_ok l r : length l = (4 * wb)%nat -> length r = (4 * wb)%nat -> hash_quarters A s8 l r = MD (l ++ r).
Proof using So.
  intros Ll Lr. pose proof (s_16 _ _ So) as R16.
  assert (L4l : length (words_of A l) = 4%nat) by (apply (words_of_length A mix So); exact Ll).
  assert (L4r : length (words_of A r) = 4%nat) by (apply (words_of_length A mix So); exact Lr).
  assert (Lh : length (l ++ r) = half_size A) by (rewrite app_length, Ll, Lr; unfold half_size; lia).
  rewrite (MD_half A mix So s8 widths _ Lh). unfold hash_quarters. f_equal.
  destruct (half_words A mix So s8 widths _ Lh) as [E _].
  assert (EW : words_of A (l ++ r) = words_of A l ++ words_of A r) by (apply (words_of_app A mix So 4); exact Ll).
  assert (EB : input_right_quarter A (input_left A (zero_buffer A) l) r
    = write_at 0 (words_of A (l ++ r)) (zero_buffer A)).
  { rewrite EW, <- write_at_twice, L4l. reflexivity. }
  rewrite EB.
  assert (L8 : length (words_of A (l ++ r)) = 8%nat) by (rewrite EW, app_length; lia).
  destruct (pad_half_ok A mix So (zero_buffer A) _ (zero_length A) L8) as [L1 F1].
  apply (compress_block A mix So (H A) _ ((l ++ r) ++ md_padding AL (B AL / 2)) s8 (s_H _ _ So) L1).
  rewrite F1, E. reflexivity.
Qed.

(** * Accumulator dispatch *)
Lemma blocks_of_ok d : len d mod B AL = 0 -> concat (blocks_of AL d) = d /\ Forall blk (blocks_of AL d) /\
  len (blocks_of AL d) * B AL = len d.
Proof using So.
  intros Hm. pose proof (B_pos AL f (words_ok A n) Ms) as BP. unfold blocks_of.
  pose proof (Z.div_mod (len d) (B AL) ltac:(lia)) as DM. rewrite Hm, Z.add_0_r in DM.
  assert (Q : 0 <= len d / B AL) by (apply Z.div_pos; [apply len_nonneg|lia]).
  set (k := Z.to_nat (len d / B AL)).
  assert (Lk : (k * block_bytes AL)%nat = length d).
  { unfold k. unfold B in *. unfold len in *. nia. }
  destruct (chunks_concat (block_bytes AL) k d ltac:(lia)) as [E F].
  rewrite Lk, skipn_all, app_nil_r in E. split; [exact E|]. split; [exact F|].
  unfold len at 1. rewrite ShaProofs6.chunks_length. unfold k. rewrite Z2Nat.id by exact Q. lia.
Qed.

Lemma MD_empty : MD [] = hash_ablocks A s8 widths [].
Proof using So.
  symmetry. apply (hash_ablocks_ok A mix So s8 widths []); [constructor|].
  change (len (@nil (list Z)) * B AL * 8) with 0. apply Z.pow_pos_nonneg; [lia|].
  destruct (s_bytes _ _ So) as [[_ E]|[_ E]]; rewrite E; lia.
Qed.

Lemma half_len (d : list Z) : len d = B AL / 2 -> length d = half_size A.
Proof using.
  clear. intros E. destruct (Beq A s8 widths) as [EB _]. rewrite EB in E. unfold half_size.
  replace (16 * Z.of_nat wb / 2) with (8 * Z.of_nat wb) in E by (apply Z.div_unique_exact; lia). unfold len in E. lia.
Qed.
Lemma block_len (d : list Z) : len d = B AL -> blk d.
Proof using. clear. intros E. unfold is_blk. rewrite BS in E. unfold len in E. lia. Qed.

Theorem hash_ok checked d : len d < 2 ^ 61 - 2 ^ 40 -> hash AL checked d = MD d.
Proof using So.
  intros Hl. assert (H61 : len d < 2 ^ 61) by (change (2 ^ 61) with 2305843009213693952 in *; change (2 ^ 40) with 1099511627776 in *; lia).
  unfold hash.
  destruct (Z.eqb_spec (len d) 0) as [E|_].
  { destruct d; [|rewrite len_cons in E; pose proof (len_nonneg d); lia]. symmetry. exact MD_empty. }
  destruct (Z.eqb_spec (len d) (B AL / 2)) as [E|_].
  { apply (hash_half_ok A mix So). apply half_len. exact E. }
  destruct (Z.eqb_spec (len d) (B AL)) as [E|_].
  { pose proof (block_len d E) as L. cbn [sha_algorithm hash_of_block].
    rewrite (hash_ablocks_ok A mix So s8 widths [d]).
    - cbn [concat]. rewrite app_nil_r. reflexivity.
    - constructor; [exact L|constructor].
    - apply (small_blocks A mix So s8 widths 1). lia. }
  destruct (Z.eqb_spec (len d mod B AL) 0) as [E|_].
  { destruct (blocks_of_ok d E) as (E1 & F1 & L1). cbn [sha_algorithm hash_of_iblocks].
    rewrite (hash_iblocks_ok A mix So s8 widths _ F1) by (rewrite L1; exact H61). rewrite E1. reflexivity. }
  apply (stream_ok AL f (words_ok A n) Ms). exact Hl.
Qed.
(** Arrays are of constant size; their bit length must fit a word. *)
Theorem hash_array_ok checked d : len d < 2 ^ 61 - 2 ^ 40 -> 8 * len d < 2 ^ w -> hash_array AL checked d = MD d.
Proof using So.
  intros Hl Hw. rewrite <- (hash_ok checked d Hl). unfold hash_array, hash.
  destruct (len d =? 0); [reflexivity|]. destruct (len d =? B AL / 2); [reflexivity|]. destruct (len d =? B AL); [reflexivity|].
  destruct (Z.eqb_spec (len d mod B AL) 0) as [E|_]; [|reflexivity].
  destruct (blocks_of_ok d E) as (E1 & F1 & L1). cbn [sha_algorithm hash_of_iblocks hash_of_ablocks].
  rewrite (hash_iblocks_ok A mix So s8 widths _ F1).
  - apply (hash_ablocks_ok A mix So s8 widths _ F1). rewrite L1. lia.
  - rewrite L1. change (2 ^ 61) with 2305843009213693952 in *. change (2 ^ 40) with 1099511627776 in *. lia.
Qed.

Lemma MD_whole m : len m mod B AL = 0 -> len m < 2 ^ 61 ->
  MD m = out (f (fold_left f (split (block_bytes AL) m) (H A)) (md_padding AL (len m))).
Proof using So.
  intros Hm Hl. destruct (blocks_of_ok m Hm) as (E1 & F1 & L1).
  rewrite <- E1 at 1. rewrite (MD_blocks A mix So s8 widths _ F1) by (rewrite L1; exact Hl). rewrite L1.
  f_equal. f_equal. f_equal. rewrite <- E1 at 2. symmetry. apply split_app; [|exact F1].
  pose proof (m_C _ _ _ Ms). lia.
Qed.

Hypothesis N8 : n = 8%nat.

Theorem double_flush_holds checked a m : holds_ AL f a m -> len m < 2 ^ 61 - 2 ^ 40 ->
  fst (double_flush AL checked DL a) = MD (MD m).
Proof using So N8.
  intros Ha Hs. pose proof Ms as M. pose proof (C_lt AL f _ M) as HC. pose proof (len_nonneg m) as NM.
  assert (H61 : len m < 2 ^ 61) by (clear - Hs; change (2 ^ 61) with 2305843009213693952 in *; change (2 ^ 40) with 1099511627776 in *; lia).
  assert (Es : size_ a = len m) by (destruct Ha as (? & ? & ? & ? & ? & Es & _); exact Es).
  unfold double_flush, is_empty, is_full, next. rewrite Es. destruct (Z.eqb_spec (len m mod B AL) 0) as [E|E]; cbn [fst].
  - destruct (holds_full AL f _ M a m Ha E) as (S1 & S2 & S3 & S4).
    assert (Dm : len m / B AL * B AL = len m) by (pose proof (Z.div_mod (len m) (B AL) ltac:(lia)); lia).
    cbn [sha_double double_of_state].
    rewrite (finalize_double_ok A mix So s8 widths N8); [|exact S2|apply Z.div_pos; lia|rewrite Dm; exact H61].
    rewrite Dm. rewrite (MD_whole m E H61). rewrite S1. reflexivity.
  - pose proof (pad_holds AL f _ M checked a m Ha Hs) as Hp.
    destruct (holds_full AL f _ M _ _ Hp) as (S1 & S2 & S3 & S4).
    { rewrite len_app. apply (padded_length AL f _ M). }
    cbn [sha_double second_of]. rewrite (finalize_second_ok A mix So s8 widths N8) by exact S2.
    f_equal. rewrite S1. reflexivity.
Qed.

Theorem double_hash_ok checked d : len d < 2 ^ 61 - 2 ^ 40 -> double_hash AL checked DL d = MD (MD d).
Proof using So N8.
  intros Hl. assert (H61 : len d < 2 ^ 61) by (clear - Hl; change (2 ^ 61) with 2305843009213693952 in *; change (2 ^ 40) with 1099511627776 in *; lia).
  unfold double_hash. cbn [sha_double double_of_ablocks double_of_half double_of_block double_of_iblocks].
  destruct (Z.eqb_spec (len d) 0) as [E|_].
  { destruct d; [|rewrite len_cons in E; pose proof (len_nonneg d); lia].
    rewrite (double_ablocks_ok A mix So s8 widths N8); [reflexivity|constructor|].
    change (len (@nil (list Z)) * B AL) with 0. clear. lia. }
  destruct (Z.eqb_spec (len d) (B AL / 2)) as [E|_].
  { apply (double_half_ok A mix So s8 widths N8). apply half_len. exact E. }
  destruct (Z.eqb_spec (len d) (B AL)) as [E|_].
  { apply (double_block_ok A mix So s8 widths N8). apply block_len. exact E. }
  destruct (Z.eqb_spec (len d mod B AL) 0) as [E|_].
  { destruct (blocks_of_ok d E) as (E1 & F1 & L1).
    rewrite (double_ablocks_ok A mix So s8 widths N8 _ F1) by (rewrite L1; exact H61). rewrite E1. reflexivity. }
  unfold double_stream.
  destruct (write_holds AL f _ Ms checked (construct AL) [] d (holds_construct AL f _ Ms)) as (a' & E & Ha).
  - change (len (@nil Z)) with 0. clear - Hl. change (2 ^ 61) with 2305843009213693952 in *. change (2 ^ 40) with 1099511627776 in *. lia.
  - rewrite E. cbn [snd]. apply (double_flush_holds checked a' d Ha Hl).
Qed.
Theorem double_hash_array_ok checked d : len d < 2 ^ 61 - 2 ^ 40 -> double_hash_array AL checked DL d = MD (MD d).
Proof using So N8.
  intros Hl. rewrite <- (double_hash_ok checked d Hl). reflexivity.
Qed.

(** * Merkle: lanes *)
Lemma xok_broadcast k l : length l = rounds A -> xok A k (xbroadcast k l).
Proof using.
  clear. intros L. split; [unfold xbroadcast; rewrite map_length; exact L|].
  apply Forall_forall. intros x Hx. unfold xbroadcast in Hx. apply in_map_iff in Hx. destruct Hx as (v & <- & _). apply repeat_length.
Qed.

Lemma lane_compress' k j xst st xb b : (j < k)%nat -> Forall2 (lane k j) xst st -> Forall2 (lane k j) xb b ->
  length b = rounds A ->
  Forall2 (lane k j) (compress_ A (lops w k) xst (fun r => nth r xb [])) (compress A st b).
Proof using.
  clear. intros Hj Hs Hb L.
  rewrite (compress_ext_lt A (lops w k) xst _ (fun r => if Nat.ltb r (rounds A) then nth r xb [] else repeat 0 k)).
  - unfold compress. rewrite (compress_ext_lt A (zops w) st _ (fun r => if Nat.ltb r (rounds A) then nth r b 0 else 0)).
    + apply lane_compress; [exact Hj|exact Hs|]. intros r. destruct (Nat.ltb_spec r (rounds A)).
      * apply lane_at; [exact Hb|]. lia.
      * apply repeat_lane. exact Hj.
    + intros r Hr. replace (Nat.ltb r (rounds A)) with true by (symmetry; apply Nat.ltb_lt; exact Hr). reflexivity.
  - intros r Hr. replace (Nat.ltb r (rounds A)) with true by (symmetry; apply Nat.ltb_lt; exact Hr). reflexivity.
Qed.

Lemma merkle_lanes_ok k xb group : (0 < k)%nat -> xok A k xb -> length group = k -> Forall blk group ->
  fst (merkle_lanes A k xb group) = map (fun b => MD (MD b)) group /\ xok A k (snd (merkle_lanes A k xb group)).
Proof using So N8.
  intros Hk Hx Lg Fg. unfold merkle_lanes. cbv zeta. cbn [fst snd].
  set (XO := lops w k). set (x1 := schedule_ A XO (xinput A xb group)).
  set (st1 := compress_ A XO (xbroadcast k (H A)) (fun r => nth r x1 [])).
  set (x2 := xbroadcast k (scheduled_pad A 1)).
  set (st2 := compress_ A XO st1 (fun r => nth r x2 [])).
  set (x3 := schedule_ A XO _). set (st3 := compress_ A XO _ (fun r => nth r x3 [])).
  assert (K : forall j, (j < k)%nat -> Forall2 (lane k j) x3
      (schedule A false (pad_half A (inject_left_half (scheduled_pad A 1)
        (f (f (H A) (nth j group [])) (md_padding AL (1 * B AL)))))) /\
    out (map (fun x => nth j x 0) st3) = MD (MD (nth j group []))).
  { intros j Hj. destruct (xinput_ok A mix So k xb group Hx Lg Fg) as [[Lx Fx] Ew]. specialize (Ew j Hj).
    set (b := map (fun x => nth j x 0) (xinput A xb group)) in *.
    assert (Lb : length b = rounds A) by (unfold b; rewrite map_length; exact Lx).
    assert (Bj : blk (nth j group [])) by (rewrite Forall_forall in Fg; apply Fg; apply nth_In; lia).
    pose proof (lane_schedule A k j Hj _ _ (lane_self k j _ Fx)) as F1. fold b in F1.
    change (schedule_ A (zops w) b) with (schedule A false b) in F1. fold x1 in F1.
    pose proof (lane_compress' k j _ _ _ _ Hj (lane_broadcast k j (H A) Hj) F1 (schedule_length A mix So false b Lb)) as F2.
    fold XO st1 in F2.
    destruct (compress_block A mix So (H A) b (nth j group []) false (s_H _ _ So) Lb Ew) as [E1 O1].
    rewrite E1 in F2.
    destruct (pad_1_ok A mix So s8 widths _ O1) as (E2 & O2 & L2).
    pose proof (lane_compress' k j _ _ _ _ Hj F2 (lane_broadcast k j (scheduled_pad A 1) Hj) L2) as F3.
    fold XO x2 st2 in F3. rewrite E2 in F3.
    assert (F4 : Forall2 (lane k j) x3 (schedule A false (pad_half A (inject_left_half (scheduled_pad A 1)
        (f (f (H A) (nth j group [])) (md_padding AL (1 * B AL))))))).
    { apply (lane_schedule A k j Hj). unfold pad_half, inject_left_half.
      apply F2_write_at; [apply lane_broadcast; exact Hj|].
      apply F2_write_at; [exact F3|apply lane_broadcast; exact Hj]. }
    split; [exact F4|].
    pose proof (lane_compress' k j _ _ _ _ Hj (lane_broadcast k j (H A) Hj) F4) as F5.
    fold XO st3 in F5. rewrite (lane_map k j st3 _ (F5 ltac:(apply (schedule_length A mix So);
      destruct O2 as [L8 _]; rewrite N8 in L8; apply (pad_half_ok A mix So); assumption))).
    rewrite (one_block _ Bj).
    exact (second_ok A mix So false widths N8 (scheduled_pad A 1) _ O2 L2). }
  split.
  - apply (list_ext _ _ []).
    + rewrite !map_length, seq_length. lia.
    + intros j Hj. rewrite map_length, seq_length in Hj.
      rewrite (nth_indep _ [] (out (map (fun x => nth 0 x 0) st3))) by (rewrite map_length, seq_length; exact Hj).
      rewrite (map_nth (fun lane => out (map (fun x => nth lane x 0) st3))), seq_nth by exact Hj. cbn [Nat.add].
      rewrite (nth_indep (map (fun b => MD (MD b)) group) [] (MD (MD []))) by (rewrite map_length; lia).
      rewrite (map_nth (fun b => MD (MD b))). apply (K j Hj).
  - destruct (K 0%nat Hk) as [F4 _]. split.
    + rewrite (F2_length _ _ _ F4). apply (schedule_length A mix So).
      destruct (xinput_ok A mix So k xb group Hx Lg Fg) as [[Lx Fx] Ew]. specialize (Ew 0%nat Hk).
      assert (Lb : length (map (fun x => nth 0 x 0) (xinput A xb group)) = rounds A) by (rewrite map_length; exact Lx).
      destruct (compress_block A mix So (H A) _ (nth 0 group []) false (s_H _ _ So) Lb Ew) as [_ O1].
      destruct (pad_1_ok A mix So s8 widths _ O1) as (_ & [L8 _] & L2). rewrite N8 in L8.
      apply (pad_half_ok A mix So); assumption.
    + apply (lane_lengths k 0 _ _ F4).
Qed.
End Whole.
