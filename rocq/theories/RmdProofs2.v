(** RIPEMD as the accumulator's algorithm: padding, finalisation, one-shot
    forms, and the hash is that of the specification. *)
From Coq Require Import PeanoNat.
From Verif Require Import Base Bytes MathModel BitProofs ShaModel ShaSpec ShaProofs ShaProofs2 ShaProofs6
  AccModel AccProofs RmdModel RmdSpec RmdProofs.

(** Little-endian words. *)
Lemma rw_cons a b : length a = 4%nat -> r_words (a ++ b) = le_value a :: r_words b.
Proof.
  intros L. unfold r_words. rewrite app_length, L.
  replace ((4 + length b) / 4)%nat with (S (length b / 4)).
  - cbn [chunks map]. rewrite firstn_app, L, Nat.sub_diag, firstn_O, app_nil_r. rewrite <- L, firstn_all.
    rewrite skipn_app, skipn_all, Nat.sub_diag. reflexivity.
  - replace (4 + length b)%nat with (length b + 1 * 4)%nat by lia. rewrite Nat.div_add by lia. lia.
Qed.
Lemma rw_nil : r_words [] = []. Proof. reflexivity. Qed.
Lemma rw_app k : forall a b, length a = (k * 4)%nat -> r_words (a ++ b) = r_words a ++ r_words b /\ length (r_words a) = k.
Proof.
  induction k as [|k IH]; intros a b L.
  - destruct a; [|cbn in L; lia]. split; reflexivity.
  - rewrite <- (firstn_skipn 4 a). rewrite <- app_assoc.
    assert (Lf : length (firstn 4 a) = 4%nat) by (rewrite firstn_length; lia).
    rewrite (rw_cons _ (skipn 4 a ++ b) Lf), (rw_cons _ (skipn 4 a) Lf).
    destruct (IH (skipn 4 a) b) as [E1 E2]; [rewrite skipn_length; lia|].
    rewrite E1. cbn [length app]. rewrite E2. split; reflexivity.
Qed.
Lemma rw_zeros k : r_words (repeat 0 (k * 4)) = repeat 0 k.
Proof.
  induction k as [|k IH]; [reflexivity|].
  replace (S k * 4)%nat with (4 + k * 4)%nat by lia. rewrite repeat_app, rw_cons by apply repeat_length.
  rewrite IH. reflexivity.
Qed.
Lemma rw_count v : 0 <= v < 2 ^ 64 -> r_words (le_bytes 8 v) = [v mod 2 ^ 32; v / 2 ^ 32].
Proof.
  intros Hv. change 8%nat with (4 + 4)%nat. rewrite le_bytes_app, rw_cons by apply le_bytes_length.
  rewrite <- (app_nil_r (le_bytes 4 (v / _))), rw_cons by apply le_bytes_length. rewrite rw_nil.
  rewrite !le_value_bytes. change (256 ^ Z.of_nat 4) with (2 ^ 32).
  rewrite (Z.mod_small (v / 2 ^ 32)); [reflexivity|]. split; [apply Z.div_pos; lia|apply Z.div_lt_upper_bound; lia].
Qed.
Lemma rw_padding k v : 0 <= v < 2 ^ 64 ->
  r_words (128 :: repeat 0 (3 + k * 4) ++ le_bytes 8 v) = 128 :: repeat 0 k ++ [v mod 2 ^ 32; v / 2 ^ 32].
Proof.
  intros Hv. rewrite repeat_app, <- app_assoc.
  change (128 :: repeat 0 3 ++ repeat 0 (k * 4) ++ le_bytes 8 v) with ([128; 0; 0; 0] ++ (repeat 0 (k * 4) ++ le_bytes 8 v)).
  rewrite rw_cons by reflexivity. destruct (rw_app k (repeat 0 (k * 4)) (le_bytes 8 v)) as [-> _]; [apply repeat_length|].
  rewrite rw_zeros, rw_count by exact Hv. reflexivity.
Qed.
Lemma le_words_eq b : length b = 64%nat -> le_words b = r_words b.
Proof.
  intros L. unfold le_words, r_words. f_equal. rewrite L. change (64 / 4)%nat with 16%nat.
  destruct (chunks_concat 4 16 b ltac:(lia)) as [E F].
  rewrite skipn_all2, app_nil_r in E by lia. rewrite <- E at 1. apply split_app; [lia|exact F].
Qed.

Section Rmd.
Variable A : rmd.
Variable mix : list Z -> list Z -> list Z.
Variable n : nat.
Record rsound : Prop := {
  rs_mix : forall st X, length st = n -> r_compress A st X = mix st X /\ length (mix st X) = n;
  rs_H : length (r_H A) = n }.
Hypothesis So : rsound.
Notation AL := (rmd_algorithm A).
Notation f := (fun st block => mix st (r_words block)).
Notation okst := (fun st : list Z => length st = n).

Lemma rB : B AL = 64 /\ C AL = 8. Proof using. split; reflexivity. Qed.

Lemma input_whole words block : length words = 16%nat -> length block = 64%nat -> r_input words block = r_words block /\
  length (r_words block) = 16%nat.
Proof using.
  intros L Lb. destruct (rw_app 16 block [] Lb) as [_ Lw]. split; [|exact Lw].
  unfold r_input, write_at. rewrite Lw. cbn [firstn app Nat.add]. rewrite skipn_all2, app_nil_r by lia. reflexivity.
Qed.
Lemma iterate_ok_ bs : Forall (fun b : list Z => length b = 64%nat) bs -> forall st words, length st = n -> length words = 16%nat ->
  let p := fold_left (fun (p : list Z * list Z) block =>
    let words := r_input (snd p) block in (r_compress A (fst p) words, words)) bs (st, words) in
  fst p = fold_left f bs st /\ length (fst p) = n /\ length (snd p) = 16%nat.
Proof using So.
  induction 1 as [|b bs Lb F IH]; intros st words Ls Lw; cbn [fold_left]; [repeat split; assumption|].
  cbn [fst snd]. destruct (input_whole words b Lw Lb) as [E Lr]. rewrite E.
  destruct (rs_mix So st (r_words b) Ls) as [Em Lm]. rewrite Em. apply IH; assumption.
Qed.

Lemma pad_n_words words m : length words = 16%nat -> 0 <= m -> m * 64 < 2 ^ 61 ->
  r_pad_n words m = r_words (md_padding AL (m * 64)) /\ length (md_padding AL (m * 64)) = 64%nat.
Proof using.
  intros L Hm Hs.
  assert (Z0 : (B AL - C AL - 1 - m * 64) mod B AL = 55).
  { destruct rB as [-> ->]. symmetry. apply (Z.mod_unique_pos _ _ (- m)); lia. }
  split; [|rewrite md_padding_length, Z0; reflexivity].
  unfold md_padding. rewrite Z0. change (Z.to_nat 55) with (3 + 13 * 4)%nat. change (big_end_count AL) with false.
  change (count_bytes AL) with 8%nat. cbv iota. rewrite rw_padding by lia.
  unfold r_pad_n. cbv zeta. replace (m * 64 * 8) with (8 * (m * 64)) by lia.
  rewrite Z.mod_small by lia. generalize (8 * (m * 64)). intros v.
  do 16 (destruct words as [|? words]; [discriminate|]). destruct words; [|discriminate].
  cbn [upd write_at firstn skipn app repeat length Nat.add]. reflexivity.
Qed.

Lemma rmd_md : md_sound AL f okst.
Proof using So.
  constructor.
  - cbn; lia.
  - destruct rB as [-> _]. lia.
  - destruct rB as [_ ->]. split; vm_compute; congruence.
  - cbn; lia.
  - apply (rs_H So).
  - intros st bs Ls F. cbn [rmd_algorithm accumulate_blocks]. unfold r_accumulate, r_iterate.
    apply (iterate_ok_ bs F st r_zero Ls eq_refl).
  - intros st b Ls Lb. apply (rs_mix So). exact Ls.
  - intros st m Ls Hm Hl. destruct rB as [EB _]. rewrite EB in *. cbn [rmd_algorithm finalize_state normalize].
    unfold r_finalize. f_equal. destruct (pad_n_words r_zero m eq_refl Hm Hl) as [-> _]. apply (rs_mix So). exact Ls.
Qed.

Notation MD := (MD AL f).
Lemma rMD_blocks bs : Forall (fun b : list Z => length b = 64%nat) bs -> len bs * 64 < 2 ^ 61 ->
  MD (concat bs) = r_output (f (fold_left f bs (r_H A)) (md_padding AL (len bs * 64))).
Proof using So.
  intros F Hl. unfold AccProofs.MD. cbn [rmd_algorithm normalize init block_bytes]. f_equal.
  assert (E : len (concat bs) = len bs * 64) by (apply (len_concat AL bs F)).
  rewrite E. destruct (pad_n_words r_zero (len bs) eq_refl (len_nonneg bs) Hl) as [_ L].
  replace (concat bs ++ md_padding AL (len bs * 64)) with (concat (bs ++ [md_padding AL (len bs * 64)])).
  - rewrite split_app; [rewrite fold_left_app; reflexivity|lia|].
    apply Forall_app. split; [exact F|]. constructor; [exact L|constructor].
  - rewrite concat_app. cbn [concat]. rewrite app_nil_r. reflexivity.
Qed.
Lemma r_blocks_ok bs : Forall (fun b : list Z => length b = 64%nat) bs -> len bs * 64 < 2 ^ 61 ->
  r_hash_blocks A bs = MD (concat bs).
Proof using So.
  intros F Hl. rewrite rMD_blocks by assumption. unfold r_hash_blocks, r_iterate.
  pose proof (iterate_ok_ bs F (r_H A) r_zero (rs_H So) eq_refl) as Q. cbv zeta in Q.
  destruct (fold_left _ bs (r_H A, r_zero)) as [state words]. cbn [fst snd] in Q. destruct Q as (Q1 & Q2 & Q3).
  f_equal. destruct (pad_n_words words (len bs) Q3 (len_nonneg bs) Hl) as [-> _]. rewrite <- Q1. apply (rs_mix So). exact Q2.
Qed.
Lemma r_block_ok b : length b = 64%nat -> r_hash_block A b = MD b.
Proof using So.
  intros L. assert (F : Forall (fun b : list Z => length b = 64%nat) [b]) by (constructor; [exact L|constructor]).
  assert (H61 : len [b] * 64 < 2 ^ 61) by (change (len [b]) with 1; lia).
  pose proof (rMD_blocks [b] F H61) as Q. cbn [concat] in Q. rewrite app_nil_r in Q. rewrite Q.
  unfold r_hash_block. f_equal. destruct (input_whole r_zero b eq_refl L) as [-> _].
  destruct (rs_mix So (r_H A) (r_words b) (rs_H So)) as [-> Lm].
  replace (r_pad_one) with (r_words (md_padding AL (len [b] * 64))) by reflexivity.
  cbn [fold_left]. apply (rs_mix So). exact Lm.
Qed.
Lemma r_half_ok b : length b = 32%nat -> r_hash_half A b = MD b.
Proof using So.
  intros L. unfold AccProofs.MD. cbn [rmd_algorithm normalize init block_bytes].
  assert (E : len b = 32) by (unfold len; rewrite L; reflexivity). rewrite E.
  replace (b ++ md_padding AL 32) with (concat [b ++ md_padding AL 32]) by (cbn [concat]; apply app_nil_r).
  rewrite split_app; [|lia|constructor; [rewrite app_length, L; reflexivity|constructor]].
  cbn [fold_left]. unfold r_hash_half. f_equal.
  destruct (rw_app 8 b (md_padding AL 32) L) as [-> L8].
  replace (r_pad_half (r_input r_zero b)) with (r_words b ++ r_words (md_padding AL 32)); [apply (rs_mix So); exact (rs_H So)|].
  replace (r_words (md_padding AL 32)) with (upd 6 256 (upd 0 128 (repeat 0 8))) by reflexivity.
  unfold r_pad_half, r_input. clear E L. generalize dependent (r_words b). intros ws L8.
  do 8 (destruct ws as [|? ws]; [discriminate L8|]). destruct ws; [|discriminate L8]. reflexivity.
Qed.

Theorem r_hash_ok checked d : len d < 2 ^ 61 - 2 ^ 40 -> hash AL checked d = MD d /\ hash_array AL checked d = MD d.
Proof using So.
  intros Hl. assert (H61 : len d < 2 ^ 61) by (change (2 ^ 61) with 2305843009213693952 in *; change (2 ^ 40) with 1099511627776 in *; lia).
  assert (G : hash AL checked d = MD d); [|split; [exact G|rewrite <- G; reflexivity]].
  unfold hash. destruct rB as [EB _]. rewrite EB in *.
  destruct (Z.eqb_spec (len d) 0) as [E|_].
  { destruct d; [|rewrite len_cons in E; pose proof (len_nonneg d); lia].
    apply (r_blocks_ok []); [constructor|reflexivity]. }
  destruct (Z.eqb_spec (len d) (64 / 2)) as [E|_].
  { apply r_half_ok. change (64 / 2) with 32 in E. unfold len in E. lia. }
  destruct (Z.eqb_spec (len d) 64) as [E|_].
  { apply r_block_ok. unfold len in E. lia. }
  destruct (Z.eqb_spec (len d mod 64) 0) as [E|_].
  { cbn [rmd_algorithm hash_of_iblocks]. unfold blocks_of. rewrite EB. change (block_bytes AL) with 64%nat.
    pose proof (Z.div_mod (len d) 64 ltac:(lia)) as DM. rewrite E, Z.add_0_r in DM.
    assert (Q : 0 <= len d / 64) by (apply Z.div_pos; [apply len_nonneg|lia]).
    set (k := Z.to_nat (len d / 64)).
    assert (Lk : (k * 64)%nat = length d) by (unfold k, len in *; lia).
    destruct (chunks_concat 64 k d ltac:(lia)) as [E1 F]. rewrite Lk, skipn_all, app_nil_r in E1.
    rewrite (r_blocks_ok _ F).
    - rewrite E1. reflexivity.
    - unfold len. rewrite ShaProofs6.chunks_length. unfold len in H61. lia. }
  apply (stream_ok AL f okst rmd_md). exact Hl.
Qed.

Lemma rMD_spec (blockf : list Z -> list Z -> list Z) m :
  (forall h block, blockf h block = mix h (le_words block)) ->
  MD m = le_digest (fold_left blockf (md4_blocks m) (r_H A)).
Proof using So.
  intros Hf. unfold AccProofs.MD, le_digest, md4_blocks. cbn [rmd_algorithm normalize init block_bytes]. unfold r_output. f_equal.
  replace (md4_padding (len m)) with (md_padding AL (len m)) by reflexivity.
  set (p := m ++ _).
  assert (Fb : Forall (fun b => length b = 64%nat) (split 64 p)).
  { assert (Lp : (len p) mod 64 = 0) by (unfold p; rewrite len_app; apply (padded_length AL f okst rmd_md)).
    assert (Q : length p = (length p / 64 * 64)%nat).
    { assert (Q2 : (length p mod 64 = 0)%nat).
      { unfold len in Lp. apply Nat2Z.inj. rewrite Nat2Z.inj_mod. exact Lp. }
      pose proof (Nat.div_mod (length p) 64 ltac:(lia)). lia. }
    destruct (chunks_concat 64 (length p / 64) p ltac:(lia)) as [E F].
    rewrite <- Q, skipn_all, app_nil_r in E. rewrite <- E. rewrite split_app; [exact F|lia|exact F]. }
  generalize (r_H A) as st. induction Fb as [|b bs Lb Fb IH]; intros st; cbn [fold_left]; [reflexivity|].
  rewrite IH, Hf. rewrite (le_words_eq b Lb). reflexivity.
Qed.
End Rmd.

Lemma rsound160 : rsound rmd160 rmix160 5. Proof. constructor; [apply compress160|reflexivity]. Qed.
Lemma rsound128 : rsound rmd128 rmix128 4. Proof. constructor; [apply compress128|reflexivity]. Qed.
Lemma rMD_160 m : MD (rmd_algorithm rmd160) (fun st b => rmix160 st (r_words b)) m = RIPEMD160 m.
Proof.
  rewrite (rMD_spec rmd160 rmix160 5 rsound160 RMD160_block m) by (intros; reflexivity). reflexivity.
Qed.
Lemma rMD_128 m : MD (rmd_algorithm rmd128) (fun st b => rmix128 st (r_words b)) m = RIPEMD128 m.
Proof.
  rewrite (rMD_spec rmd128 rmix128 4 rsound128 RMD128_block m) by (intros; reflexivity). reflexivity.
Qed.
