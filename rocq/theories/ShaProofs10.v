(** The three algorithms: soundness, and their hash is the FIPS 180-4 hash. *)
From Coq Require Import PeanoNat.
From Verif Require Import Base Bytes MathModel BitProofs BechProofs ShaModel ShaSpec ShaProofs ShaProofs2 ShaProofs3
  ShaProofs4 ShaProofs5 ShaProofs6 AccModel AccProofs ShaProofs7 ShaProofs8 ShaProofs9.

Lemma words_by A k l : forallb (fun x => (0 <=? x) && (x <? 2 ^ word_bits A)) l = true -> length l = k -> words_ok A k l.
Proof.
  intros F L. split; [exact L|]. apply Forall_forall. intros x Hx. rewrite forallb_forall in F. specialize (F x Hx).
  unfold word. apply andb_true_iff in F. destruct F as [F1 F2]. apply Z.leb_le in F1. apply Z.ltb_lt in F2. lia.
Qed.

Lemma sound160 : sound sha160 mix1.
Proof.
  constructor; [apply sha160_implements|left; split; reflexivity|cbn; lia|reflexivity|apply words_by; reflexivity].
Qed.
Lemma sound256 : sound sha256 (mix2 SHA256_params).
Proof.
  constructor; [apply sha256_implements|left; split; reflexivity|cbn; lia|reflexivity|apply words_by; reflexivity].
Qed.
Lemma sound512 : sound sha512 (mix2 SHA512_params).
Proof.
  constructor; [apply sha512_implements|right; split; reflexivity|cbn; lia|reflexivity|apply words_by; reflexivity].
Qed.

Lemma words_eq A mix (So : sound A mix) k block : length block = (k * word_bytes A)%nat ->
  words (word_bits A) block = words_of A block.
Proof.
  intros L. destruct (w_wb A mix So) as [Ew Hb]. unfold words, words_of. f_equal.
  replace (Z.to_nat (word_bits A / 8)) with (word_bytes A) by reflexivity.
  assert (Q : (length block / word_bytes A)%nat = k) by (rewrite L; apply Nat.div_mul; lia). rewrite Q.
  destruct (chunks_concat (word_bytes A) k block ltac:(lia)) as [E F].
  rewrite <- L, skipn_all, app_nil_r in E. rewrite <- E at 1. apply split_app; [lia|exact F].
Qed.

Lemma MD_spec A mix (So : sound A mix) s8 widths (blockf : list Z -> list Z -> list Z) (init_ : list Z) (Bz Cz : Z) m :
  (forall h block, blockf h block = mix h (words (word_bits A) block)) -> init_ = H A ->
  Bz = Z.of_nat (block_size A) -> Cz = 2 * Z.of_nat (word_bytes A) ->
  MD (sha_algorithm A s8 widths) (fun st block => mix st (words_of A block)) m =
  digest (word_bits A) (fold_left blockf (blocks Bz Cz m) init_).
Proof.
  intros Hf -> -> ->. unfold MD, digest, blocks. cbn [sha_algorithm normalize init block_bytes]. unfold output.
  change (Z.to_nat (word_bits A / 8)) with (word_bytes A). f_equal. rewrite Nat2Z.id.
  replace (padding (Z.of_nat (block_size A)) (2 * Z.of_nat (word_bytes A)) (len m)) with (md_padding (sha_algorithm A s8 widths) (len m)).
  2:{ unfold md_padding, padding, B, C. cbn [sha_algorithm big_end_count count_bytes block_bytes].
      replace (Z.of_nat (2 * word_bytes A)) with (2 * Z.of_nat (word_bytes A)) by lia.
      replace (Z.to_nat (2 * Z.of_nat (word_bytes A))) with (2 * word_bytes A)%nat by lia. reflexivity. }
  set (p := m ++ _).
  pose proof (sha_md A mix So s8 widths) as M. pose proof (m_C _ _ _ M) as MC. cbn [sha_algorithm block_bytes count_bytes] in MC.
  assert (Fb : Forall (fun b => length b = block_size A) (split (block_size A) p)).
  { assert (Lp : (len p) mod Z.of_nat (block_size A) = 0) by (unfold p; rewrite len_app; apply (padded_length _ _ _ M)).
    assert (Q : length p = (length p / block_size A * block_size A)%nat).
    { assert (Q2 : (length p mod block_size A = 0)%nat).
      { unfold len in Lp. apply Nat2Z.inj. rewrite Nat2Z.inj_mod. exact Lp. }
      pose proof (Nat.div_mod (length p) (block_size A) ltac:(lia)). lia. }
    destruct (chunks_concat (block_size A) (length p / block_size A) p ltac:(lia)) as [E F].
    rewrite <- Q, skipn_all, app_nil_r in E. rewrite <- E. rewrite split_app; [exact F|lia|exact F]. }
  generalize (H A) as st. induction Fb as [|b bs Lb Fb IH]; intros st; cbn [fold_left]; [reflexivity|].
  rewrite IH, Hf. rewrite (words_eq A mix So 16 b Lb). reflexivity.
Qed.

Lemma MD_160 s8 widths m : MD (sha_algorithm sha160 s8 widths) (fun st block => mix1 st (words_of sha160 block)) m = SHA1 m.
Proof.
  unfold SHA1. rewrite (MD_spec sha160 mix1 sound160 s8 widths SHA1_block SHA1_H 64 8 m).
  - change (word_bits sha160) with 32. reflexivity.
  - intros h block. change (word_bits sha160) with 32. unfold SHA1_block, mix1. reflexivity.
  - reflexivity.
  - reflexivity.
  - reflexivity.
Qed.
Lemma MD_256 s8 widths m : MD (sha_algorithm sha256 s8 widths) (fun st block => mix2 SHA256_params st (words_of sha256 block)) m = SHA256 m.
Proof.
  unfold SHA256. rewrite (MD_spec sha256 _ sound256 s8 widths (SHA2_block SHA256_params) (SHA2_H 32) 64 8 m).
  - change (word_bits sha256) with 32. reflexivity.
  - intros h block. change (word_bits sha256) with (bits SHA256_params). unfold SHA2_block, mix2. reflexivity.
  - exact h256_eq.
  - reflexivity.
  - reflexivity.
Qed.
Lemma MD_512 s8 widths m : MD (sha_algorithm sha512 s8 widths) (fun st block => mix2 SHA512_params st (words_of sha512 block)) m = SHA512 m.
Proof.
  unfold SHA512. rewrite (MD_spec sha512 _ sound512 s8 widths (SHA2_block SHA512_params) (SHA2_H 64) 128 16 m).
  - change (word_bits sha512) with 64. reflexivity.
  - intros h block. change (word_bits sha512) with (bits SHA512_params). unfold SHA2_block, mix2. reflexivity.
  - exact h512_eq.
  - reflexivity.
  - reflexivity.
Qed.
