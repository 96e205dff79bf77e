(** Every algorithm of the library is a hash the derivations can use. *)
From Coq Require Import PeanoNat.
From Verif Require Import Base Bytes ShaModel ShaSpec ShaProofs ShaProofs2 ShaProofs3 ShaProofs4 ShaProofs6 AccModel AccProofs ShaProofs7 ShaProofs8
  ShaProofs9 ShaProofs10 RmdModel RmdSpec RmdProofs RmdProofs2 KdfSpec KdfModel KdfProofs.

Lemma MD_ok A f ok (M : md_sound A f ok) m :
  ok (fold_left f (split (block_bytes A) (m ++ md_padding A (len m))) (init A)).
Proof.
  apply (fold_ok A f ok M); [|apply (m_init _ _ _ M)]. set (p := m ++ _).
  pose proof (m_C _ _ _ M) as HC.
  assert (Lp : (len p) mod B A = 0) by (unfold p; rewrite len_app; apply (padded_length _ _ _ M)).
  assert (Q : length p = (length p / block_bytes A * block_bytes A)%nat).
  { assert (Q2 : (length p mod block_bytes A = 0)%nat).
    { unfold len, B in Lp. apply Nat2Z.inj. rewrite Nat2Z.inj_mod. exact Lp. }
    pose proof (Nat.div_mod (length p) (block_bytes A) ltac:(lia)). lia. }
  destruct (chunks_concat (block_bytes A) (length p / block_bytes A) p ltac:(lia)) as [E F].
  rewrite <- Q, skipn_all, app_nil_r in E. rewrite <- E. rewrite split_app; [exact F|lia|exact F].
Qed.
Lemma flat_length {X} (g : Z -> list X) k l : (forall x, length (g x) = k) -> length (flat_map g l) = (length l * k)%nat.
Proof. intros E. induction l as [|x l IH]; [reflexivity|]. cbn [flat_map length]. rewrite app_length, E, IH. lia. Qed.

Lemma hashed_by A f ok Hf hlen : md_sound A f ok -> (forall m, MD A f m = Hf m) ->
  (forall checked d, len d < 2 ^ 61 - 2 ^ 40 -> hash A checked d = MD A f d) ->
  (forall st, ok st -> length (normalize A st) = hlen) ->
  (hlen <= block_bytes A)%nat /\ (0 < hlen)%nat /\ (block_bytes A <= 128)%nat -> hashed A Hf hlen.
Proof.
  intros M E Hh Hl Hb. constructor.
  - exact Hb.
  - intros m. rewrite <- E. apply Hl. apply (MD_ok A f ok M).
  - intros checked d Hd. rewrite <- E. apply Hh. exact Hd.
  - exists (holds_ A f). split; [apply (holds_construct _ _ _ M)|]. split.
    + intros checked a m d Ha Hs. destruct (write_holds A f ok M checked a m d Ha Hs) as (a' & E' & Ha'). rewrite E'. exact Ha'.
    + intros checked a m Ha Hs. rewrite <- E. apply (flush_holds A f ok M); assumption.
Qed.
Lemma sha_hashed A mix Hf hlen s8 widths : sound A mix ->
  (forall m, MD (sha_algorithm A s8 widths) (fun st b => mix st (words_of A b)) m = Hf m) ->
  (hlen = state_words A * word_bytes A)%nat -> (0 < state_words A <= 8)%nat -> hashed (sha_algorithm A s8 widths) Hf hlen.
Proof.
  intros So E Hh Hn. destruct (w_wb A mix So) as [_ Hb].
  apply (hashed_by _ _ _ _ _ (sha_md A mix So s8 widths) E).
  - intros checked d Hd. apply (hash_ok A mix So). exact Hd.
  - intros st [L _]. cbn [sha_algorithm normalize]. unfold output. rewrite (flat_length _ (word_bytes A)) by (intros; apply be_bytes_length).
    rewrite L, Hh. reflexivity.
  - cbn [sha_algorithm block_bytes]. unfold block_size. rewrite Hh. nia.
Qed.
Lemma hashed_sha1 s8 widths : hashed (sha_algorithm sha160 s8 widths) SHA1 20.
Proof. apply (sha_hashed sha160 mix1 _ _ _ _ sound160); [apply MD_160|reflexivity|]. change (state_words sha160) with 5%nat. lia. Qed.
Lemma hashed_sha256 s8 widths : hashed (sha_algorithm sha256 s8 widths) SHA256 32.
Proof. apply (sha_hashed sha256 _ _ _ _ _ sound256); [apply MD_256|reflexivity|]. change (state_words sha256) with 8%nat. lia. Qed.
Lemma hashed_sha512 s8 widths : hashed (sha_algorithm sha512 s8 widths) SHA512 64.
Proof. apply (sha_hashed sha512 _ _ _ _ _ sound512); [apply MD_512|reflexivity|]. change (state_words sha512) with 8%nat. lia. Qed.
Lemma rmd_hashed A mix n Hf : rsound A mix n -> (forall m, MD (rmd_algorithm A) (fun st b => mix st (r_words b)) m = Hf m) ->
  (0 < n <= 8)%nat -> hashed (rmd_algorithm A) Hf (n * 4).
Proof.
  intros So E Hn. apply (hashed_by _ _ _ _ _ (rmd_md A mix n So) E).
  - intros checked d Hd. apply (r_hash_ok A mix n So). exact Hd.
  - intros st L. cbn [rmd_algorithm normalize]. unfold r_output. rewrite (flat_length _ 4%nat) by (intros; apply le_bytes_length). rewrite L. reflexivity.
  - cbn [rmd_algorithm block_bytes]. lia.
Qed.
Lemma hashed_rmd160 : hashed (rmd_algorithm rmd160) RIPEMD160 20.
Proof. apply (rmd_hashed rmd160 rmix160 5 _ rsound160); [apply rMD_160|lia]. Qed.
Lemma hashed_rmd128 : hashed (rmd_algorithm rmd128) RIPEMD128 16.
Proof. apply (rmd_hashed rmd128 rmix128 4 _ rsound128); [apply rMD_128|lia]. Qed.
