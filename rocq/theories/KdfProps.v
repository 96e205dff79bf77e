(** C66: HMAC, PBKDF2 and HKDF; C67: the named hash functions. *)
From Coq Require Import PeanoNat.
From Verif Require Import Base Bytes ShaModel ShaSpec AccModel AccProofs ShaProofs6 ShaProofs7 ShaProofs8 ShaProofs10 RmdModel RmdSpec RmdProofs2
  KdfSpec KdfModel KdfProofs KdfProofs2 ShaProps RmdProps.

(** The library's algorithms: hash function, block bytes, digest bytes. *)
Inductive library_hash : algorithm -> (list Z -> list Z) -> nat -> nat -> Prop :=
| lib_sha1 s8 widths : library_hash (sha_algorithm sha160 s8 widths) SHA1 64 20
| lib_sha256 s8 widths : library_hash (sha_algorithm sha256 s8 widths) SHA256 64 32
| lib_sha512 s8 widths : library_hash (sha_algorithm sha512 s8 widths) SHA512 128 64
| lib_rmd160 : library_hash (rmd_algorithm rmd160) RIPEMD160 64 20
| lib_rmd128 : library_hash (rmd_algorithm rmd128) RIPEMD128 64 16.
Lemma lib_hashed A Hf b hlen : library_hash A Hf b hlen -> hashed A Hf hlen /\ block_bytes A = b.
Proof.
  destruct 1.
  - split; [apply hashed_sha1|reflexivity].
  - split; [apply hashed_sha256|reflexivity].
  - split; [apply hashed_sha512|reflexivity].
  - split; [apply hashed_rmd160|reflexivity].
  - split; [apply hashed_rmd128|reflexivity].
Qed.
Definition max_data : Z := 2 ^ 61 - 2 ^ 41.
Lemma max_data_lt n : n < max_data -> n + 200 < 2 ^ 61 - 2 ^ 40 - 1024.
Proof. unfold max_data. change (2 ^ 61) with 2305843009213693952. change (2 ^ 40) with 1099511627776. change (2 ^ 41) with 2199023255552. lia. Qed.

(** HMAC through any sequence of writes, and in one call. *)
Theorem C66_hmac A Hf b hlen : library_hash A Hf b hlen -> forall checked key ds,
  len key < max_data -> len (concat ds) < max_data ->
  hmac_flush A checked (fold_left (hmac_write A checked) ds (hmac_make A checked key)) = HMAC Hf b key (concat ds) /\
  hmac_code A checked (concat ds) key = HMAC Hf b key (concat ds).
Proof.
  intros HL checked key ds Hk Hd. destruct (lib_hashed _ _ _ _ HL) as [Ha <-].
  apply max_data_lt in Hk. apply max_data_lt in Hd. split; [|apply (hmac_code_ok A Hf hlen Ha); lia].
  destruct (hmac_spec A Hf hlen Ha checked) as (holds & H0 & HW & HF).
  apply HF; [|lia].
  assert (G : forall ds h m, holds h key m -> len m + len (concat ds) < 2 ^ 61 - 2 ^ 40 - 1024 ->
    holds (fold_left (hmac_write A checked) ds h) key (m ++ concat ds)).
  { clear ds Hd. induction ds as [|d ds IH]; intros h m Hm Hl; cbn [fold_left concat] in *; [rewrite app_nil_r; exact Hm|].
    rewrite len_app in Hl. pose proof (len_nonneg (concat ds)). rewrite app_assoc. apply IH.
    - apply HW; [exact Hm|lia].
    - rewrite len_app. lia. }
  apply (G ds _ []); [apply H0; lia|]. change (len (@nil Z)) with 0. lia.
Qed.
Print Assumptions C66_hmac.

Theorem C66_pbkdf2 A Hf b hlen : library_hash A Hf b hlen -> forall checked size password salt count,
  len password < max_data -> len salt < max_data -> (1 <= count)%nat ->
  pbkd_key A checked hlen size password salt count = PBKDF2 Hf b hlen password salt count size.
Proof.
  intros HL checked size password salt count Hp Hs Hc. destruct (lib_hashed _ _ _ _ HL) as [Ha <-].
  apply max_data_lt in Hp. apply max_data_lt in Hs. apply (pbkd_ok A Hf hlen Ha); lia.
Qed.
Print Assumptions C66_pbkdf2.

(** HKDF terminates with the specified output up to 254 blocks. *)
Theorem C66_hkdf A Hf b hlen : library_hash A Hf b hlen -> forall checked size material salt info,
  len material < max_data -> len salt < max_data -> len info < max_data -> (size <= 254 * hlen)%nat ->
  exists fuel, forall more, hkdf_key A checked hlen (fuel + more) size material salt info = Some (HKDF Hf b hlen salt material info size).
Proof.
  intros HL checked size material salt info Hm Hs Hi Hz. destruct (lib_hashed _ _ _ _ HL) as [Ha <-].
  apply max_data_lt in Hm. apply max_data_lt in Hs. apply max_data_lt in Hi. exists 256%nat. intros more.
  unfold hkdf_key, hkdf_extract. rewrite (hmac_code_ok A Hf hlen Ha) by lia.
  rewrite (hkdf_ok A Hf hlen Ha); [reflexivity|exact Hz|lia| |lia].
  pose proof (small_digest A Hf hlen Ha (HMAC Hf (block_bytes A) salt material)) as Q. apply Q. apply (h_length _ _ _ Ha).
Qed.
Print Assumptions C66_hkdf.
(** The maximum size the template admits, 255 * hlen, is not derived: the loop
    never ends (its counter is a byte), having filled the output. *)
Theorem C66_hkdf_maximum_refuted A Hf b hlen : library_hash A Hf b hlen -> forall checked size material salt info,
  (254 * hlen < size <= 255 * hlen)%nat -> forall fuel, hkdf_key A checked hlen fuel size material salt info = None.
Proof.
  intros HL checked size material salt info Hz fuel. unfold hkdf_key, hkdf_expand. cbv zeta.
  assert (E : ceilinged size hlen = 255%nat).
  { destruct (lib_hashed _ _ _ _ HL) as [Ha _]. destruct (h_block _ _ _ Ha) as (_ & H0 & _). rewrite ceil_eq by exact H0.
    unfold ceil_div. symmetry. apply (Nat.div_unique _ _ 255 (size + hlen - 1 - hlen * 255)); lia. }
  rewrite E. apply hkdf_never. lia.
Qed.
Print Assumptions C66_hkdf_maximum_refuted.

(** The named functions. *)
Lemma two_writes s8 widths checked l r : len l + len r < max_message ->
  let AL := sha_algorithm sha256 s8 widths in
  exists a, a = snd (write AL checked (snd (write AL checked (construct AL) l)) r) /\
    fst (flush AL checked a) = SHA256 (l ++ r) /\
    fst (double_flush AL checked (sha_double sha256 s8 widths) a) = SHA256 (SHA256 (l ++ r)).
Proof.
  intros Hs AL. eexists. split; [reflexivity|].
  assert (Hc : len (concat [l; r]) < max_message) by (cbn [concat]; rewrite app_nil_r, len_app; exact Hs).
  pose proof (C48_chunking sha256 SHA256 (or_intror (or_introl eq_refl)) s8 widths checked [l; r] Hc) as Q.
  pose proof (C48_double_chunking sha256 SHA256 (or_introl eq_refl) s8 widths checked [l; r] Hc) as Q2.
  cbv zeta in Q, Q2. cbn [feed concat] in Q, Q2. rewrite app_nil_r in Q, Q2. fold AL in Q, Q2.
  destruct (write AL checked (construct AL) l) as [o1 a1]. cbn [snd].
  destruct (write AL checked a1 r) as [o2 a2]. cbn [snd]. split; [apply Q|apply Q2].
Qed.

Theorem C67_functions checked s8 widths l r : len l + len r < max_message - 64 ->
  sha256_hash2 checked s8 widths l r = SHA256 (l ++ r) /\
  bitcoin_hash2 checked s8 widths l r = SHA256 (SHA256 (l ++ r)) /\
  bitcoin_hash checked s8 widths l = SHA256 (SHA256 l) /\
  bitcoin_short_hash checked s8 widths l = RIPEMD160 (SHA256 l) /\
  bitcoin_short_chunk checked s8 widths l = RIPEMD160 (SHA256 l) /\
  tagged_hash checked s8 widths l r = tagged l r /\
  (length l = 32%nat -> length r = 32%nat -> bitcoin_hash_pair s8 l r = SHA256 (SHA256 (l ++ r))).
Proof.
  intros Hs. pose proof (len_nonneg l) as NL. pose proof (len_nonneg r) as NR.
  destruct (two_writes s8 widths checked l r ltac:(lia)) as (a & Ea & F1 & F2).
  pose proof (C64_hash sha256 SHA256 (or_intror (or_introl eq_refl)) s8 widths checked l ltac:(lia)) as [H1 _].
  pose proof (hashed_sha256 s8 widths) as HA.
  assert (L32 : length (SHA256 l) = 32%nat) by apply (h_length _ _ _ HA).
  repeat split.
  - unfold sha256_hash2. rewrite <- Ea. exact F1.
  - unfold bitcoin_hash2. rewrite <- Ea. exact F2.
  - apply (C64_double_hash sha256 SHA256 (or_introl eq_refl) s8 widths checked l ltac:(lia)).
  - unfold bitcoin_short_hash. rewrite H1. rewrite (r_half_ok rmd160 RmdProofs.rmix160 5 rsound160) by exact L32. apply rMD_160.
  - unfold bitcoin_short_chunk. rewrite H1. apply (C65_hash rmd160 RIPEMD160 (or_introl eq_refl)).
    unfold len. rewrite L32. vm_compute. reflexivity.
  - unfold tagged_hash, tagged. rewrite H1.
    assert (Hc : len (concat [SHA256 l; SHA256 l; r]) < max_message).
    { cbn [concat]. rewrite app_nil_r, !len_app. unfold len at 1 2. rewrite L32. lia. }
    pose proof (C48_chunking sha256 SHA256 (or_intror (or_introl eq_refl)) s8 widths checked _ Hc) as Q.
    cbv zeta in Q. cbn [feed concat] in Q. rewrite app_nil_r in Q.
    destruct (write _ checked (construct _) (SHA256 l)) as [o1 a1]. cbn [snd].
    destruct (write _ checked a1 (SHA256 l)) as [o2 a2]. cbn [snd].
    destruct (write _ checked a2 r) as [o3 a3]. cbn [snd]. apply Q.
  - intros L1 L2. unfold bitcoin_hash_pair. rewrite (double_halves_ok sha256 _ sound256 s8 widths eq_refl l r L1 L2). rewrite !MD_256. reflexivity.
Qed.
Print Assumptions C67_functions.

(** Hash table keys: djb2 is the published recurrence on 64 bits; combining is
    injective in either operand (up to the top bit of the right). *)
Theorem C67_djb2 data b : djb2_hash [] = 5381 /\ djb2_hash (data ++ [b]) = (33 * djb2_hash data + b) mod 2 ^ 64.
Proof.
  split; [reflexivity|]. unfold djb2_hash. rewrite fold_left_app. cbn [fold_left].
  generalize (fold_left (fun h b => ((h * 2 ^ 5) mod 2 ^ 64 + h + b) mod 2 ^ 64) data 5381). intros h.
  rewrite <- Z.add_assoc, Zplus_mod_idemp_l. f_equal. change (2 ^ 5) with 32. lia.
Qed.
Print Assumptions C67_djb2.

(** RFC 2202 / RFC 5869 style non-trivial cases: the hypotheses hold, and a long
    key is hashed first. *)
Example C66_sat : library_hash (sha_algorithm sha512 true [8; 4]%nat) SHA512 128 64 /\ len (repeat 7 300) < max_data /\
  (254 * 64 < 255 * 64 <= 255 * 64)%nat /\ hmac_key SHA512 128 (repeat 7 300) = SHA512 (repeat 7 300) ++ repeat 0 64.
Proof.
  split; [constructor|]. split; [reflexivity|]. split; [lia|]. unfold hmac_key. change (Nat.leb (length (repeat 7 300)) 128) with false.
  cbv iota zeta. rewrite (h_length _ _ _ (hashed_sha512 false [])). reflexivity.
Qed.
(** RFC 4231 test case 2 (key "Jefe"). *)
Example C66_rfc4231 : HMAC SHA256 64 [0x4a; 0x65; 0x66; 0x65]
  [0x77; 0x68; 0x61; 0x74; 0x20; 0x64; 0x6f; 0x20; 0x79; 0x61; 0x20; 0x77; 0x61; 0x6e; 0x74; 0x20; 0x66; 0x6f; 0x72; 0x20;
   0x6e; 0x6f; 0x74; 0x68; 0x69; 0x6e; 0x67; 0x3f] =
  be_bytes 32 0x5bdcc146bf60754e6a042426089575c75a003f089d2739839dec58b964ec3843.
Proof.
  destruct (C66_hmac _ _ _ _ (lib_sha256 false []) false [0x4a; 0x65; 0x66; 0x65]
    [[0x77; 0x68; 0x61; 0x74; 0x20; 0x64; 0x6f; 0x20; 0x79; 0x61; 0x20; 0x77; 0x61; 0x6e; 0x74; 0x20; 0x66; 0x6f; 0x72; 0x20;
      0x6e; 0x6f; 0x74; 0x68; 0x69; 0x6e; 0x67; 0x3f]] eq_refl eq_refl) as [_ E].
  cbn [concat app] in E. rewrite <- E. vm_compute. reflexivity.
Qed.
