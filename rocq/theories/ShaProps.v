(** C48: the hash accumulator; C64: SHA-1, SHA-256 and SHA-512 are those of
    FIPS 180-4, however the data is supplied and whichever vector width is used. *)
From Coq Require Import PeanoNat.
From Verif Require Import Base Bytes MathModel ShaModel ShaSpec ShaProofs3 ShaProofs4 ShaProofs6 AccModel AccProofs
  ShaProofs7 ShaProofs8 ShaProofs9 ShaProofs10.
From Verif Require BlockModel.

(** The algorithms of the library and the standard's functions. *)
Definition algorithms : list (sha * (list Z -> list Z)) := [(sha160, SHA1); (sha256, SHA256); (sha512, SHA512)].
(** Those with double hashing: the digest is half a block. *)
Definition doubles : list (sha * (list Z -> list Z)) := [(sha256, SHA256); (sha512, SHA512)].
(** Messages below 2^61 - 2^40 bytes (the bit count is held in 64 bits). *)
Definition max_message : Z := 2 ^ 61 - 2 ^ 40.
(** A client: writes in sequence, keeping every returned flag. *)
Fixpoint feed (A : algorithm) (checked : bool) (a : acc) (ds : list (list Z)) : bool * acc :=
  match ds with
  | [] => (true, a)
  | d :: ds' => let (ok, a) := write A checked a d in
                let (ok', a) := feed A checked a ds' in (ok && ok', a)
  end.

Lemma feed_holds A f ok (M : md_sound A f ok) checked ds : forall a m, holds_ A f a m ->
  len m + len (concat ds) < 2 ^ 61 - 8 ->
  exists a', feed A checked a ds = (true, a') /\ holds_ A f a' (m ++ concat ds).
Proof.
  induction ds as [|d ds IH]; intros a m Ha Hs; cbn [feed concat].
  - exists a. rewrite app_nil_r. split; [reflexivity|exact Ha].
  - cbn [concat] in Hs. rewrite len_app in Hs. pose proof (len_nonneg (concat ds)).
    destruct (write_holds A f ok M checked a m d Ha ltac:(lia)) as (a1 & E1 & H1). rewrite E1.
    destruct (IH a1 (m ++ d) H1) as (a2 & E2 & H2); [rewrite len_app; lia|]. rewrite E2.
    exists a2. split; [reflexivity|]. rewrite app_assoc. exact H2.
Qed.
Lemma max_lt n : n < max_message -> n < 2 ^ 61 - 8.
Proof. unfold max_message. change (2 ^ 61) with 2305843009213693952. change (2 ^ 40) with 1099511627776. lia. Qed.

(** What the algorithms share, in one place. *)
Lemma by_algorithm (P : sha -> (list Z -> list Z) -> Prop) A Hf : In (A, Hf) algorithms ->
  (forall A mix Hf, sound A mix -> (forall s8 widths m, MD (sha_algorithm A s8 widths) (fun st b => mix st (words_of A b)) m = Hf m) ->
    P A Hf) -> P A Hf.
Proof.
  intros HI HP. destruct HI as [E|[E|[E|[]]]]; injection E as <- <-.
  - apply (HP _ mix1 _ sound160). apply MD_160.
  - apply (HP _ (mix2 SHA256_params) _ sound256). apply MD_256.
  - apply (HP _ (mix2 SHA512_params) _ sound512). apply MD_512.
Qed.
Lemma by_double (P : sha -> (list Z -> list Z) -> Prop) A Hf : In (A, Hf) doubles ->
  (forall A mix Hf, sound A mix -> state_words A = 8%nat ->
    (forall s8 widths m, MD (sha_algorithm A s8 widths) (fun st b => mix st (words_of A b)) m = Hf m) ->
    P A Hf) -> P A Hf.
Proof.
  intros HI HP. destruct HI as [E|[E|[]]]; injection E as <- <-.
  - apply (HP _ (mix2 SHA256_params) _ sound256); [reflexivity|]. apply MD_256.
  - apply (HP _ (mix2 SHA512_params) _ sound512); [reflexivity|]. apply MD_512.
Qed.

(** Any sequence of writes is accepted, and flushing gives the hash of the
    concatenation; so does the double flush for the double hash. *)
Theorem C48_chunking A Hf : In (A, Hf) algorithms -> forall s8 widths checked ds, len (concat ds) < max_message ->
  let AL := sha_algorithm A s8 widths in
  let (ok, a) := feed AL checked (construct AL) ds in ok = true /\ fst (flush AL checked a) = Hf (concat ds).
Proof.
  intros HI. apply (by_algorithm (fun A Hf => forall s8 widths checked ds, len (concat ds) < max_message ->
    let AL := sha_algorithm A s8 widths in
    let (ok, a) := feed AL checked (construct AL) ds in ok = true /\ fst (flush AL checked a) = Hf (concat ds)) A Hf HI).
  clear. intros A mix Hf So Sp s8 widths checked ds Hs. cbv zeta.
  pose proof (sha_md A mix So s8 widths) as M.
  destruct (feed_holds _ _ _ M checked ds _ [] (holds_construct _ _ _ M)) as (a & E & Ha).
  { change (len (@nil Z)) with 0. apply max_lt. exact Hs. }
  rewrite E. split; [reflexivity|]. cbn [app] in Ha. rewrite <- (Sp s8 widths). apply (flush_holds _ _ _ M); assumption.
Qed.
Print Assumptions C48_chunking.

Theorem C48_double_chunking A Hf : In (A, Hf) doubles -> forall s8 widths checked ds, len (concat ds) < max_message ->
  let AL := sha_algorithm A s8 widths in
  let (ok, a) := feed AL checked (construct AL) ds in
  ok = true /\ fst (double_flush AL checked (sha_double A s8 widths) a) = Hf (Hf (concat ds)).
Proof.
  intros HI. apply (by_double (fun A Hf => forall s8 widths checked ds, len (concat ds) < max_message ->
    let AL := sha_algorithm A s8 widths in
    let (ok, a) := feed AL checked (construct AL) ds in
    ok = true /\ fst (double_flush AL checked (sha_double A s8 widths) a) = Hf (Hf (concat ds))) A Hf HI).
  clear. intros A mix Hf So N8 Sp s8 widths checked ds Hs. cbv zeta.
  pose proof (sha_md A mix So s8 widths) as M.
  destruct (feed_holds _ _ _ M checked ds _ [] (holds_construct _ _ _ M)) as (a & E & Ha).
  { change (len (@nil Z)) with 0. apply max_lt. exact Hs. }
  rewrite E. split; [reflexivity|]. cbn [app] in Ha. rewrite <- !(Sp s8 widths).
  apply (double_flush_holds A mix So s8 widths N8); assumption.
Qed.
Print Assumptions C48_double_chunking.

(** Flushing does not reset: on a whole number of blocks the accumulator is
    unchanged, otherwise its padding has become part of the message. *)
Theorem C48_after_flush A Hf : In (A, Hf) algorithms -> forall s8 widths checked ds ds',
  len (concat ds) + len (concat ds') < max_message - 1024 ->
  let AL := sha_algorithm A s8 widths in let m := concat ds in let B := Z.of_nat (block_size A) in
  let a := snd (flush AL checked (snd (feed AL checked (construct AL) ds))) in
  let (ok, a') := feed AL checked a ds' in
  ok = true /\ fst (flush AL checked a') =
    Hf ((if len m mod B =? 0 then m else m ++ padding B (2 * Z.of_nat (word_bytes A)) (len m)) ++ concat ds').
Proof.
  intros HI. apply (by_algorithm (fun A Hf => forall s8 widths checked ds ds',
    len (concat ds) + len (concat ds') < max_message - 1024 ->
    let AL := sha_algorithm A s8 widths in let m := concat ds in let B := Z.of_nat (block_size A) in
    let a := snd (flush AL checked (snd (feed AL checked (construct AL) ds))) in
    let (ok, a') := feed AL checked a ds' in
    ok = true /\ fst (flush AL checked a') =
      Hf ((if len m mod B =? 0 then m else m ++ padding B (2 * Z.of_nat (word_bytes A)) (len m)) ++ concat ds')) A Hf HI).
  clear. intros A mix Hf So Sp s8 widths checked ds ds' Hs. cbv zeta.
  pose proof (len_nonneg (concat ds)) as N1. pose proof (len_nonneg (concat ds')) as N2.
  pose proof (sha_md A mix So s8 widths) as M. set (AL := sha_algorithm A s8 widths) in *.
  destruct (feed_holds _ _ _ M checked ds _ [] (holds_construct _ _ _ M)) as (a & E & Ha).
  { change (len (@nil Z)) with 0. apply max_lt. lia. }
  rewrite E. cbn [app snd] in *. set (m := concat ds) in *.
  set (m2 := if len m mod _ =? 0 then m else _).
  assert (H2 : holds_ AL (fun st b => mix st (words_of A b)) (snd (flush AL checked a)) m2 /\ len m2 <= len m + 512).
  { unfold flush, is_empty, is_full, next, m2.
    assert (Es : size_ a = len m) by (destruct Ha as (? & ? & ? & ? & ? & Es & _); exact Es). rewrite Es.
    change (B AL) with (Z.of_nat (block_size A)).
    destruct (len m mod Z.of_nat (block_size A) =? 0); cbn [snd]; [split; [exact Ha|lia]|].
    assert (Ep : padding (Z.of_nat (block_size A)) (2 * Z.of_nat (word_bytes A)) (len m) = md_padding AL (len m)).
    { unfold AL, md_padding, padding, AccModel.B, C. cbn [sha_algorithm big_end_count count_bytes block_bytes].
      replace (Z.of_nat (2 * word_bytes A)) with (2 * Z.of_nat (word_bytes A)) by lia.
      replace (Z.to_nat (2 * Z.of_nat (word_bytes A))) with (2 * word_bytes A)%nat by lia. reflexivity. }
    rewrite Ep. split.
    - apply (pad_holds _ _ _ M); [exact Ha|]. unfold max_message in Hs. lia.
    - rewrite len_app. unfold len at 2. rewrite md_padding_length. unfold AL, AccModel.B, C. cbn [sha_algorithm count_bytes block_bytes].
      destruct (w_wb A mix So) as [_ Hb]. unfold block_size.
      pose proof (Z.mod_pos_bound (Z.of_nat (16 * word_bytes A) - Z.of_nat (2 * word_bytes A) - 1 - len m) (Z.of_nat (16 * word_bytes A)) ltac:(lia)). lia. }
  destruct H2 as [H2 L2].
  destruct (feed_holds _ _ _ M checked ds' _ m2 H2) as (a' & E' & Ha').
  { apply max_lt. lia. }
  rewrite E'. split; [reflexivity|]. rewrite <- (Sp s8 widths). apply (flush_holds _ _ _ M); [exact Ha'|].
  rewrite len_app. unfold max_message in Hs. lia.
Qed.
Print Assumptions C48_after_flush.

(** Reset after any use behaves as a new accumulator. *)
Theorem C48_reset A Hf : In (A, Hf) algorithms -> forall s8 widths checked ds ds',
  len (concat ds) < max_message -> len (concat ds') < max_message ->
  let AL := sha_algorithm A s8 widths in
  let used := snd (flush AL checked (snd (feed AL checked (construct AL) ds))) in
  let (ok, a) := feed AL checked (reset AL used) ds' in ok = true /\ fst (flush AL checked a) = Hf (concat ds').
Proof.
  intros HI. apply (by_algorithm (fun A Hf => forall s8 widths checked ds ds',
    len (concat ds) < max_message -> len (concat ds') < max_message ->
    let AL := sha_algorithm A s8 widths in
    let used := snd (flush AL checked (snd (feed AL checked (construct AL) ds))) in
    let (ok, a) := feed AL checked (reset AL used) ds' in ok = true /\ fst (flush AL checked a) = Hf (concat ds')) A Hf HI).
  clear. intros A mix Hf So Sp s8 widths checked ds ds' Hs Hs'. cbv zeta.
  pose proof (sha_md A mix So s8 widths) as M. set (AL := sha_algorithm A s8 widths) in *.
  destruct (feed_holds _ _ _ M checked ds _ [] (holds_construct _ _ _ M)) as (a & E & Ha).
  { change (len (@nil Z)) with 0. apply max_lt. exact Hs. }
  rewrite E. cbn [app snd] in *.
  assert (Lb : length (buffer_ (snd (flush AL checked a))) = block_bytes AL).
  { unfold flush. destruct (is_empty AL a); cbn [snd]; [destruct Ha as (? & ? & ? & ? & ? & ? & ? & L & _); exact L|].
    destruct (pad_holds _ _ _ M checked a _ Ha Hs) as (? & ? & ? & ? & ? & ? & ? & L & _). exact L. }
  assert (Hr : holds_ AL (fun st b => mix st (words_of A b)) (reset AL (snd (flush AL checked a))) []).
  { exists [], []. unfold reset, reset_to. cbn [size_ state_ buffer_]. repeat split; try constructor; try exact Lb.
    cbn [length]. pose proof (m_C _ _ _ M). lia. }
  destruct (feed_holds _ _ _ M checked ds' _ [] Hr) as (a' & E' & Ha').
  { change (len (@nil Z)) with 0. apply max_lt. exact Hs'. }
  rewrite E'. split; [reflexivity|]. cbn [app] in Ha'. rewrite <- (Sp s8 widths). apply (flush_holds _ _ _ M); assumption.
Qed.
Print Assumptions C48_reset.

(** The midstate constructor continues from the state after [n] blocks. *)
Theorem C48_midstate A Hf : In (A, Hf) algorithms -> forall s8 widths checked n ds ds',
  len (concat ds) = n * Z.of_nat (block_size A) -> len (concat ds) + len (concat ds') < 2 ^ 59 ->
  let AL := sha_algorithm A s8 widths in
  let mid := state_ (snd (feed AL checked (construct AL) ds)) in
  let (ok, a) := feed AL checked (construct_at AL checked mid n) ds' in
  ok = true /\ fst (flush AL checked a) = Hf (concat ds ++ concat ds').
Proof.
  intros HI. apply (by_algorithm (fun A Hf => forall s8 widths checked n ds ds',
    len (concat ds) = n * Z.of_nat (block_size A) -> len (concat ds) + len (concat ds') < 2 ^ 59 ->
    let AL := sha_algorithm A s8 widths in
    let mid := state_ (snd (feed AL checked (construct AL) ds)) in
    let (ok, a) := feed AL checked (construct_at AL checked mid n) ds' in
    ok = true /\ fst (flush AL checked a) = Hf (concat ds ++ concat ds')) A Hf HI).
  clear. intros A mix Hf So Sp s8 widths checked n ds ds' En Hs. cbv zeta.
  pose proof (len_nonneg (concat ds)) as N1. pose proof (len_nonneg (concat ds')) as N2.
  assert (Hmax : len (concat ds) + len (concat ds') < max_message).
  { unfold max_message. change (2 ^ 59) with 576460752303423488 in Hs. change (2 ^ 61) with 2305843009213693952.
    change (2 ^ 40) with 1099511627776. lia. }
  pose proof (sha_md A mix So s8 widths) as M. set (AL := sha_algorithm A s8 widths) in *.
  destruct (feed_holds _ _ _ M checked ds _ [] (holds_construct _ _ _ M)) as (a & E & Ha).
  { change (len (@nil Z)) with 0. apply max_lt. lia. }
  rewrite E. cbn [app snd] in *.
  assert (B0 : 0 < Z.of_nat (block_size A)) by (apply (B_pos _ _ _ M)).
  assert (Hm : len (concat ds) mod B AL = 0) by (rewrite En; apply Z.mod_mul; change (B AL) with (Z.of_nat (block_size A)); lia).
  destruct (holds_full _ _ _ M a _ Ha Hm) as (S1 & S2 & S3 & S4).
  assert (Hc : construct_at AL checked (state_ a) n = mkacc (len (concat ds)) (state_ a) (repeat 0 (block_bytes AL))).
  { unfold construct_at. change (B AL) with (Z.of_nat (block_size A)). rewrite <- En.
    change (2 ^ 59) with 576460752303423488 in Hs. change (2 ^ 64) with 18446744073709551616.
    rewrite Z.mod_small by lia. destruct checked; [|reflexivity]. cbn [andb].
    assert (O : is_buffer_overflow AL true (mkacc (len (concat ds)) (state_ a) (repeat 0 (block_bytes AL))) (len (concat ds)) = false).
    { apply (no_overflow _ _ _ M); cbn [size_]; [lia|]. change (2 ^ 61) with 2305843009213693952. lia. }
    rewrite O. cbn [orb]. destruct (Z.leb_spec 18446744073709551616 (len (concat ds))); [lia|reflexivity]. }
  rewrite Hc.
  assert (Hh : holds_ AL (fun st b => mix st (words_of A b)) (mkacc (len (concat ds)) (state_ a) (repeat 0 (block_bytes AL))) (concat ds)).
  { exists (split (block_bytes AL) (concat ds)), []. rewrite app_nil_r, S4. cbn [size_ state_ buffer_ length].
    repeat split; try exact S3; try exact S1; [pose proof (m_C _ _ _ M); lia|apply repeat_length]. }
  destruct (feed_holds _ _ _ M checked ds' _ _ Hh) as (a' & E' & Ha').
  { apply max_lt. exact Hmax. }
  rewrite E'. split; [reflexivity|]. rewrite <- (Sp s8 widths). apply (flush_holds _ _ _ M); [exact Ha'|].
  rewrite len_app. exact Hmax.
Qed.
Print Assumptions C48_midstate.

(** The one-shot functions: container, fixed size array, and double hashes. *)
Theorem C64_hash A Hf : In (A, Hf) algorithms -> forall s8 widths checked d, len d < max_message ->
  let AL := sha_algorithm A s8 widths in
  hash AL checked d = Hf d /\ (8 * len d < 2 ^ word_bits A -> hash_array AL checked d = Hf d).
Proof.
  intros HI. apply (by_algorithm (fun A Hf => forall s8 widths checked d, len d < max_message ->
    let AL := sha_algorithm A s8 widths in
    hash AL checked d = Hf d /\ (8 * len d < 2 ^ word_bits A -> hash_array AL checked d = Hf d)) A Hf HI).
  clear. intros A mix Hf So Sp s8 widths checked d Hd. cbv zeta. rewrite <- (Sp s8 widths). split.
  - apply (hash_ok A mix So). exact Hd.
  - intros Hw. apply (hash_array_ok A mix So); assumption.
Qed.
Print Assumptions C64_hash.
Theorem C64_double_hash A Hf : In (A, Hf) doubles -> forall s8 widths checked d, len d < max_message ->
  let AL := sha_algorithm A s8 widths in let DL := sha_double A s8 widths in
  double_hash AL checked DL d = Hf (Hf d) /\ double_hash_array AL checked DL d = Hf (Hf d).
Proof.
  intros HI. apply (by_double (fun A Hf => forall s8 widths checked d, len d < max_message ->
    let AL := sha_algorithm A s8 widths in let DL := sha_double A s8 widths in
    double_hash AL checked DL d = Hf (Hf d) /\ double_hash_array AL checked DL d = Hf (Hf d)) A Hf HI).
  clear. intros A mix Hf So N8 Sp s8 widths checked d Hd. cbv zeta. rewrite <- !(Sp s8 widths). split.
  - apply (double_hash_ok A mix So s8 widths N8). exact Hd.
  - apply (double_hash_array_ok A mix So s8 widths N8). exact Hd.
Qed.
Print Assumptions C64_double_hash.
(** The two part and short forms of the algorithm classes. *)
Theorem C64_parts A Hf : In (A, Hf) algorithms -> forall s8 l r,
  (length l = half_size A -> length r = half_size A -> hash_halves A s8 l r = Hf (l ++ r)) /\
  (length l = (4 * word_bytes A)%nat -> length r = (4 * word_bytes A)%nat -> hash_quarters A s8 l r = Hf (l ++ r)) /\
  ((length l + 2 * word_bytes A < block_size A)%nat -> simple_hash A s8 l = Hf l).
Proof.
  intros HI. apply (by_algorithm (fun A Hf => forall s8 l r,
    (length l = half_size A -> length r = half_size A -> hash_halves A s8 l r = Hf (l ++ r)) /\
    (length l = (4 * word_bytes A)%nat -> length r = (4 * word_bytes A)%nat -> hash_quarters A s8 l r = Hf (l ++ r)) /\
    ((length l + 2 * word_bytes A < block_size A)%nat -> simple_hash A s8 l = Hf l)) A Hf HI).
  clear. intros A mix Hf So Sp s8 l r. rewrite <- !(Sp s8 []). repeat split; intros.
  - apply (hash_halves_ok A mix So); assumption.
  - apply (hash_quarters_ok A mix So); assumption.
  - apply (simple_hash_ok A mix So); assumption.
Qed.
Print Assumptions C64_parts.
(** Merkle hashing, vectorised and in place, is the tree of double SHA-256. *)
Definition SHA256d (m : list Z) : list Z := SHA256 (SHA256 m).

Lemma merkle_hash_ext D D' l : (forall m, D m = D' m) -> BlockModel.merkle_hash D l = BlockModel.merkle_hash D' l.
Proof.
  intros E. remember (length l) as k eqn:Ek. assert (L : (length l <= k)%nat) by lia. clear Ek. revert l L.
  induction k as [|k IH]; intros l L; [destruct l; [reflexivity|cbn [length] in L; lia]|].
  destruct l as [|a [|b l]]; try reflexivity. cbn [BlockModel.merkle_hash length] in *. rewrite E, IH by lia. reflexivity.
Qed.
Lemma merkle_root_ext D D' l : (forall m, D m = D' m) -> BlockModel.merkle_root D l = BlockModel.merkle_root D' l.
Proof.
  intros E. unfold BlockModel.merkle_root. destruct (len l =? 0); [reflexivity|]. generalize (length l) as fuel.
  intros fuel. revert l. induction fuel as [|fuel IH]; intros l; cbn [BlockModel.root_loop]; [reflexivity|].
  destruct (len l =? 1); [reflexivity|]. rewrite IH. rewrite (merkle_hash_ext D D' _ E). reflexivity.
Qed.
Theorem C64_merkle s8 widths l : Forall (fun k => (0 < k)%nat) widths -> Forall (fun d => length d = 32%nat) l ->
  merkle_hash sha256 s8 widths l = BlockModel.merkle_hash SHA256d l /\
  merkle_root sha256 s8 widths l = BlockModel.merkle_root SHA256d l.
Proof.
  intros Fw Fl.
  assert (E : forall m, DD sha256 (mix2 SHA256_params) s8 widths m = SHA256d m).
  { intros m. unfold DD, SHA256d. rewrite !MD_256. reflexivity. }
  split.
  - rewrite <- (merkle_hash_ext _ _ l E).
    apply (merkle_hash_ok sha256 _ sound256 s8 widths); [reflexivity|exact Fl|exact Fw].
  - rewrite <- (merkle_root_ext _ _ l E).
    apply (merkle_root_ok sha256 _ sound256 s8 widths); [reflexivity|exact Fl|exact Fw|reflexivity].
Qed.
Print Assumptions C64_merkle.

(** A checked accumulator is limited to 2^61 - 9 bytes; whole blocks written to
    an empty buffer are accepted beyond it. *)
Theorem C48_limit_refuted : exists a d, let AL := sha_algorithm sha256 false [] in
  a = reset_to AL (construct AL) (H sha256) (2 ^ 55 - 1) /\ len d = 64 /\
  limit_bytes AL < size_ a + len d /\ fst (write AL true a d) = true.
Proof.
  exists (reset_to (sha_algorithm sha256 false []) (construct (sha_algorithm sha256 false [])) (H sha256) (2 ^ 55 - 1)), (repeat 0 64).
  cbv zeta. split; [reflexivity|]. split; [reflexivity|]. split; [reflexivity|].
  unfold write, accumulate. reflexivity.
Qed.
Print Assumptions C48_limit_refuted.

(** The hypotheses are satisfiable. *)
Example C48_sat : In (sha256, SHA256) algorithms /\ In (sha512, SHA512) doubles /\
  len (concat [[1; 2; 3]; repeat 7 100; [4]]) < max_message - 1024 /\
  Forall (fun k => (0 < k)%nat) [16; 8; 4]%nat /\ Forall (fun d => length d = 32%nat) (repeat (repeat 1 32) 40) /\
  (8 * len (repeat 5 128) < 2 ^ word_bits sha160).
Proof.
  split; [right; left; reflexivity|]. split; [right; left; reflexivity|]. split; [reflexivity|].
  split; [repeat constructor|]. split; [|reflexivity].
  apply Forall_forall. intros x Hx. apply repeat_spec in Hx. subst x. reflexivity.
Qed.
(** The standard's test vectors for "abc". *)
Lemma by_model A Hf (HI : In (A, Hf) algorithms) d : len d < max_message ->
  Hf d = hash (sha_algorithm A false []) false d.
Proof. intros Hd. destruct (C64_hash A Hf HI false [] false d Hd) as [E _]. symmetry. exact E. Qed.
Example C64_abc :
  SHA1 [97; 98; 99] = be_bytes 20 0xa9993e364706816aba3e25717850c26c9cd0d89d /\
  SHA256 [97; 98; 99] = be_bytes 32 0xba7816bf8f01cfea414140de5dae2223b00361a396177a9cb410ff61f20015ad.
Proof.
  split.
  - rewrite (by_model sha160 SHA1 (or_introl eq_refl) [97; 98; 99] eq_refl). vm_compute. reflexivity.
  - rewrite (by_model sha256 SHA256 (or_intror (or_introl eq_refl)) [97; 98; 99] eq_refl). vm_compute. reflexivity.
Qed.
