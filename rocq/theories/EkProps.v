(** * C83: encrypted keys (BIP38). *)
From Verif Require Import Base Bytes RadixModel AddressModel AddressProofs3 AddressProps EcModel HdModel HdProofs OrderPrime WifModel WifProps AesModel AesProps RingSpec EkModel.

(** ** Pieces *)
Lemma slice_mid (a b t : list Z) n m : length a = n -> (n + length b = m)%nat -> slice n m (a ++ b ++ t) = b.
Proof.
  intros <- <-. unfold slice. rewrite skipn_app, Nat.sub_diag, skipn_all. cbn [skipn app]. replace (length a + length b - length a)%nat with (length b) by lia. rewrite firstn_app, Nat.sub_diag, firstn_all. cbn [firstn]. apply app_nil_r.
Qed.
Lemma nth_mid (a t : list Z) x n : length a = n -> nth n (a ++ x :: t) 0 = x.
Proof. intros <-. rewrite app_nth2 by lia. rewrite Nat.sub_diag. reflexivity. Qed.
Lemma xor_len n o1 o2 a b : length (xor_offset n o1 o2 a b) = n.
Proof. unfold xor_offset. rewrite map_length, seq_length. reflexivity. Qed.
Lemma xor_nth n o1 o2 a b i : (i < n)%nat -> nth i (xor_offset n o1 o2 a b) 0 = Z.lxor (nth (i + o1) a 0) (nth (i + o2) b 0).
Proof.
  intros H. unfold xor_offset. rewrite (nth_indep _ 0 (Z.lxor (nth (0 + o1) a 0) (nth (0 + o2) b 0))) by (rewrite map_length, seq_length; exact H). rewrite (map_nth (fun i => Z.lxor (nth (i + o1) a 0) (nth (i + o2) b 0))). rewrite seq_nth by exact H. reflexivity.
Qed.
Lemma nth_byte l i : bytes_ok l -> byte_ok (nth i l 0).
Proof. intros B. destruct (Nat.lt_ge_cases i (length l)) as [H|H]; [unfold bytes_ok in B; rewrite Forall_forall in B; apply B, nth_In, H|rewrite nth_overflow by exact H; split; lia]. Qed.
Lemma xor_ok n o1 o2 a b : bytes_ok a -> bytes_ok b -> bytes_ok (xor_offset n o1 o2 a b).
Proof. intros A B. unfold xor_offset. apply Forall_forall. intros x I. apply in_map_iff in I. destruct I as (i & <- & _). apply lxor_byte; apply nth_byte; assumption. Qed.
Lemma nth_eq (a b : list Z) : length a = length b -> (forall i, (i < length a)%nat -> nth i a 0 = nth i b 0) -> a = b.
Proof. intros L H. apply (nth_ext a b 0 0 L H). Qed.
Lemma slice_nth b e l i : (b + i < e)%nat -> nth i (slice b e l) 0 = nth (b + i) l 0.
Proof.
  intros H. unfold slice. assert (G : forall n (m : list Z) j, (j < n)%nat -> nth j (firstn n m) 0 = nth j m 0).
  { induction n as [|n IH]; intros m j Hj; [lia|]. destruct m as [|x m]; [destruct j; reflexivity|]. destruct j as [|j]; [reflexivity|]. cbn [firstn nth]. apply IH. lia. }
  rewrite G by lia. revert l. induction b as [|b IH]; intros l; [reflexivity|]. destruct l as [|x l]; [destruct i; reflexivity|]. cbn [skipn Nat.add nth]. apply IH. lia.
Qed.
Lemma slice_len b e (l : list Z) : (e <= length l)%nat -> length (slice b e l) = (e - b)%nat.
Proof. intros H. unfold slice. rewrite firstn_length, skipn_length. lia. Qed.
Lemma slice_ok b e l : bytes_ok l -> bytes_ok (slice b e l).
Proof.
  intros B. unfold slice. apply Forall_forall. intros x I. unfold bytes_ok in B. rewrite Forall_forall in B. apply B. assert (J : In x (skipn b l)) by (rewrite <- (firstn_skipn (e - b) (skipn b l)); apply in_or_app; left; exact I).
  rewrite <- (firstn_skipn b l). apply in_or_app. right. exact J.
Qed.
(** A masked piece, unmasked. *)
Lemma xor_back n o1 o2 a d : (n + o1 <= length a)%nat -> xor_offset n 0 o2 (xor_offset n o1 o2 a d) d = slice o1 (o1 + n) a.
Proof.
  intros H. apply nth_eq; [rewrite xor_len, slice_len; lia|]. rewrite xor_len. intros i Hi. rewrite xor_nth by exact Hi. rewrite Nat.add_0_r, xor_nth by exact Hi. rewrite twice, slice_nth by lia. f_equal. lia.
Qed.
Lemma xor_back_two a d : length a = 32%nat -> xor_offset 32 0 0 (xor_offset 16 0 0 a d ++ xor_offset 16 16 16 a d) d = a.
Proof.
  intros H. apply nth_eq; [rewrite xor_len; auto|]. rewrite xor_len. intros i Hi. rewrite xor_nth by exact Hi. rewrite !Nat.add_0_r. destruct (Nat.lt_ge_cases i 16) as [K|K].
  - rewrite app_nth1 by (rewrite xor_len; exact K). rewrite xor_nth by exact K. rewrite !Nat.add_0_r. apply twice.
  - rewrite app_nth2 by (rewrite xor_len; exact K). rewrite xor_len, xor_nth by lia. replace (i - 16 + 16)%nat with i by lia. apply twice.
Qed.
Lemma slices_join a : length a = 32%nat -> slice 0 16 a ++ slice 16 32 a = a.
Proof. intros H. unfold slice. cbn [skipn Nat.sub]. rewrite (firstn_all2 (skipn 16 a)) by (rewrite skipn_length; lia). apply firstn_skipn. Qed.
Definition aes_key (k : list Z) : Prop := length k = 32%nat /\ bytes_ok k.
Lemma encrypt_ok key b : aes_key key -> state_ok b -> state_ok (encrypt_ecb b key).
Proof.
  intros [L B] H. assert (Hk : forall j, (j <= 7)%nat -> key_ok (K key j)) by (intros j Hj; apply K_ok; [split; assumption|exact Hj]). rewrite encrypt_rounds. cbv zeta. stok H Hk.
Qed.
Lemma decrypt_back key b : aes_key key -> state_ok b -> decrypt_ecb (encrypt_ecb b key) key = b.
Proof. intros [L B] [L2 B2]. apply C75_decrypt; assumption. Qed.
Lemma xor_state o1 o2 a b : bytes_ok a -> bytes_ok b -> state_ok (xor_offset 16 o1 o2 a b).
Proof. intros A B. split; [apply xor_len|apply xor_ok; assumption]. Qed.
Lemma sign_twice b h : point_sign (point_sign b h) h = b.
Proof. apply twice. Qed.
Lemma flags_ok compressed lot multiplied : let f := set_flags compressed lot multiplied in
  f_compressed f = compressed /\ f_lot_sequence f = lot /\ f_multiplied f = multiplied.
Proof. destruct compressed, lot, multiplied; repeat split. Qed.
Lemma version_back base v : byte_ok v -> 0 <= base < 256 -> ((base + v) mod 256 - base) mod 256 = v.
Proof. intros R B. rewrite Zminus_mod_idemp_l. replace (base + v - base) with v by lia. apply Z.mod_small. exact R. Qed.

Lemma half_combine (e seed : list Z) : length e = 16%nat -> length seed = 24%nat -> let m := slice 8 16 e ++ slice 16 24 seed in
  length m = 16%nat /\ slice 0 (0 + 16) m = m /\ firstn 8 m = skipn 8 e /\ skipn 8 m = slice 16 24 seed.
Proof.
  intros L1 L2 m. assert (A : length (slice 8 16 e) = 8%nat) by (rewrite slice_len; lia). assert (B : length (slice 16 24 seed) = 8%nat) by (rewrite slice_len; lia).
  assert (L : length m = 16%nat) by (unfold m; rewrite app_length; lia). split; [exact L|]. split; [unfold slice; cbn [Nat.add Nat.sub skipn]; apply firstn_all2; lia|]. split.
  - unfold m. rewrite firstn_app, A. replace (8 - 8)%nat with 0%nat by reflexivity. rewrite firstn_O, app_nil_r, firstn_all2 by lia. unfold slice. apply firstn_all2. rewrite skipn_length. lia.
  - unfold m. rewrite skipn_app, A, skipn_all2 by lia. reflexivity.
Qed.
Lemma seed_join (seed : list Z) : length seed = 24%nat -> slice 0 (0 + 16) seed ++ slice 16 24 seed = seed.
Proof. intros L. unfold slice. cbn [Nat.add Nat.sub skipn]. rewrite (firstn_all2 (skipn 16 seed)) by (rewrite skipn_length; lia). apply firstn_skipn. Qed.
Lemma halves_join (a b : list Z) : length a = 16%nat -> firstn 16 (a ++ b) = a /\ skipn 16 (a ++ b) = b.
Proof. intros L. rewrite firstn_app, skipn_app, L, Nat.sub_diag, firstn_O, app_nil_r, firstn_all2, skipn_all2 by lia. auto. Qed.
Lemma sixteen (e1 e2 : list Z) : length e1 = 16%nat -> length e2 = 16%nat -> length (e1 ++ e2) = 32%nat.
Proof. intros. rewrite app_length. lia. Qed.
Lemma eighth (e : list Z) : length e = 16%nat -> length (firstn 8 e) = 8%nat.
Proof. intros. rewrite firstn_length. lia. Qed.
Lemma hash_len (p : list Z) : length p = 33%nat -> length (point_hash p) = 32%nat /\ hd 0 p :: point_hash p = p.
Proof. intros L. split; [unfold point_hash; rewrite slice_len; lia|]. unfold point_hash, slice. destruct p as [|x r]; [discriminate|]. cbn [hd skipn Nat.sub length] in *. rewrite firstn_all2 by lia. reflexivity. Qed.
Lemma xor_back16 o2 a d : (16 <= length a)%nat -> xor_offset 16 0 o2 (xor_offset 16 0 o2 a d) d = slice 0 (0 + 16) a.
Proof. intros. apply xor_back. lia. Qed.
Lemma xor_back32 o2 a d : length a = 32%nat -> xor_offset 16 0 o2 (xor_offset 16 16 o2 a d) d = slice 16 (16 + 16) a.
Proof. intros. apply xor_back. lia. Qed.
Lemma verify_intro s : valid_scalar s -> verify_secret s = true.
Proof. unfold valid_scalar, verify_secret. intros. lia. Qed.
Lemma ge16 (l : list Z) n : length l = n -> (16 <= n)%nat -> (16 <= length l)%nat.
Proof. lia. Qed.
Lemma version_67 v : byte_ok v -> ((67 + v) mod 256 - 67) mod 256 = v.
Proof. intros B. apply version_back; [exact B|lia]. Qed.
Lemma version_9a v : byte_ok v -> ((0x9a + v) mod 256 - 0x9a) mod 256 = v.
Proof. intros B. apply version_back; [exact B|lia]. Qed.

Lemma mix12 a b : 0 <= a -> 0 <= b < 4096 -> a * 4096 + b = Z.lor (a * 4096) b.
Proof.
  intros Ha Hb. change 4096 with (2 ^ 12) in *. rewrite <- Z.shiftl_mul_pow2 by lia. assert (D : Z.land (Z.shiftl a 12) b = 0).
  { apply Z.bits_inj'. intros n Hn. rewrite Z.land_spec, Z.bits_0, Z.shiftl_spec by lia. destruct (Z.lt_ge_cases n 12) as [C|C].
    - rewrite Z.testbit_neg_r by lia. reflexivity.
    - rewrite <- (Z.mod_small b (2 ^ 12)) by lia. rewrite Z.mod_pow2_bits_high by lia. apply andb_false_r. }
  rewrite <- Z.lxor_lor by exact D. apply Z.add_nocarry_lxor, D.
Qed.
Section Ek.
Variable c : curve65.
Variable hash short_hash normal : list Z -> list Z.
Variable scrypt_token scrypt_pair scrypt_private : list Z -> list Z -> list Z.
Hypothesis Cc : curve65_ok c.
Hypothesis hash_ok : forall x, bytes_ok (hash x) /\ len (hash x) = 32.
Hypothesis token_ok : forall x s, length (scrypt_token x s) = 32%nat /\ bytes_ok (scrypt_token x s).
Hypothesis pair_ok : forall x s, length (scrypt_pair x s) = 64%nat /\ bytes_ok (scrypt_pair x s).
Hypothesis private_ok : forall x s, length (scrypt_private x s) = 64%nat /\ bytes_ok (scrypt_private x s).

Lemma halves k : length k = 64%nat /\ bytes_ok k -> (length (firstn 32 k) = 32%nat /\ bytes_ok (firstn 32 k)) /\ aes_key (skipn 32 k).
Proof.
  intros [L B]. rewrite <- (firstn_skipn 32 k) in B. apply Forall_app in B. destruct B as [B1 B2]. split; (split; [|assumption]); [rewrite firstn_length|rewrite skipn_length]; lia.
Qed.
Lemma checked_eq p : checked hash p = p ++ firstn 4 (hash p).
Proof.
  unfold checked, insert_checksum. cbv zeta. replace (length (p ++ repeat 0%Z 4) - 4)%nat with (length p) by (rewrite app_length, repeat_length; lia). rewrite firstn_app, Nat.sub_diag, firstn_all. cbn [firstn]. rewrite app_nil_r. reflexivity.
Qed.
Lemma checked_verifies p : verify_checksum_array hash 4 (checked hash p) = true.
Proof.
  rewrite checked_eq. unfold verify_checksum_array. cbv zeta. destruct (hash4 hash hash_ok p) as [_ L4]. replace (length (p ++ firstn 4 (hash p)) - 4)%nat with (length p) by (rewrite app_length, L4; lia).
  apply list_eqb_iff. rewrite firstn_app, skipn_app, Nat.sub_diag, firstn_all, skipn_all. cbn [firstn skipn app]. rewrite app_nil_r. reflexivity.
Qed.
(** ** Layouts *)
Lemma private_fields x flags salt entropy d1 d2 : length salt = 4%nat -> length entropy = 8%nat -> length d1 = 8%nat -> length d2 = 16%nat ->
  let k := checked hash ([1; x] ++ [flags] ++ salt ++ entropy ++ d1 ++ d2) in
  pk_valid hash k = true /\ nth 1 k 0 = x /\ pk_flags k = flags /\ pk_salt k = salt /\ pk_entropy k = entropy /\ pk_data1 k = d1 /\ pk_data2 k = d2 /\ length k = 43%nat.
Proof.
  intros L1 L2 L3 L4. cbv zeta. unfold pk_valid. rewrite checked_verifies. rewrite checked_eq. destruct (hash4 hash hash_ok ([1; x] ++ [flags] ++ salt ++ entropy ++ d1 ++ d2)) as [_ Lc]. set (ck := firstn 4 _) in *.
  unfold pk_flags, pk_salt, pk_entropy, pk_data1, pk_data2. rewrite <- !app_assoc. split; [reflexivity|]. split; [reflexivity|]. split; [reflexivity|].
  split; [apply (slice_mid [1; x; flags]); [reflexivity|lia]|]. split; [apply (slice_mid ([1; x; flags] ++ salt)); [rewrite app_length; cbn [length]; lia|lia]|].
  split; [|split; [|rewrite !app_length, L1, L2, L3, L4, Lc; reflexivity]].
  - assert (E : forall t, [1; x] ++ [flags] ++ salt ++ entropy ++ t = ([1; x; flags] ++ salt ++ entropy) ++ t) by (intros t; rewrite <- !app_assoc; reflexivity). rewrite E. apply slice_mid; [rewrite !app_length; cbn [length]; lia|lia].
  - assert (E : forall t, [1; x] ++ [flags] ++ salt ++ entropy ++ d1 ++ t = ([1; x; flags] ++ salt ++ entropy ++ d1) ++ t) by (intros t; rewrite <- !app_assoc; reflexivity). rewrite E. apply slice_mid; [rewrite !app_length; cbn [length]; lia|lia].
Qed.
Lemma public_fields x flags salt entropy sign d : length salt = 4%nat -> length entropy = 8%nat -> length d = 32%nat ->
  let k := checked hash ((public_magic ++ [x]) ++ [flags] ++ salt ++ entropy ++ [sign] ++ d) in
  pb_valid hash k = true /\ nth 4 k 0 = x /\ pb_flags k = flags /\ pb_salt k = salt /\ pb_entropy k = entropy /\ pb_sign k = sign /\ pb_data k = d.
Proof.
  intros L1 L2 L3. cbv zeta. unfold pb_valid. rewrite checked_verifies. rewrite checked_eq. set (ck := firstn 4 _).
  unfold pb_flags, pb_salt, pb_entropy, pb_sign, pb_data. rewrite <- !app_assoc. split; [reflexivity|]. split; [reflexivity|]. split; [reflexivity|].
  split; [apply (slice_mid (public_magic ++ [x; flags])); [reflexivity|lia]|]. split; [apply (slice_mid ((public_magic ++ [x; flags]) ++ salt)); [rewrite app_length; cbn [length app public_magic]; lia|lia]|].
  assert (E : forall t, public_magic ++ [x] ++ [flags] ++ salt ++ entropy ++ t = (public_magic ++ [x; flags] ++ salt ++ entropy) ++ t) by (intros t; rewrite <- !app_assoc; reflexivity). split.
  - rewrite E. apply nth_mid. rewrite !app_length. cbn [length public_magic]. lia.
  - assert (E2 : forall t, public_magic ++ [x] ++ [flags] ++ salt ++ entropy ++ [sign] ++ t = (public_magic ++ [x; flags] ++ salt ++ entropy ++ [sign]) ++ t) by (intros t; rewrite <- !app_assoc; reflexivity). rewrite E2. apply slice_mid; [rewrite !app_length; cbn [length public_magic]; lia|lia].
Qed.
Lemma token_fields lot entropy point : length entropy = 8%nat -> length point = 33%nat ->
  let t := checked hash (token_prefix lot ++ entropy ++ point) in
  tk_valid hash t = true /\ tk_lot_sequence t = lot /\ tk_entropy t = entropy /\ tk_point t = point.
Proof.
  intros L1 L2. cbv zeta. unfold tk_valid. rewrite checked_verifies. rewrite checked_eq. set (ck := firstn 4 _). rewrite <- !app_assoc. unfold tk_lot_sequence, tk_entropy, tk_point.
  split; [destruct lot; reflexivity|]. split; [destruct lot; reflexivity|]. split; [apply slice_mid; [destruct lot; reflexivity|lia]|].
  assert (Lp : length (token_prefix lot) = 8%nat) by (destruct lot; reflexivity).
  destruct point as [|x p]; [discriminate|]. cbn [length] in L2. change ((x :: p) ++ ck) with ([x] ++ p ++ ck).
  replace (slice 16 17 (token_prefix lot ++ entropy ++ [x] ++ p ++ ck)) with [x] by (symmetry; rewrite app_assoc; apply slice_mid; [rewrite app_length; lia|reflexivity]).
  replace (slice 17 49 (token_prefix lot ++ entropy ++ [x] ++ p ++ ck)) with p; [reflexivity|]. symmetry. rewrite 2 app_assoc. apply slice_mid; [rewrite !app_length; cbn [length]; lia|lia].
Qed.

(** ** Addresses *)
Local Notation paddr := (point_address c hash short_hash).
Local Notation saddr := (secret_address c hash short_hash).
Lemma addresses secret v cmp : byte_ok v -> valid_scalar secret -> saddr secret v cmp = paddr (mulG (c33 c) (be_value secret)) v cmp /\ exists a, saddr secret v cmp = Some a.
Proof.
  intros Bv V. assert (E : saddr secret v cmp = paddr (mulG (c33 c) (be_value secret)) v cmp).
  { unfold secret_address, ecprv_address, private_from_secret. cbn [e_secret e_versions]. assert (Sb : scalar_bool secret = true).
    { unfold scalar_bool. destruct (list_eqb secret null32) eqn:Q; [|reflexivity]. apply list_eqb_iff in Q. subst secret. unfold valid_scalar in V. change (be_value null32) with 0 in V. lia. }
    rewrite Sb. cbn [negb]. unfold ecprv_to_public. cbn [e_secret e_compress]. rewrite Sb. cbn [negb]. unfold secret_to_public, verify_secret. unfold valid_scalar in V. rewrite (proj2 (Z.ltb_lt 0 _) (proj1 V)), (proj2 (Z.ltb_lt _ order) (proj2 V)). cbn [andb].
    unfold to_address_version. rewrite Z.mod_small by exact Bv. reflexivity. }
  split; [exact E|]. rewrite E. unfold point_address, ecpub_address, ecpub_to_data, ecpub_to_uncompressed, decompress. cbn [k_point k_compress]. destruct Cc as ([C1 _] & _). destruct (C1 _ V) as (_ & _ & Hd & D).
  assert (P : point_bool (mulG (c33 c) (be_value secret)) = true) by (unfold point_bool; destruct Hd as [-> | ->]; reflexivity). rewrite P. cbn [negb]. destruct cmp; [eexists; reflexivity|]. rewrite D. eexists. reflexivity.
Qed.
Lemma invalid_address secret v cmp : ~ valid_scalar secret -> saddr secret v cmp = None.
Proof.
  intros V. unfold secret_address, ecprv_address, private_from_secret. cbn [e_secret e_versions]. destruct (scalar_bool secret) eqn:Sb; [|reflexivity]. cbn [negb]. unfold ecprv_to_public. cbn [e_secret e_compress]. rewrite Sb. cbn [negb]. unfold secret_to_public.
  destruct (verify_secret secret) eqn:Q; [|reflexivity]. exfalso. apply V. unfold verify_secret in Q. apply andb_true_iff in Q. rewrite !Z.ltb_lt in Q. exact Q.
Qed.
Lemma salt_len a : length (firstn 4 (address_hash hash a)) = 4%nat.
Proof. apply (hash4 hash hash_ok). Qed.
Lemma validate_own a : address_validate hash (firstn 4 (address_hash hash a)) (Some a) = true.
Proof. unfold address_validate. rewrite salt_len. apply list_eqb_iff. reflexivity. Qed.

Local Notation encrypt := (ek_encrypt c hash short_hash normal scrypt_private).
Local Notation decrypt := (ek_decrypt c hash short_hash normal scrypt_token scrypt_pair scrypt_private).
(** Encryption fails for no valid secret, and decryption with the same passphrase
    gives back the secret, the version and the compression. *)
Theorem C83_encrypt secret pass version compressed : length secret = 32%nat -> bytes_ok secret -> byte_ok version ->
  (valid_scalar secret -> exists k, encrypt secret pass version compressed = Some k /\ length k = 43%nat /\ decrypt k pass = Some (secret, version, compressed)) /\
  (~ valid_scalar secret -> encrypt secret pass version compressed = None).
Proof.
  intros L B Bv. split.
  2:{ intros V. unfold ek_encrypt. rewrite invalid_address by exact V. reflexivity. }
  intros V. destruct (addresses secret version compressed Bv V) as [_ [a Ea]]. unfold ek_encrypt. rewrite Ea. cbn [address_salt]. set (salt := firstn 4 (address_hash hash a)). set (derived := scrypt_private (normal pass) salt).
  destruct (halves derived (private_ok _ _)) as [[Lf Bf] Ak]. set (e1 := encrypt_ecb (xor_offset 16 0 0 secret (firstn 32 derived)) (skipn 32 derived)). set (e2 := encrypt_ecb (xor_offset 16 16 16 secret (firstn 32 derived)) (skipn 32 derived)).
  destruct (encrypt_ok _ _ Ak (xor_state 0 0 _ _ B Bf)) as [L1 _]. fold e1 in L1. destruct (encrypt_ok _ _ Ak (xor_state 16 16 _ _ B Bf)) as [L2 _]. fold e2 in L2.
  eexists. split; [reflexivity|]. rewrite <- (firstn_skipn 8 e1). rewrite <- (app_assoc (firstn 8 e1)).
  destruct (private_fields ((66 + version) mod 256) (set_flags compressed false false) salt (firstn 8 e1) (skipn 8 e1) e2 (salt_len a) ltac:(rewrite firstn_length; lia) ltac:(rewrite skipn_length; lia) L2) as (F1 & F2 & F3 & F4 & F5 & F6 & F7 & F8).
  unfold private_prefix. cbv iota. set (k := checked hash _) in *. split; [exact F8|]. unfold ek_decrypt. rewrite F1. cbn [negb]. destruct (flags_ok compressed false false) as (G1 & G2 & G3). rewrite F3, G1, G3. unfold decrypt_secret. unfold pk_version. rewrite F2, F3, F4, F5, F6, F7, G1, G3. rewrite version_back by (try exact Bv; lia).
  fold derived. rewrite firstn_skipn. unfold e1, e2. rewrite !decrypt_back by (try exact Ak; apply xor_state; assumption). rewrite xor_back_two by exact L. rewrite Ea. unfold salt. rewrite validate_own. reflexivity.
Qed.
Definition own_check (k s : list Z) : option (list Z) := if address_validate hash (pk_salt k) (saddr s (pk_version k) (f_compressed (pk_flags k))) then Some s else None.
Lemma secret_form k pass : exists s, decrypt_secret c hash short_hash normal scrypt_private k pass = own_check k s.
Proof. unfold decrypt_secret, own_check. cbv zeta. eexists. reflexivity. Qed.
Lemma multiplied_form k pass : decrypt_multiplied c hash short_hash normal scrypt_token scrypt_pair k pass = None \/ exists s, decrypt_multiplied c hash short_hash normal scrypt_token scrypt_pair k pass = own_check k s.
Proof.
  unfold decrypt_multiplied. cbv zeta. destruct (secret_to_public _ _) as [p|]; [|left; reflexivity]. destruct (secret_mul _ _) as [s|]; [|left; reflexivity]. right. exists s. reflexivity.
Qed.
Lemma checked_own k s x : length k = 43%nat -> own_check k s = Some x ->
  exists a, saddr x (pk_version k) (f_compressed (pk_flags k)) = Some a /\ firstn 4 (hash (encode_base58 a)) = pk_salt k.
Proof.
  intros L. assert (Ls : length (pk_salt k) = 4%nat) by (unfold pk_salt; rewrite slice_len; lia). unfold own_check. destruct (address_validate hash (pk_salt k) _) eqn:Q; [|discriminate]. intros E. injection E as <-.
  unfold address_validate in Q. destruct (saddr s _ _) as [a|]; [|discriminate]. rewrite Ls in Q. apply list_eqb_iff in Q. exists a. auto.
Qed.
(** Decryption gives only a secret whose address the key names. *)
Theorem C83_sound k pass secret version compressed : length k = 43%nat -> decrypt k pass = Some (secret, version, compressed) ->
  exists a, saddr secret version compressed = Some a /\ firstn 4 (hash (encode_base58 a)) = pk_salt k /\ verify_checksum_array hash 4 k = true.
Proof.
  intros L D. unfold ek_decrypt in D. destruct (pk_valid hash k) eqn:V; [|discriminate D]. cbn [negb] in D. apply andb_true_iff in V. destruct V as [_ V].
  set (r := if f_multiplied (pk_flags k) then _ else _) in D. assert (R : forall x, r = Some x -> exists s, own_check k s = Some x).
  { intros x E. unfold r in E. destruct (f_multiplied (pk_flags k)).
    - destruct (multiplied_form k pass) as [N|[s N]]; rewrite N in E; [discriminate E|exists s; exact E].
    - destruct (secret_form k pass) as [s N]. rewrite N in E. exists s. exact E. }
  destruct r as [x|]; [|discriminate D]. destruct (R x eq_refl) as [s Hs]. destruct (checked_own k s x L Hs) as (a & Ha & Hb). injection D as <- <- <-. exists a. auto.
Qed.

(** ** Tokens *)
Local Notation token_with := (create_token_with c hash normal scrypt_token).
Local Notation key_pair := (create_key_pair c hash short_hash scrypt_pair).
Local Notation confirm := (ek_confirm c hash short_hash normal scrypt_token scrypt_pair).
Lemma token_pair pass salt entropy lot token seed version compressed : length entropy = 8%nat -> bytes_ok entropy -> (length salt =? 4)%nat = lot -> owner_salt lot entropy = salt -> length seed = 24%nat -> bytes_ok seed -> byte_ok version ->
  token_with pass salt entropy (token_prefix lot) = Some token ->
  (valid_scalar (hash seed) -> exists k code secret point, key_pair token seed version compressed = Some (k, code, point) /\
    decrypt k pass = Some (secret, version, compressed) /\ secret_to_public (c33 c) secret = Some point /\ confirm code pass = Some (point, version, compressed)) /\
  (~ valid_scalar (hash seed) -> key_pair token seed version compressed = None).
Proof.
  intros Le Be Hl Ho Ls Bs Bv T. unfold create_token_with in T. rewrite Hl in T. cbv zeta in T. set (pf := if lot then hash (scrypt_token (normal pass) salt ++ entropy) else scrypt_token (normal pass) salt) in *.
  assert (Wp : length pf = 32%nat /\ bytes_ok pf).
  { unfold pf. destruct lot; [|apply token_ok]. destruct (hash_ok (scrypt_token (normal pass) salt ++ entropy)) as [Hb H32]. split; [unfold len in H32; lia|exact Hb]. }
  unfold secret_to_public in T. destruct (verify_secret pf) eqn:Vp; [|discriminate]. match type of T with Some ?x = Some ?y => assert (Te : y = x) by congruence end. clear T. subst token. assert (Rp : 0 < be_value pf < order) by (unfold verify_secret in Vp; apply andb_true_iff in Vp; rewrite !Z.ltb_lt in Vp; exact Vp).
  pose proof Cc as (Cg & _ & _). pose proof Cg as [C1 _]. destruct (C1 _ Rp) as (Lpt & Bpt & _ & Dpt). set (point := mulG (c33 c) (be_value pf)) in *.
  destruct (token_fields lot entropy point Le Lpt) as (T1 & T2 & T3 & T4). set (token := checked hash (token_prefix lot ++ entropy ++ point)) in *.
  unfold create_key_pair. rewrite T1, T2, T3, T4. cbn [negb]. unfold point_mul. rewrite Dpt. set (f := hash seed). split.
  2:{ intros V. destruct (verify_secret f) eqn:Vf; [|reflexivity]. exfalso. apply V. unfold verify_secret in Vf. apply andb_true_iff in Vf. rewrite !Z.ltb_lt in Vf. exact Vf. }
  intros Rf. unfold valid_scalar in Rf. fold f in Rf. assert (Vf : verify_secret f = true) by exact (verify_intro f Rf). rewrite Vf. unfold to_point. pose proof (order_mul _ _ Rp Rf) as Nz. rewrite (proj2 (Z.eqb_neq _ _) Nz).
  set (n := (be_value pf * be_value f) mod order) in *. assert (Rn : 0 < n < order) by (pose proof (Z.mod_pos_bound (be_value pf * be_value f) order ltac:(unfold order; lia)); unfold n in *; lia).
  set (secret := be_bytes 32 n). assert (Vs : be_value secret = n) by (apply secret_value; lia). assert (Vss : valid_scalar secret) by (unfold valid_scalar; rewrite Vs; exact Rn).
  destruct (addresses secret version compressed Bv Vss) as [Ea [a Ha]]. rewrite Vs in Ea. rewrite Ea in Ha. rewrite Ha. cbn [address_salt]. set (asalt := firstn 4 (address_hash hash a)).
  set (derived := scrypt_pair point (asalt ++ entropy)). destruct (halves derived (pair_ok _ _)) as [[Ld Bd] Ak]. set (d1 := firstn 32 derived) in *. set (d2 := skipn 32 derived) in *.
  unfold create_public_key. unfold secret_to_public. rewrite Vf. destruct (C1 _ Rf) as (Lfp & Bfp & _ & Dfp). set (fp := mulG (c33 c) (be_value f)) in *. cbv zeta. do 4 eexists. split; [reflexivity|].
  destruct (flags_ok compressed lot true) as (G1 & G2 & G3). split; [|split].
  - unfold create_private_key. cbv zeta. set (e1 := encrypt_ecb (xor_offset 16 0 0 seed d1) d2). assert (So : state_ok e1) by (apply encrypt_ok; [exact Ak|apply xor_state; assumption]).
    set (combined := slice 8 16 e1 ++ slice 16 24 seed). destruct (half_combine e1 seed (proj1 So) Ls) as (Lc & S0c & F8c & S8c). fold combined in Lc, S0c, F8c, S8c.
    assert (Bc : bytes_ok combined) by (unfold combined; apply Forall_app; split; apply slice_ok; [exact (proj2 So)|exact Bs]).
    set (e2 := encrypt_ecb (xor_offset 16 0 16 combined d1) d2). assert (So2 : state_ok e2) by (apply encrypt_ok; [exact Ak|apply xor_state; assumption]).
    destruct (private_fields ((67 + version) mod 256) (set_flags compressed lot true) asalt entropy (firstn 8 e1) e2 (salt_len a) Le (eighth e1 (proj1 So)) (proj1 So2)) as (F1 & F2 & F3 & F4 & F5 & F6 & F7 & F8).
    unfold private_prefix. cbv iota. set (k := checked hash _) in *. unfold ek_decrypt. rewrite F1. cbn [negb]. rewrite F3, G1, G3. unfold decrypt_multiplied. unfold pk_version. rewrite F2, F3, F4, F5, F6, F7, G1, G2, G3. rewrite version_67 by exact Bv. cbv zeta.
    rewrite Ho. replace (if lot then hash (scrypt_token (normal pass) salt ++ entropy) else scrypt_token (normal pass) salt) with pf by reflexivity.
    unfold secret_to_public. rewrite Vp. fold point. fold derived. fold d1. fold d2. unfold e2. rewrite decrypt_back by (try exact Ak; apply xor_state; assumption). rewrite xor_back16 by exact (ge16 _ _ Lc ltac:(repeat constructor)). rewrite S0c.
    rewrite F8c, S8c, firstn_skipn. unfold e1. rewrite decrypt_back by (try exact Ak; apply xor_state; assumption). rewrite xor_back16 by exact (ge16 _ _ Ls ltac:(repeat constructor)). rewrite (seed_join seed Ls).
    fold f. unfold secret_mul. rewrite Vp, Vf. cbn [andb]. unfold to_secret. fold n. rewrite (proj2 (Z.eqb_neq _ _) Nz). fold secret. rewrite (proj1 (addresses secret version compressed Bv Vss)), Vs, Ha. unfold asalt. rewrite validate_own. reflexivity.
  - rewrite (verify_intro secret Vss), Vs. reflexivity.
  - set (h := point_hash fp). destruct (hash_len fp Lfp) as [Lh Ef]. fold h in Lh, Ef. assert (Bh : bytes_ok h) by (apply slice_ok; exact Bfp).
    set (e1 := encrypt_ecb (xor_offset 16 0 0 h d1) d2). set (e2 := encrypt_ecb (xor_offset 16 16 16 h d1) d2). assert (So1 : state_ok e1) by (apply encrypt_ok; [exact Ak|apply xor_state; assumption]). assert (So2 : state_ok e2) by (apply encrypt_ok; [exact Ak|apply xor_state; assumption]).
    destruct (public_fields ((0x9a + version) mod 256) (set_flags compressed lot true) asalt entropy (point_sign (hd 0 fp) d2) (e1 ++ e2) (salt_len a) Le (sixteen e1 e2 (proj1 So1) (proj1 So2))) as (F1 & F2 & F3 & F4 & F5 & F6 & F7).
    unfold public_prefix. set (k := checked hash _) in *. unfold ek_confirm. rewrite F1. cbn [negb]. unfold pb_version. rewrite F2, F3, F4, F5, F6, F7, G1, G2. rewrite version_9a by exact Bv. cbv zeta.
    rewrite Ho. replace (if lot then hash (scrypt_token (normal pass) salt ++ entropy) else scrypt_token (normal pass) salt) with pf by reflexivity. unfold secret_to_public. rewrite Vp. fold point. fold derived. fold d1. fold d2.
    destruct (halves_join e1 e2 (proj1 So1)) as [-> ->].
    unfold e1, e2. rewrite !decrypt_back by (try exact Ak; apply xor_state; assumption). rewrite xor_back16 by exact (ge16 _ _ Lh ltac:(repeat constructor)). rewrite xor_back32 by exact Lh. rewrite sign_twice. change (slice 0 (0 + 16) h) with (slice 0 16 h). change (slice 16 (16 + 16) h) with (slice 16 32 h). rewrite slices_join by exact Lh.
    rewrite Ef.
    unfold point_mul. rewrite Dfp, Vp. unfold to_point. rewrite (Z.mul_comm (be_value f)). fold n. rewrite (proj2 (Z.eqb_neq _ _) Nz). rewrite Ha. unfold asalt. rewrite validate_own. reflexivity.
Qed.

Local Notation token := (create_token c hash normal scrypt_token).
Local Notation token_lot := (create_token_lot c hash normal scrypt_token).
(** What holding a token of a passphrase means: any valid seed gives a private key
    that the passphrase decrypts to a secret, the point of that secret, and a
    confirmation code that the passphrase confirms to the same point. *)
Definition works (t pass : list Z) : Prop := forall seed version compressed, length seed = 24%nat -> bytes_ok seed -> byte_ok version ->
  (valid_scalar (hash seed) -> exists k code secret point, key_pair t seed version compressed = Some (k, code, point) /\
    decrypt k pass = Some (secret, version, compressed) /\ secret_to_public (c33 c) secret = Some point /\ confirm code pass = Some (point, version, compressed)) /\
  (~ valid_scalar (hash seed) -> key_pair t seed version compressed = None).
Theorem C83_token pass entropy : length entropy = 8%nat -> bytes_ok entropy ->
  (valid_scalar (scrypt_token (normal pass) entropy) -> exists t, token pass entropy = Some t /\ works t pass) /\
  (~ valid_scalar (scrypt_token (normal pass) entropy) -> token pass entropy = None).
Proof.
  intros L B. split.
  - intros V. destruct (token pass entropy) as [t|] eqn:T.
    + exists t. split; [reflexivity|]. intros seed version compressed Ls Bs Bv. apply (token_pair pass entropy entropy false t seed version compressed L B); auto. rewrite L. reflexivity.
    + exfalso. unfold create_token, create_token_with in T. rewrite L in T. cbn [Nat.eqb] in T. cbv zeta iota in T. unfold secret_to_public in T. rewrite (verify_intro _ V) in T. discriminate T.
  - intros V. unfold create_token, create_token_with. rewrite L. cbn [Nat.eqb]. cbv zeta iota. unfold secret_to_public. destruct (verify_secret _) eqn:Q; [|reflexivity]. exfalso. apply V. unfold verify_secret in Q. apply andb_true_iff in Q. rewrite !Z.ltb_lt in Q. exact Q.
Qed.

(** With a lot and a sequence the token works when the derived secret is valid; the
    8 bytes of entropy are the salt and lot * 4096 + sequence. *)
Definition lot_secret (pass salt : list Z) (lot sequence : Z) : list Z := hash (scrypt_token (normal pass) salt ++ salt ++ be_bytes 4 (lot * 4096 + sequence)).
Lemma lot_word lot sequence : 0 <= lot <= 1048575 -> 0 <= sequence <= 4095 -> Z.lor (wrap u32 (Z.shiftl lot 12)) sequence = lot * 4096 + sequence.
Proof.
  intros Hl Hs. rewrite Z.shiftl_mul_pow2 by lia. change (2 ^ 12) with 4096. rewrite wrap_fits by (try reflexivity; unfold fits; cbn; lia). symmetry. apply (mix12 lot sequence); lia.
Qed.
Theorem C83_token_lot_partial out pass salt lot sequence : length salt = 4%nat -> bytes_ok salt -> 0 <= lot -> 0 <= sequence ->
  (lot <= 1048575 /\ sequence <= 4095 -> valid_scalar (lot_secret pass salt lot sequence) ->
     exists t, token_lot out pass salt lot sequence = (true, t) /\ works t pass /\ tk_entropy t = salt ++ be_bytes 4 (lot * 4096 + sequence)) /\
  (~ (lot <= 1048575 /\ sequence <= 4095) -> token_lot out pass salt lot sequence = (false, out)).
Proof.
  intros L B Hl Hs. unfold create_token_lot. split.
  - intros [R1 R2] V. replace (lot >? 1048575) with false by lia. replace (sequence >? 4095) with false by lia. cbn [orb]. cbv zeta. rewrite lot_word by lia. set (w := be_bytes 4 (lot * 4096 + sequence)).
    assert (Lw : length w = 4%nat) by (apply be_bytes_length). assert (Le : length (salt ++ w) = 8%nat) by (rewrite app_length; lia). assert (Be : bytes_ok (salt ++ w)) by (apply Forall_app; split; [exact B|apply be_bytes_ok]).
    destruct (create_token_with c hash normal scrypt_token pass salt (salt ++ w) (token_prefix true)) as [t|] eqn:T.
    + exists t. split; [reflexivity|]. assert (F : firstn 4 (salt ++ w) = salt) by (rewrite firstn_app, L, Nat.sub_diag, firstn_O, app_nil_r, firstn_all2 by lia; reflexivity). split.
      * intros seed version compressed Ls Bs Bv. apply (token_pair pass salt (salt ++ w) true t seed version compressed Le Be); auto. rewrite L. reflexivity.
      * unfold create_token_with in T. rewrite L in T. cbn [Nat.eqb] in T. cbv zeta iota in T. destruct (secret_to_public (c33 c) _) as [p|] eqn:P; [|discriminate T]. unfold secret_to_public in P. match type of P with (if ?b then _ else _) = _ => destruct b eqn:Q; [|discriminate P] end. assert (Lp : length p = 33%nat).
        { pose proof Cc as (Cg & _ & _). destruct Cg as [C1 _]. unfold verify_secret in Q. apply andb_true_iff in Q. rewrite !Z.ltb_lt in Q. destruct (C1 _ Q) as [Lp _]. congruence. }
        match type of T with Some ?x = Some ?y => assert (Te : y = x) by congruence end. rewrite Te. destruct (token_fields true (salt ++ w) p Le Lp) as (_ & _ & T3 & _). exact T3.
    + exfalso. unfold create_token_with in T. rewrite L in T. cbn [Nat.eqb] in T. cbv zeta iota in T. unfold secret_to_public in T. fold w in V. unfold lot_secret in V. fold w in V. rewrite (verify_intro _ V) in T. discriminate T.
  - intros N. destruct (lot >? 1048575) eqn:Q1; [reflexivity|]. destruct (sequence >? 4095) eqn:Q2; [reflexivity|]. exfalso. apply N. lia.
Qed.
(** When it is not valid the call still reports success, and leaves the caller's
    token as it was: the plain form (above) fails. *)
Theorem C83_token_lot_refuted out pass salt lot sequence : length salt = 4%nat -> 0 <= lot <= 1048575 -> 0 <= sequence <= 4095 ->
  ~ valid_scalar (lot_secret pass salt lot sequence) -> token_lot out pass salt lot sequence = (true, out).
Proof.
  intros L Hl Hs V. unfold create_token_lot. replace (lot >? 1048575) with false by lia. replace (sequence >? 4095) with false by lia. cbn [orb]. cbv zeta. rewrite lot_word by lia. unfold create_token_with. rewrite L. cbn [Nat.eqb]. cbv zeta iota. unfold secret_to_public.
  destruct (verify_secret _) eqn:Q; [|reflexivity]. exfalso. apply V. unfold verify_secret in Q. apply andb_true_iff in Q. rewrite !Z.ltb_lt in Q. exact Q.
Qed.
End Ek.

(** ** The hypotheses are met *)
Definition ek_hash (x : list Z) : list Z := be_bytes 32 (1 + fold_left (fun a b => (a * 257 + b) mod 2 ^ 250) x 7).
Definition ek_short (x : list Z) : list Z := skipn 12 (ek_hash x).
Definition ek_pair (x s : list Z) : list Z := ek_hash (x ++ s) ++ ek_hash (s ++ x).
Example ek_oracles : (forall x, bytes_ok (ek_hash x) /\ len (ek_hash x) = 32) /\
  (forall x s, length (ek_hash (x ++ s)) = 32%nat /\ bytes_ok (ek_hash (x ++ s))) /\ (forall x s, length (ek_pair x s) = 64%nat /\ bytes_ok (ek_pair x s)).
Proof.
  split; [|split]; intros.
  - split; [apply be_bytes_ok|unfold len, ek_hash; rewrite be_bytes_length; reflexivity].
  - split; [apply be_bytes_length|apply be_bytes_ok].
  - unfold ek_pair. split; [rewrite app_length; unfold ek_hash; rewrite !be_bytes_length; reflexivity|apply Forall_app; split; apply be_bytes_ok].
Qed.
(** A key encrypted and decrypted, one made from a token, and a wrong passphrase. *)
Definition ex_secret : list Z := be_bytes 32 123456789.
Example C83_ex : exists k, ek_encrypt toy65 ek_hash ek_short (fun p => p) ek_pair ex_secret [1; 2; 3] 0 true = Some k /\
  ek_decrypt toy65 ek_hash ek_short (fun p => p) (fun x s => ek_hash (x ++ s)) ek_pair ek_pair k [1; 2; 3] = Some (ex_secret, 0, true) /\
  ek_decrypt toy65 ek_hash ek_short (fun p => p) (fun x s => ek_hash (x ++ s)) ek_pair ek_pair k [1; 2; 4] = None.
Proof. eexists. split; [vm_compute; reflexivity|]. split; vm_compute; reflexivity. Qed.
Example C83_token_ex : valid_scalar (ek_hash ([1; 2; 3] ++ repeat 5 8)) /\ valid_scalar (ek_hash (repeat 9 24)) /\ valid_scalar (lot_secret ek_hash (fun p => p) (fun x s => ek_hash (x ++ s)) [1; 2; 3] (repeat 5 4) 7 8).
Proof. unfold valid_scalar. repeat split; vm_compute; congruence. Qed.
(** A hash of zeros gives an invalid secret. *)
Example C83_lot_ex : ~ valid_scalar (lot_secret (fun _ => repeat 0 32) (fun p => p) (fun _ _ => repeat 0 32) [1] (repeat 5 4) 7 8).
Proof. unfold valid_scalar. vm_compute. intros [H _]. discriminate H. Qed.

Print Assumptions C83_encrypt.
Print Assumptions C83_sound.
Print Assumptions C83_token.
Print Assumptions C83_token_lot_partial.
Print Assumptions C83_token_lot_refuted.
