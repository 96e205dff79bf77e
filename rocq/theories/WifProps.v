(** C73: private key text (WIF) and public key serialization.
    C74: scalar and point arithmetic. *)
From Coq Require Import String.
From Verif Require Import Base Bytes MathModel MathProps RadixModel RadixSpec RadixProps AddressModel AddressSpec AddressProps EcModel HdSpec HdModel HdProofs HdProps WifModel.

Lemma byte_firstn n l : bytes_ok l -> bytes_ok (firstn n l). Proof. apply bytes_ok_firstn. Qed.
Lemma versions_ok address wif : byte_ok address -> byte_ok wif ->
  to_versions address wif = wif * 256 + address /\ to_wif_version (to_versions address wif) = wif /\ to_address_version (to_versions address wif) = address.
Proof.
  unfold byte_ok. intros A W. assert (E : to_versions address wif = wif * 256 + address).
  { unfold to_versions. rewrite Z.mod_small by lia. change 256 with (2 ^ 8). rewrite <- Z.shiftl_mul_pow2 by lia. rewrite <- Z.lxor_lor.
    - rewrite <- Z.add_nocarry_lxor; [reflexivity|]. apply Z.bits_inj'. intros n Hn. rewrite Z.land_spec, Z.bits_0, Z.shiftl_spec by lia.
      destruct (Z.ltb_spec n 8); [rewrite Z.testbit_neg_r by lia; reflexivity|]. rewrite (Z.bits_above_log2 address n); [apply andb_false_r|lia|].
      destruct (Z.eq_dec address 0) as [->|]; [cbn; lia|]. apply Z.log2_lt_pow2; [lia|]. apply Z.lt_le_trans with (2 ^ 8); [lia|apply Z.pow_le_mono_r; lia].
    - apply Z.bits_inj'. intros n Hn. rewrite Z.land_spec, Z.bits_0, Z.shiftl_spec by lia.
      destruct (Z.ltb_spec n 8); [rewrite Z.testbit_neg_r by lia; reflexivity|]. rewrite (Z.bits_above_log2 address n); [apply andb_false_r|lia|].
      destruct (Z.eq_dec address 0) as [->|]; [cbn; lia|]. apply Z.log2_lt_pow2; [lia|]. apply Z.lt_le_trans with (2 ^ 8); [lia|apply Z.pow_le_mono_r; lia]. }
  rewrite E. split; [reflexivity|]. unfold to_wif_version, to_address_version. split.
  - rewrite Z.div_add_l by lia. rewrite (Z.div_small address 256), Z.add_0_r, Z.mod_small by lia. reflexivity.
  - rewrite Z.add_comm, Z.mod_add by lia. apply Z.mod_small. lia.
Qed.

(** The wallet import format: a version byte, the 32 byte secret, 0x01 for a
    compressed public key, and four checksum bytes. *)
Definition wif_bytes (hash : list Z -> list Z) (version : Z) (secret : list Z) (compressed : bool) : list Z :=
  let payload := version :: secret ++ (if compressed then [1] else []) in payload ++ firstn 4 (hash payload).

Section Wif.
Variable hash : list Z -> list Z.
Hypothesis hash_ok : forall x, bytes_ok (hash x) /\ len (hash x) = 32.
Definition secret_ok (s : list Z) : Prop := length s = 32%nat /\ bytes_ok s.

Lemma hash4b x : bytes_ok (firstn 4 (hash x)) /\ length (firstn 4 (hash x)) = 4%nat.
Proof. destruct (hash_ok x) as [B L]. split; [apply bytes_ok_firstn, B|]. rewrite firstn_length. unfold len in L. lia. Qed.
Lemma wif_bytes_ok version s f : byte_ok version -> secret_ok s ->
  bytes_ok (wif_bytes hash version s f) /\ len (wif_bytes hash version s f) = (if f then 38 else 37).
Proof.
  intros Bv [L B]. unfold wif_bytes. cbv zeta. set (pl := version :: s ++ _). destruct (hash4b pl) as [B4 L4]. split.
  - apply bytes_ok_app. split; [|exact B4]. constructor; [exact Bv|]. apply bytes_ok_app. split; [exact B|]. destruct f; [|constructor]. constructor; [split; lia|constructor].
  - unfold len. rewrite app_length, L4. unfold pl. cbn [length]. rewrite app_length, L. destruct f; reflexivity.
Qed.
Lemma is_wif_spec d : bytes_ok d -> is_wif hash d = true <-> exists version s f, byte_ok version /\ secret_ok s /\ d = wif_bytes hash version s f.
Proof.
  intros B. unfold is_wif. pose proof (C56_checksum hash hash_ok d B) as CK. split.
  - destruct (negb (len d =? 38) && negb (len d =? 37)) eqn:L; [discriminate|]. destruct (verify_checksum hash d); [|discriminate]. cbn [negb]. intros S.
    destruct (proj1 CK eq_refl) as (x & _ & E). destruct (hash4b x) as [B4 L4].
    assert (LX : len d = len x + 4) by (rewrite E, len_app; unfold len; lia).
    assert (BX : bytes_ok x) by (rewrite E in B; apply bytes_ok_app in B; tauto).
    destruct x as [|v x]; [change (len (@nil Z)) with 0 in LX; lia|]. rewrite len_cons in LX. inversion BX as [|? ? Bv Bx]; subst.
    set (x0 := x) in *. exists v, (firstn 32 x).
    assert (LS : length (firstn 32 x) = 32%nat) by (rewrite firstn_length; unfold len, x0 in *; lia).
    exists (len ((v :: x0) ++ firstn 4 (hash (v :: x0))) =? 38). split; [exact Bv|]. split; [split; [exact LS|apply bytes_ok_firstn, Bx]|].
    set (d := (v :: x0) ++ firstn 4 (hash (v :: x0))) in *. unfold wif_bytes. cbv zeta.
    assert (X : firstn 32 x ++ (if len d =? 38 then [1] else []) = x0).
    { destruct (Z.eqb_spec (len d) 38) as [E38|N38].
      - rewrite E38 in S. cbn [Z.eqb Pos.eqb orb] in S. unfold d in S. rewrite app_nth1 in S by (cbn [length]; unfold len, x0 in *; lia). cbn [nth] in S.
        assert (skipn 32 x = [1]) as <-; [|apply firstn_skipn]. assert (LK : length (skipn 32 x) = 1%nat) by (rewrite skipn_length; unfold len, x0 in *; lia).
        pose proof (firstn_skipn 32 x) as FS. unfold x0 in S. rewrite <- FS in S. rewrite app_nth2 in S by lia. rewrite LS in S. cbn [Nat.sub] in S.
        destruct (skipn 32 x) as [|y [|? ?]]; try discriminate. cbn [nth] in S. unfold compressed_sentinel in S. f_equal. lia.
      - rewrite app_nil_r. unfold x0. apply firstn_all2. unfold len, x0 in *. lia. }
    rewrite X. reflexivity.
  - intros (v & s & f & Bv & Os & E). destruct (wif_bytes_ok v s f Bv Os) as [_ L]. rewrite <- E in L.
    assert (V : verify_checksum hash d = true).
    { apply CK. exists (v :: s ++ (if f then [1] else [])). assert (E2 : d = (v :: s ++ (if f then [1] else [])) ++ firstn 4 (hash (v :: s ++ (if f then [1] else [])))) by exact E. split; [|exact E2].
      rewrite E2 at 1. unfold append_checksum, bitcoin_checksum. f_equal. destruct (hash4b (v :: s ++ (if f then [1] else []))) as [B4 L4]. symmetry. pose proof (le_bytes_value _ B4) as Q. rewrite L4 in Q. exact Q. }
    rewrite V, L. destruct Os as [Ls _]. destruct f; [|reflexivity]. cbn [Z.eqb Pos.eqb negb andb orb]. rewrite E. unfold wif_bytes. cbv zeta. cbn [app nth].
    rewrite app_nth1 by (rewrite app_length, Ls; cbn [length]; lia). rewrite app_nth2 by lia. rewrite Ls. reflexivity.
Qed.
Lemma from_wif_spec v s f address : byte_ok v -> secret_ok s -> byte_ok address ->
  from_wif hash (wif_bytes hash v s f) address (len (wif_bytes hash v s f) =? 38) = mkecprv s f (v * 256 + address).
Proof.
  intros Bv Os Ba. unfold from_wif. destruct (wif_bytes_ok v s f Bv Os) as [B L]. rewrite (proj2 (is_wif_spec _ B)) by (exists v, s, f; auto). rewrite L. unfold private_from_secret.
  replace (hd 0 (wif_bytes hash v s f)) with v by reflexivity. rewrite (proj1 (versions_ok address v Ba Bv)).
  replace (firstn 32 (skipn 1 (wif_bytes hash v s f))) with s; [destruct f; reflexivity|]. unfold wif_bytes. cbv zeta. cbn [app skipn]. rewrite <- app_assoc. destruct Os as [Ls _].
  rewrite firstn_app, Ls, Nat.sub_diag, firstn_O, app_nil_r. symmetry. apply firstn_all2. lia.
Qed.

Lemma inserted p : insert_checksum hash 4 (p ++ repeat 0 4) = p ++ firstn 4 (hash p).
Proof. unfold insert_checksum. rewrite app_length. change (length (repeat 0 4)) with 4%nat. rewrite Nat.add_sub, firstn_app, Nat.sub_diag, firstn_all, firstn_O, app_nil_r. reflexivity. Qed.
(** The text of a key is Base58 of the format, and reads back as that key. *)
Theorem C73_wif s wif address f : secret_ok s -> byte_ok wif -> byte_ok address ->
  let key := private_from_secret s (to_versions address wif) f in
  wif_encoded hash key = encode_base58 (wif_bytes hash wif s f) /\
  private_from_wif hash (wif_encoded hash key) address = key.
Proof.
  intros Os Bw Ba. cbv zeta. assert (E : wif_encoded hash (private_from_secret s (to_versions address wif) f) = encode_base58 (wif_bytes hash wif s f)).
  { unfold wif_encoded, private_from_secret. cbn [e_versions e_compress e_secret]. rewrite (proj1 (proj2 (versions_ok address wif Ba Bw))). unfold wif_bytes. cbv zeta. destruct f.
    - change ([wif] ++ s ++ [compressed_sentinel] ++ repeat 0 4) with ([wif] ++ (s ++ [1] ++ repeat 0 4)). rewrite (app_assoc s [1]), app_assoc, inserted. reflexivity.
    - rewrite app_assoc, inserted, app_nil_r. reflexivity. }
  split; [exact E|]. rewrite E. unfold private_from_wif. destruct (wif_bytes_ok wif s f Bw Os) as [B L]. rewrite C38_round_trip by exact B.
  rewrite (proj2 (is_wif_spec _ B)) by (exists wif, s, f; auto). rewrite from_wif_spec by assumption. unfold private_from_secret. rewrite (proj1 (versions_ok address wif Ba Bw)). reflexivity.
Qed.
(** Parsing accepts exactly those texts; any other text is the null key. *)
Theorem C73_accepts text address : byte_ok address ->
  (exists wif s f, byte_ok wif /\ secret_ok s /\ text = encode_base58 (wif_bytes hash wif s f) /\ private_from_wif hash text address = mkecprv s f (wif * 256 + address)) \/
  ((forall wif s f, byte_ok wif -> secret_ok s -> text <> encode_base58 (wif_bytes hash wif s f)) /\ private_from_wif hash text address = mkecprv null32 true 0).
Proof.
  intros Ba. unfold private_from_wif. destruct (decode_base58 text) as [d|] eqn:D.
  - pose proof (C38_text_round_trip _ _ D) as [B E]. destruct (is_wif hash d) eqn:W.
    + left. apply is_wif_spec in W; [|exact B]. destruct W as (v & s & f & Bv & Os & ->). exists v, s, f. split; [exact Bv|]. split; [exact Os|]. split; [symmetry; exact E|]. apply from_wif_spec; assumption.
    + right. split; [|reflexivity]. intros v s f Bv Os X. destruct (wif_bytes_ok v s f Bv Os) as [B2 _]. rewrite X, C38_round_trip in D by exact B2. assert (X2 : d = wif_bytes hash v s f) by congruence.
      rewrite (proj2 (is_wif_spec _ B)) in W by (exists v, s, f; auto). discriminate.
  - right. split; [|reflexivity]. intros v s f Bv Os X. subst text. destruct (wif_bytes_ok v s f Bv Os) as [B2 _]. rewrite C38_round_trip in D by exact B2. discriminate.
Qed.
(** A text whose secret is not below the group order is a key that tests as
    valid and has no public key. *)
Theorem C73_range_refuted (c : curve65) wif address f : byte_ok wif -> byte_ok address ->
  let s := be_bytes 32 order in let key := private_from_wif hash (encode_base58 (wif_bytes hash wif s f)) address in
  verify_secret s = false /\ scalar_bool (e_secret key) = true /\ e_secret key = s /\ ecprv_to_public c key = no_ecpub.
Proof.
  intros Bw Ba. cbv zeta. assert (Os : secret_ok (be_bytes 32 order)) by (split; [apply be_bytes_length|apply be_bytes_ok]).
  destruct (C73_accepts (encode_base58 (wif_bytes hash wif (be_bytes 32 order) f)) address Ba) as [(w & s & g & Bw2 & Os2 & E & ->)|[N _]]; [|exfalso; apply (N wif (be_bytes 32 order) f Bw Os); reflexivity].
  destruct (wif_bytes_ok wif (be_bytes 32 order) f Bw Os) as [B1 L1]. destruct (wif_bytes_ok w s g Bw2 Os2) as [B2 L2].
  assert (E2 : wif_bytes hash wif (be_bytes 32 order) f = wif_bytes hash w s g).
  { pose proof (C38_round_trip _ B1) as R1. rewrite E, C38_round_trip in R1 by exact B2. congruence. }
  assert (Es : be_bytes 32 order = s).
  { pose proof (f_equal (fun l => firstn 32 (skipn 1 l)) E2) as F. unfold wif_bytes in F. cbv zeta in F. rewrite <- !app_comm_cons in F. change (skipn 1 (?a :: ?l)) with l in F.
    rewrite <- !app_assoc in F. cbn [skipn] in F. rewrite !firstn_app in F. destruct Os as [Lo _], Os2 as [Ls _]. rewrite Lo, Ls, Nat.sub_diag, !firstn_O, !app_nil_r in F. rewrite !firstn_all2 in F by lia. exact F. }
  cbn [e_secret]. rewrite <- Es. assert (V : verify_secret (be_bytes 32 order) = false) by (vm_compute; reflexivity). split; [exact V|]. split; [vm_compute; reflexivity|]. split; [reflexivity|].
  unfold ecprv_to_public, secret_to_public. cbn [e_secret]. rewrite V. destruct (negb _); reflexivity.
Qed.
(** A key made from a scalar or from entropy has the WIF version zero, not the
    network's: its text is not the wallet import format of the network. *)
Theorem C73_version_refuted c hmac s entropy address : byte_ok address ->
  to_wif_version (e_versions (private_from_scalar s address)) = 0 /\
  to_wif_version (e_versions (private_from_seed c hmac entropy address)) = 0.
Proof.
  intros B. unfold byte_ok in B. assert (E : to_wif_version address = 0) by (unfold to_wif_version; rewrite Z.div_small by lia; reflexivity). split; [exact E|].
  unfold private_from_seed. cbv zeta. destruct (p_valid _); [exact E|reflexivity].
Qed.
End Wif.

Section Public.
Variable c : curve65.
Hypothesis C : curve65_ok c.
(** The serialization of the point k*G. *)
Definition serialization (k : Z) (compressed : bool) : list Z := if compressed then mulG (c33 c) k else mulU c k.
Definition public_of (k : Z) (compressed : bool) : ecpub := mkecpub (mulG (c33 c) k) compressed.

Lemma p33 k : 0 < k < order -> length (mulG (c33 c) k) = 33%nat /\ bytes_ok (mulG (c33 c) k) /\ (hd 0 (mulG (c33 c) k) = 2 \/ hd 0 (mulG (c33 c) k) = 3) /\ dlog (c33 c) (mulG (c33 c) k) = Some k.
Proof. intros R. destruct C as [[A _] _]. exact (A k R). Qed.
Lemma p65 k : 0 < k < order -> length (mulU c k) = 65%nat /\ bytes_ok (mulU c k) /\ hd 0 (mulU c k) = 4 /\ udlog c (mulU c k) = Some k.
Proof. intros R. destruct C as (_ & A & _). exact (A k R). Qed.
Lemma valid33 k : 0 < k < order -> point_bool (mulG (c33 c) k) = true.
Proof. intros R. destruct (p33 k R) as (_ & _ & H & _). unfold point_bool. destruct H as [-> | ->]; reflexivity. Qed.
Lemma ser_bytes k f : 0 < k < order -> bytes_ok (serialization k f).
Proof. intros R. destruct f; [apply (p33 k R)|apply (p65 k R)]. Qed.

(** The secret's public key serializes to the point of the secret, compressed or
    not as the key says, in bytes and in text, and both read back. *)
Theorem C73_public k f versions : 0 < k < order ->
  let key := ecprv_to_public c (mkecprv (be_bytes 32 k) f versions) in
  key = public_of k f /\ ecpub_to_data c key = Some (serialization k f) /\
  ecpub_encoded c key = Some (encode_base16 (serialization k f)) /\
  ecpub_from_data c (serialization k f) = key /\ ecpub_from_string c (encode_base16 (serialization k f)) = key.
Proof.
  intros R. cbv zeta. destruct (p33 k R) as (L3 & B3 & H3 & D3). destruct (p65 k R) as (L6 & B6 & H6 & D6). pose proof (valid33 k R) as V3.
  assert (E : ecprv_to_public c (mkecprv (be_bytes 32 k) f versions) = public_of k f).
  { unfold ecprv_to_public, secret_to_public. cbn [e_secret e_compress]. rewrite verify_key by exact R. rewrite secret_value by lia.
    assert (S : scalar_bool (be_bytes 32 k) = true); [|rewrite S; reflexivity]. unfold scalar_bool, list_eqb. destruct (list_eq_dec Z.eq_dec _ _) as [Q|]; [|reflexivity].
    exfalso. pose proof (secret_value k ltac:(lia)) as S. rewrite Q in S. vm_compute in S. lia. }
  rewrite E. split; [reflexivity|].
  assert (FD : ecpub_from_data c (serialization k f) = public_of k f).
  { unfold ecpub_from_data, is_public_key, is_compressed_key, is_uncompressed_key, compress, serialization, public_of. destruct f.
    - unfold len. rewrite L3. replace ((hd 0 (mulG (c33 c) k) =? 2) || (hd 0 (mulG (c33 c) k) =? 3)) with true by (destruct H3 as [-> | ->]; reflexivity). reflexivity.
    - unfold len. rewrite L6, H6, D6. reflexivity. }
  assert (TU : ecpub_to_uncompressed c (public_of k f) = Some (mulU c k)).
  { unfold ecpub_to_uncompressed, decompress, public_of. cbn [k_point]. rewrite V3, D3. reflexivity. }
  split; [unfold ecpub_to_data, public_of in *; cbn [k_point k_compress] in *; rewrite V3; cbn [negb]; destruct f; [reflexivity|exact TU]|].
  split; [unfold ecpub_encoded; rewrite TU; unfold public_of; cbn [k_compress k_point]; destruct f; reflexivity|]. split; [exact FD|].
  unfold ecpub_from_string. rewrite C37_round_trip by (apply ser_bytes, R). exact FD.
Qed.
(** The address of a key is Base58Check of the hash of the serialized point. *)
Theorem C73_address short_hash hash k f wif address : 0 < k < order -> byte_ok wif -> byte_ok address -> (forall x, len (short_hash x) = 20) ->
  ecprv_address c short_hash hash (mkecprv (be_bytes 32 k) f (to_versions address wif)) = Some (base58check hash address (short_hash (serialization k f))).
Proof.
  intros R Bw Ba S. destruct (C73_public k f (to_versions address wif) R) as (E & T & _). unfold ecprv_address. cbn [e_secret e_versions].
  rewrite (proj2 (proj2 (versions_ok address wif Ba Bw))). rewrite E in *.
  assert (S1 : scalar_bool (be_bytes 32 k) = true).
  { unfold scalar_bool, list_eqb. destruct (list_eq_dec Z.eq_dec _ _) as [Q|]; [|reflexivity]. exfalso. pose proof (secret_value k ltac:(lia)) as X. rewrite Q in X. vm_compute in X. lia. }
  rewrite S1. cbn [negb]. unfold ecpub_address. unfold public_of at 1. cbn [k_point]. rewrite valid33 by exact R. cbn [negb]. rewrite T. f_equal. unfold payment_of, checked_from, insert_checksum, base58check. cbv zeta.
  pose proof (S (serialization k f)) as L. set (h := short_hash (serialization k f)) in *.
  assert (LL : (length ([address] ++ h ++ repeat 0%Z 4) - 4)%nat = length (address :: h)) by (rewrite !app_length; cbn [length repeat]; lia).
  rewrite LL. change ([address] ++ h ++ repeat 0 4) with ((address :: h) ++ repeat 0 4). rewrite firstn_app, Nat.sub_diag, firstn_all. cbn [firstn app]. rewrite app_nil_r. reflexivity.
Qed.
(** What bytes are accepted: any 33 bytes that begin with 2 or 3, and the
    uncompressed serializations of points. *)
Theorem C73_public_accepts d : bytes_ok d ->
  point_bool (k_point (ecpub_from_data c d)) = true <->
  (len d = 33 /\ (hd 0 d = 2 \/ hd 0 d = 3)) \/ (exists k, 0 < k < order /\ d = mulU c k).
Proof.
  intros B. unfold ecpub_from_data, is_public_key, is_compressed_key, is_uncompressed_key. split.
  - destruct (Z.eqb_spec (len d) 33) as [L3|N3]; cbn [andb].
    + destruct ((hd 0 d =? 2) || (hd 0 d =? 3)) eqn:H; cbn [orb negb]; [intros _; left; lia|]. rewrite L3. cbn. discriminate.
    + destruct (Z.eqb_spec (len d) 65) as [L6|N6]; cbn [andb orb negb]; [|discriminate]. destruct (Z.eqb_spec (hd 0 d) 4) as [H4|]; cbn [negb]; [|discriminate].
      unfold compress. destruct (udlog c d) as [k|] eqn:U; [|discriminate]. intros _. right. exists k. destruct C as (_ & _ & A). destruct (A d k U) as [R E]. split; [exact R|]. symmetry. apply E, H4.
  - intros [[L H]|(k & R & ->)].
    + rewrite L. replace ((hd 0 d =? 2) || (hd 0 d =? 3)) with true by (destruct H as [-> | ->]; reflexivity). cbn. unfold point_bool. destruct H as [-> | ->]; reflexivity.
    + destruct (p65 k R) as (L6 & _ & H6 & D6). unfold len. rewrite L6, H6. cbn [Z.eqb Pos.eqb Z.of_nat Pos.of_succ_nat Pos.succ andb orb negb]. unfold compress. rewrite D6. cbn [k_point]. apply valid33, R.
Qed.
(** So 33 bytes that are no point are a valid public key, whose text and data
    round trip but which has no uncompressed form. *)
Theorem C73_point_refuted d : bytes_ok d -> len d = 33 -> hd 0 d = 2 \/ hd 0 d = 3 -> dlog (c33 c) d = None ->
  let key := ecpub_from_data c d in point_bool (k_point key) = true /\ ecpub_to_data c key = Some d /\ ecpub_to_uncompressed c key = None.
Proof.
  intros B L H N. cbv zeta. assert (E : ecpub_from_data c d = mkecpub d true).
  { unfold ecpub_from_data, is_public_key, is_compressed_key. rewrite L. replace ((hd 0 d =? 2) || (hd 0 d =? 3)) with true by (destruct H as [-> | ->]; reflexivity). reflexivity. }
  rewrite E. assert (V : point_bool d = true) by (unfold point_bool; destruct H as [-> | ->]; reflexivity).
  unfold ecpub_to_data, ecpub_to_uncompressed, decompress. cbn [k_point k_compress]. rewrite V, N. auto.
Qed.
(** The text of an uncompressed key that is no point is not initialized. *)
Theorem C73_text_refuted p : dlog (c33 c) p = None -> ecpub_encoded c (mkecpub p false) = None.
Proof. intros N. unfold ecpub_encoded, ecpub_to_uncompressed, decompress. cbn [k_compress k_point]. rewrite N. destruct (point_bool p); reflexivity. Qed.
End Public.
Print Assumptions C73_wif.
Print Assumptions C73_accepts.
Print Assumptions C73_range_refuted.
Print Assumptions C73_version_refuted.
Print Assumptions C73_public.
Print Assumptions C73_address.
Print Assumptions C73_public_accepts.
Print Assumptions C73_point_refuted.
Print Assumptions C73_text_refuted.

(** * C74 *)
(** A scalar: 32 bytes, big-endian, below the group order. *)
Definition scalar_ok (s : list Z) : Prop := length s = 32%nat /\ bytes_ok s /\ be_value s < order.
Lemma scalar_range s : scalar_ok s -> 0 <= be_value s < order.
Proof. intros (_ & B & R). pose proof (be_value_range s B). lia. Qed.
Lemma null_ok : scalar_ok null32 /\ be_value null32 = 0.
Proof. split; [|reflexivity]. split; [reflexivity|]. split; [apply Forall_forall; intros z I; apply repeat_spec in I; subst z; split; lia|]. vm_compute. reflexivity. Qed.
Lemma order_pos : 0 < order. Proof. unfold order. lia. Qed.
Lemma to_secret_value v : scalar_ok (or_null (to_secret v)) /\ be_value (or_null (to_secret v)) = v mod order.
Proof.
  unfold to_secret. pose proof (Z.mod_pos_bound v order order_pos) as R. destruct (Z.eqb_spec (v mod order) 0) as [E|N]; cbn [or_null].
  - rewrite E. exact null_ok.
  - rewrite secret_value by lia. split; [|reflexivity]. split; [apply be_bytes_length|]. split; [apply be_bytes_ok|]. rewrite secret_value by lia. lia.
Qed.
Lemma verified s : scalar_ok s -> verify_secret s = negb (be_value s =? 0).
Proof. intros O. pose proof (scalar_range s O). unfold verify_secret. destruct (Z.eqb_spec (be_value s) 0) as [->|]; [reflexivity|]. cbn [negb]. apply andb_true_iff. lia. Qed.
Lemma null_value s : scalar_ok s -> be_value s = 0 -> s = null32.
Proof. intros (L & B & _) E. rewrite <- (secret_bytes s L B), E. reflexivity. Qed.

(** Scalar arithmetic is arithmetic modulo the group order, except for a sum or
    a difference whose left operand is zero. *)
Theorem C74_scalars_partial x y : scalar_ok x -> scalar_ok y ->
  (scalar_ok (scalar_neg x) /\ be_value (scalar_neg x) = (- be_value x) mod order) /\
  (scalar_ok (scalar_mul x y) /\ be_value (scalar_mul x y) = (be_value x * be_value y) mod order) /\
  (be_value x <> 0 ->
     (scalar_ok (scalar_add x y) /\ be_value (scalar_add x y) = (be_value x + be_value y) mod order) /\
     (scalar_ok (scalar_sub x y) /\ be_value (scalar_sub x y) = (be_value x - be_value y) mod order)).
Proof.
  intros Ox Oy. assert (NEG : forall z, scalar_ok z -> scalar_ok (scalar_neg z) /\ be_value (scalar_neg z) = (- be_value z) mod order).
  { intros z Oz. unfold scalar_neg, secret_neg. rewrite verified by exact Oz. destruct (Z.eqb_spec (be_value z) 0) as [->|N]; cbn [negb]; [exact null_ok|apply to_secret_value]. }
  assert (ADD : forall z, be_value x <> 0 -> scalar_ok z -> scalar_ok (scalar_add x z) /\ be_value (scalar_add x z) = (be_value x + be_value z) mod order).
  { intros z N Oz. unfold scalar_add, secret_add. rewrite verified by exact Ox. rewrite (proj2 (Z.eqb_neq _ _)) by exact N. pose proof (scalar_range z Oz). rewrite (proj2 (Z.ltb_lt _ _)) by lia. cbn [negb andb]. apply to_secret_value. }
  split; [apply NEG, Ox|]. split.
  - unfold scalar_mul, secret_mul. rewrite !verified by assumption. destruct (Z.eqb_spec (be_value x) 0) as [->|N]; cbn [negb andb]; [exact null_ok|].
    destruct (Z.eqb_spec (be_value y) 0) as [->|N2]; cbn [negb andb]; [rewrite Z.mul_0_r; exact null_ok|apply to_secret_value].
  - intros N. split; [apply ADD; assumption|]. destruct (NEG y Oy) as [On En]. unfold scalar_sub. destruct (ADD (scalar_neg y) N On) as [Oa Ea]. split; [exact Oa|]. rewrite Ea, En. rewrite Z.add_mod_idemp_r by (pose proof order_pos; lia). reflexivity.
Qed.
(** Zero plus y is zero, not y; and zero minus y is zero, not -y. *)
Theorem C74_zero_refuted y : scalar_ok y -> be_value y <> 0 ->
  scalar_add null32 y = null32 /\ scalar_add y null32 = y /\ scalar_add null32 y <> scalar_add y null32 /\ scalar_sub null32 y = null32 /\ scalar_neg y <> null32.
Proof.
  intros O N. assert (A : forall z, scalar_add null32 z = null32) by (intros z; unfold scalar_add, secret_add; replace (verify_secret null32) with false by reflexivity; reflexivity).
  assert (B : scalar_add y null32 = y).
  { destruct (C74_scalars_partial y null32 O (proj1 null_ok)) as (_ & _ & H). destruct (H N) as [[Oa Ea] _]. rewrite (proj2 null_ok), Z.add_0_r, Z.mod_small in Ea by apply (scalar_range y O).
    destruct Oa as (La & Ba & _), O as (L & Bb & _). rewrite <- (secret_bytes _ La Ba), Ea. apply secret_bytes; assumption. }
  assert (Y : y <> null32) by (intros ->; apply N; reflexivity).
  split; [apply A|]. split; [exact B|]. split; [rewrite A, B; congruence|]. split; [apply A|].
  destruct (C74_scalars_partial y null32 O (proj1 null_ok)) as ([On En] & _). intros E. rewrite E in En. change (be_value null32) with 0 in En. pose proof (scalar_range y O) as R.
  rewrite Z.mod_opp_l_nz in En; rewrite ?Z.mod_small by lia; lia.
Qed.
(** Scalars from signed integers. *)
Theorem C74_int64 v : - 2 ^ 63 < v < 2 ^ 63 -> exists s, scalar_of_int64 v = Some s /\ scalar_ok s /\ be_value s = v mod order.
Proof.
  intros R. unfold scalar_of_int64. destruct (Z.eqb_spec v 0) as [->|N]; [exists null32; split; [reflexivity|exact null_ok]|].
  rewrite (C49_absolute_exact i64 v); [|cbn; lia|reflexivity|unfold fits, imin, imax; cbn; lia|unfold imin; cbn; lia]. set (s := repeat 0 24 ++ be_bytes 8 (Z.abs v)).
  assert (VS : be_value s = Z.abs v).
  { unfold s. rewrite be_value_app. replace (be_value (repeat 0 24)) with 0 by reflexivity. rewrite Z.mul_0_l, Z.add_0_l. apply be_value_bytes_small. change (256 ^ Z.of_nat 8) with (2 ^ 64). lia. }
  assert (BO : 2 ^ 63 < order) by (unfold order; lia).
  assert (OS : scalar_ok s).
  { split; [unfold s; rewrite app_length, be_bytes_length; reflexivity|]. split; [|rewrite VS; lia]. unfold s. apply bytes_ok_app. split; [apply Forall_forall; intros z I; apply repeat_spec in I; subst z; split; lia|apply be_bytes_ok]. }
  destruct (Z.gtb_spec v 0).
  - exists s. split; [reflexivity|]. split; [exact OS|]. rewrite VS, Z.mod_small; lia.
  - destruct (C74_scalars_partial s s OS OS) as ([On En] & _). exists (scalar_neg s). split; [reflexivity|]. split; [exact On|]. rewrite En, VS. f_equal. lia.
Qed.

Section Points.
Variable c : curve.
Hypothesis C : curve_ok c.
(** k*G for k modulo the group order; the identity has no serialization. *)
Definition multiple (k : Z) : list Z := if k mod order =? 0 then repeat 0 33 else mulG c (k mod order).
Lemma to_point_multiple k : or_off (to_point c k) = multiple k.
Proof. unfold to_point, multiple. destruct (_ =? 0); reflexivity. Qed.
Lemma multiple_small k : 0 < k < order -> multiple k = mulG c k.
Proof. intros R. unfold multiple. rewrite Z.mod_small by lia. rewrite (proj2 (Z.eqb_neq _ _)) by lia. reflexivity. Qed.
Lemma point_true k : 0 < k < order -> point_bool (mulG c k) = true /\ dlog c (mulG c k) = Some k.
Proof. intros R. destruct C as [A _]. destruct (A k R) as (_ & _ & H & D). split; [|exact D]. unfold point_bool. destruct H as [-> | ->]; reflexivity. Qed.
Lemma multiple_mod k : multiple (k mod order) = multiple k.
Proof. unfold multiple. rewrite Z.mod_mod by (pose proof order_pos; lia). reflexivity. Qed.
Lemma point_add_spec a b : 0 < a < order -> 0 < b < order -> ec_point_add c (mulG c a) (mulG c b) = multiple (a + b).
Proof.
  intros Ra Rb. destruct (point_true a Ra) as [Va Da]. destruct (point_true b Rb) as [Vb Db]. unfold ec_point_add, point_add, point_sum. rewrite Va, Vb, Da, Db. cbn [andb]. apply to_point_multiple.
Qed.
Lemma point_neg_spec a : 0 < a < order -> ec_point_neg c (mulG c a) = multiple (- a) /\ multiple (- a) = mulG c (order - a).
Proof.
  intros Ra. destruct (point_true a Ra) as [Va Da]. unfold ec_point_neg, point_neg. rewrite Va, Da. split; [apply to_point_multiple|].
  rewrite <- multiple_mod, <- (Z.mod_add _ 1), multiple_mod by (pose proof order_pos; lia). rewrite multiple_small by lia. f_equal. lia.
Qed.

(** Point arithmetic on k*G is arithmetic on k modulo the group order. *)
Theorem C74_points a b s : 0 < a < order -> 0 < b < order -> scalar_ok s ->
  ec_point_neg c (multiple a) = multiple (- a) /\
  ec_point_add c (multiple a) (multiple b) = multiple (a + b) /\
  ec_point_sub c (multiple a) (multiple b) = multiple (a - b) /\
  ec_point_mul c (multiple a) s = multiple (a * be_value s).
Proof.
  intros Ra Rb Os. rewrite (multiple_small a Ra), (multiple_small b Rb). destruct (point_true a Ra) as [Va Da]. destruct (point_true b Rb) as [Vb Db]. destruct (point_neg_spec b Rb) as [Nb Nb2].
  split; [apply point_neg_spec, Ra|]. split; [apply point_add_spec; assumption|]. split.
  - unfold ec_point_sub. rewrite Va, Vb, Nb, Nb2. cbn [andb]. rewrite point_add_spec by lia. rewrite <- multiple_mod, <- (multiple_mod (a - b)). f_equal. replace (a + (order - b)) with (a - b + 1 * order) by lia. apply Z.mod_add. pose proof order_pos; lia.
  - unfold ec_point_mul, point_mul. rewrite Va, Da, verified by exact Os. unfold scalar_bool, list_eqb. destruct (list_eq_dec Z.eq_dec s null32) as [->|N]; cbn [negb andb].
    + change (be_value null32) with 0. rewrite Z.mul_0_r. reflexivity.
    + rewrite (proj2 (Z.eqb_neq _ _)); [cbn [negb]; apply to_point_multiple|]. intros E. apply N, null_value; assumption.
Qed.
(** Sums of any number of points, and tweaks by a scalar. *)
Theorem C74_sum ks : ks <> [] -> Forall (fun k => 0 < k < order) ks ->
  point_sum c (map (mulG c) ks) = (if fold_right Z.add 0 ks mod order =? 0 then None else Some (mulG c (fold_right Z.add 0 ks mod order))).
Proof.
  intros NE F. destruct ks as [|k0 ks0]; [contradiction|]. unfold point_sum. cbn [map].
  assert (G : forall l sum, Forall (fun k => 0 < k < order) l ->
    (fix go (l : list (list Z)) (sum : Z) : option (list Z) := match l with [] => to_point c sum | p :: l' => match dlog c p with Some k => go l' (sum + k) | None => None end end) (map (mulG c) l) sum
    = to_point c (sum + fold_right Z.add 0 l)).
  { induction l as [|k l IH]; intros sum Fl; cbn [map fold_right]; [rewrite Z.add_0_r; reflexivity|]. inversion Fl; subst. rewrite (proj2 (point_true k ltac:(assumption))). rewrite IH by assumption. f_equal. lia. }
  etransitivity; [exact (G (k0 :: ks0) 0 F)|]. reflexivity.
Qed.
(** The point of a sum of secrets is the sum of their points, and of a product
    the multiple. *)
Theorem C74_homomorphism x y : scalar_ok x -> scalar_ok y -> be_value x <> 0 -> be_value y <> 0 ->
  ec_point_add c (multiple (be_value x)) (multiple (be_value y)) = multiple (be_value (scalar_add x y)) /\
  point_tweak c (multiple (be_value x)) y = secret_to_public c (scalar_add x y) /\
  ec_point_mul c (multiple (be_value x)) y = multiple (be_value (scalar_mul x y)).
Proof.
  intros Ox Oy Nx Ny. pose proof (scalar_range x Ox). pose proof (scalar_range y Oy). destruct (C74_scalars_partial x y Ox Oy) as (_ & [Om Em] & A). destruct (A Nx) as [[Oa Ea] _].
  destruct (C74_points (be_value x) (be_value y) y ltac:(lia) ltac:(lia) Oy) as (_ & P & _ & M). split; [rewrite P, Ea, multiple_mod; reflexivity|]. split; [|rewrite M, Em, multiple_mod; reflexivity].
  rewrite multiple_small by lia. unfold point_tweak. rewrite (proj2 (point_true (be_value x) ltac:(lia))). rewrite (proj2 (Z.ltb_lt _ _)) by lia. unfold secret_to_public, to_point. rewrite verified by exact Oa. rewrite Ea. destruct (_ =? 0); reflexivity.
Qed.
(** There is no identity: adding the null point gives the null point. *)
Theorem C74_identity_refuted a : 0 < a < order -> multiple 0 = repeat 0 33 /\ ec_point_add c (multiple a) (multiple 0) = repeat 0 33 /\ ec_point_add c (multiple 0) (multiple a) = repeat 0 33.
Proof. intros R. split; [reflexivity|]. unfold ec_point_add. replace (point_bool (multiple 0)) with false by reflexivity. rewrite andb_false_r. split; reflexivity. Qed.
End Points.
Print Assumptions C74_scalars_partial.
Print Assumptions C74_zero_refuted.
Print Assumptions C74_int64.
Print Assumptions C74_points.
Print Assumptions C74_sum.
Print Assumptions C74_homomorphism.
Print Assumptions C74_identity_refuted.

(** The hypotheses are met: see also [toy_ok]. *)
Definition toy65 : curve65 := mkcurve65 toy (fun k => 4 :: be_bytes 64 k)
  (fun p => let k := be_value (tl p) in if (0 <? k) && (k <? order) && list_eqb (4 :: be_bytes 64 k) p then Some k else None).
Example toy65_ok : curve65_ok toy65.
Proof.
  split; [exact toy_ok|]. split.
  - intros k R. cbn [toy65 mulU udlog tl hd]. split; [cbn [length]; rewrite be_bytes_length; reflexivity|]. split; [constructor; [split; lia|apply be_bytes_ok]|]. split; [reflexivity|].
    rewrite be_value_bytes_small by (change (256 ^ Z.of_nat 64) with (2 ^ 512); pose proof order_range; lia). unfold list_eqb. destruct (list_eq_dec Z.eq_dec _ _) as [_|N]; [|congruence]. replace ((0 <? k) && (k <? order)) with true by (symmetry; apply andb_true_iff; lia). reflexivity.
  - intros p k. cbn [toy65 mulU udlog]. cbv zeta. unfold list_eqb. set (v := be_value (tl p)). destruct (list_eq_dec Z.eq_dec (4 :: be_bytes 64 v) p) as [E|]; [|rewrite andb_false_r; discriminate].
    rewrite andb_true_r. destruct ((0 <? v) && (v <? order)) eqn:Q; [|discriminate]. intros X. assert (v = k) as <- by congruence. split; [lia|]. intros _. exact E.
Qed.
Example C73_sat : secret_ok (be_bytes 32 77) /\ byte_ok 128 /\ byte_ok 0 /\ scalar_ok (be_bytes 32 77) /\
  (let d := 3 :: be_bytes 32 5 in bytes_ok d /\ len d = 33 /\ hd 0 d = 3 /\ dlog toy d = None).
Proof.
  split; [split; [reflexivity|apply be_bytes_ok]|]. split; [split; lia|]. split; [split; lia|]. split; [split; [reflexivity|split; [apply be_bytes_ok|vm_compute; reflexivity]]|].
  cbv zeta. split; [constructor; [split; lia|apply be_bytes_ok]|]. split; [reflexivity|]. split; [reflexivity|]. vm_compute. reflexivity.
Qed.
