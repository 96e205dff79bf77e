(** C72: hierarchical deterministic keys are those of BIP32. *)
From Coq Require Import String.
From Verif Require Import Base Bytes ShaModel ShaSpec AccModel AccProofs ShaProps RmdModel RmdSpec RmdProps KdfSpec KdfModel KdfProofs KdfProofs2 KdfProps.
From Verif Require Import RadixModel RadixSpec RadixProps AddressModel EcModel HdSpec HdModel HdProofs.

Lemma digest_bytes w h : bytes_ok (digest w h).
Proof. unfold digest, bytes_ok. apply Forall_flat_map. apply Forall_forall. intros v _. apply be_bytes_ok. Qed.
Lemma sha512_bytes x : bytes_ok (SHA512 x). Proof. apply digest_bytes. Qed.
Lemma sha256_bytes x : bytes_ok (SHA256 x). Proof. apply digest_bytes. Qed.
Lemma rmd160_bytes x : bytes_ok (RIPEMD160 x).
Proof. unfold RIPEMD160, le_digest, bytes_ok. apply Forall_flat_map. apply Forall_forall. intros v _. apply le_bytes_ok. Qed.

(** The functions of the specification. *)
Definition HMAC512 : list Z -> list Z -> list Z := HMAC SHA512 128.
Definition H160 (x : list Z) : list Z := RIPEMD160 (SHA256 x).
Definition H256 (x : list Z) : list Z := SHA256 (SHA256 x).

Section Library.
Variables (checked s8 : bool) (widths : list nat).
(** The functions of the library. *)
Definition lib_hmac (data key : list Z) : list Z := hmac_code (sha_algorithm sha512 s8 widths) checked data key.
Definition lib_short (data : list Z) : list Z := bitcoin_short_hash checked s8 widths data.
Definition lib_hash (data : list Z) : list Z := bitcoin_hash checked s8 widths data.
Lemma lib_hmac_ok data key : len data < 2 ^ 32 -> len key < 2 ^ 32 -> lib_hmac data key = HMAC512 key data.
Proof.
  intros L1 L2. unfold lib_hmac, HMAC512. assert (M : 2 ^ 32 < max_data) by (vm_compute; reflexivity).
  pose proof (proj2 (C66_hmac _ _ _ _ (lib_sha512 s8 widths) checked key [data] ltac:(lia) ltac:(cbn [concat]; rewrite app_nil_r; lia))) as E.
  cbn [concat] in E. rewrite app_nil_r in E. exact E.
Qed.
Lemma hmac512_ok key data : length (HMAC512 key data) = 64%nat /\ bytes_ok (HMAC512 key data).
Proof. unfold HMAC512, HMAC. split; [apply (h_length _ _ _ (hashed_sha512 s8 widths))|apply sha512_bytes]. Qed.
Lemma lib_short_ok data : len data < 2 ^ 32 -> lib_short data = H160 data.
Proof.
  intros L. assert (M : 2 ^ 32 < max_message - 64) by (vm_compute; reflexivity).
  apply (C67_functions checked s8 widths data []). change (len (@nil Z)) with 0. lia.
Qed.
Lemma h160_ok data : length (H160 data) = 20%nat /\ bytes_ok (H160 data).
Proof. split; [apply (h_length _ _ _ hashed_rmd160)|apply rmd160_bytes]. Qed.
Lemma lib_hash_ok data : len data < 2 ^ 32 -> lib_hash data = H256 data.
Proof.
  intros L. assert (M : 2 ^ 32 < max_message - 64) by (vm_compute; reflexivity).
  apply (C67_functions checked s8 widths data []). change (len (@nil Z)) with 0. lia.
Qed.
Lemma h256_ok data : length (H256 data) = 32%nat /\ bytes_ok (H256 data).
Proof. split; [apply (h_length _ _ _ (hashed_sha256 s8 widths))|apply sha256_bytes]. Qed.

Variable c : curve.
Hypothesis C : curve_ok c.

(** The master key of a seed. *)
Theorem C72_master seed prefixes : len seed < 2 ^ 32 ->
  match master HMAC512 (chars "Bitcoin seed"%string) seed with
  | Some (k, chain) => private_from_entropy c lib_hmac seed prefixes = prv c k chain (mklineage prefixes 0 0 0) /\ key_ok k chain
  | None => p_valid (v_public (private_from_entropy c lib_hmac seed prefixes)) = false
  end.
Proof.
  intros L. unfold master, private_from_entropy. rewrite lib_hmac_ok by (exact L || (vm_compute; reflexivity)). set (I := HMAC512 _ seed). cbv zeta.
  destruct (hmac512_ok (chars "Bitcoin seed"%string) seed) as (LI & BI). fold I in LI, BI. unfold parse256, left32, right32, private_make, verify_secret.
  assert (B1 : bytes_ok (firstn 32 I)) by (apply bytes_ok_firstn, BI). assert (L1 : length (firstn 32 I) = 32%nat) by (rewrite firstn_length, LI; reflexivity).
  pose proof (be_value_range _ B1) as R. set (a := be_value (firstn 32 I)) in *.
  destruct ((a =? 0) || (a >=? order)) eqn:Q.
  - replace ((0 <? a) && (a <? order)) with false; [reflexivity|]. symmetry. apply andb_false_iff. apply orb_true_iff in Q. lia.
  - apply orb_false_iff in Q. replace ((0 <? a) && (a <? order)) with true by (symmetry; apply andb_true_iff; lia).
    assert (K : 0 < a < order) by lia. replace (firstn 32 I) with (be_bytes 32 a) by (apply secret_bytes; assumption). rewrite made by exact K. split; [reflexivity|].
    split; [exact K|]. split; [rewrite skipn_length, LI; reflexivity|apply bytes_ok_skipn, BI].
Qed.

(** Every private key object is invalid or is a BIP32 key: its secret, its public
    point and its chain code. *)
Inductive built : hdprv -> Prop :=
  | built_secret secret chain prefixes : length secret = 32%nat -> bytes_ok secret -> length chain = 32%nat -> bytes_ok chain -> 0 <= prefixes < 2 ^ 64 ->
      built (private_make c secret chain prefixes)
  | built_entropy seed prefixes : len seed < 2 ^ 32 -> 0 <= prefixes < 2 ^ 64 -> built (private_from_entropy c lib_hmac seed prefixes)
  | built_key key prefixes : length key = 82%nat -> bytes_ok key -> 0 <= prefixes < 2 ^ 64 -> built (private_from_key c key prefixes)
  | built_text text prefixes : 0 <= prefixes < 2 ^ 64 -> built (private_from_string c text prefixes)
  | built_child v i : built v -> 0 <= i < 2 ^ 32 -> built (derive_private c lib_hmac lib_short v i).
Definition invalid_key (v : hdprv) : Prop := v_public v = no_public /\ verify_secret (v_secret v) = false.
Lemma field_len from size key : (from + size <= length key)%nat -> length (field from size key) = size.
Proof. intros L. unfold field. rewrite firstn_length, skipn_length. lia. Qed.
Lemma field_bytes from size key : bytes_ok key -> bytes_ok (field from size key).
Proof. intros B. apply bytes_ok_firstn, bytes_ok_skipn, B. Qed.
Lemma no_private_invalid : invalid_key no_private. Proof. split; reflexivity. Qed.
Lemma private_of_built s chain l : length s = 32%nat -> bytes_ok s -> length chain = 32%nat -> bytes_ok chain -> lineage_ok l ->
  (exists k, key_ok k chain /\ private_of c s chain l = prv c k chain l) \/ invalid_key (private_of c s chain l).
Proof.
  intros L B L2 B2 Ol. destruct (verify_secret s) eqn:V.
  - left. exists (be_value s). unfold verify_secret in V. assert (K : 0 < be_value s < order) by lia. split; [split; [exact K|auto]|]. rewrite <- (secret_bytes s L B) at 1. apply made, K.
  - right. unfold private_of, public_from_secret, secret_to_public, invalid_key. rewrite V. cbn [v_public v_secret]. auto.
Qed.
Lemma from_key_built key prefixes : length key = 82%nat -> bytes_ok key -> 0 <= prefixes < 2 ^ 64 ->
  (exists k chain l, key_ok k chain /\ lineage_ok l /\ private_from_key c key prefixes = prv c k chain l) \/ invalid_key (private_from_key c key prefixes).
Proof.
  intros L B Rp. unfold private_from_key. destruct (negb _); [right; apply no_private_invalid|]. destruct (negb _); [right; apply no_private_invalid|].
  assert (R : forall from size, (from + size <= 82)%nat -> 0 <= be_value (field from size key) < 256 ^ Z.of_nat size).
  { intros from size H. pose proof (be_value_range _ (field_bytes from size key B)) as K. unfold len in K. rewrite field_len in K by lia. exact K. }
  assert (Ol : lineage_ok (mklineage prefixes (be_value (field 4 1 key)) (be_value (field 5 4 key)) (be_value (field 9 4 key)))).
  { split; [exact Rp|]. split; [apply (R 4%nat 1%nat); lia|]. split; [apply (R 5%nat 4%nat); lia|apply (R 9%nat 4%nat); lia]. }
  destruct (private_of_built (field 46 32 key) (field 13 32 key) _ (field_len 46 32 key ltac:(lia)) (field_bytes 46 32 key B) (field_len 13 32 key ltac:(lia)) (field_bytes 13 32 key B) Ol) as [(k & K & E)|I]; [left|right; exact I].
  exists k, (field 13 32 key). eexists. split; [exact K|]. split; [exact Ol|exact E].
Qed.
Theorem C72_objects v : built v ->
  (exists k chain l, key_ok k chain /\ lineage_ok l /\ v = prv c k chain l) \/ invalid_key v.
Proof.
  induction 1 as [secret chain prefixes L B L2 B2 Rp|seed prefixes L Rp|key prefixes L B Rp|text prefixes Rp|v i _ IH Hi].
  - unfold private_make. destruct (verify_secret secret) eqn:V; [|right; split; [reflexivity|exact V]]. unfold verify_secret in V. left.
    exists (be_value secret), chain, (mklineage prefixes 0 0 0). assert (K : 0 < be_value secret < order) by lia. split; [split; [exact K|auto]|]. split; [repeat split; cbn; lia|].
    rewrite <- (secret_bytes secret L B) at 1. rewrite made by exact K. cbn [prv v_public]. unfold prv. rewrite secret_bytes by assumption. reflexivity.
  - pose proof (C72_master seed prefixes L) as M. destruct (master _ _ _) as [[k chain]|] eqn:Em.
    + destruct M as [E K]. left. exists k, chain, (mklineage prefixes 0 0 0). split; [exact K|]. split; [repeat split; cbn; lia|exact E].
    + right. unfold private_from_entropy, private_make in *. cbv zeta in *. cbn [v_public] in M. destruct (verify_secret _) eqn:V; [|split; [reflexivity|exact V]].
      exfalso. unfold private_of, public_from_secret, secret_to_public in M. rewrite V in M. discriminate.
  - apply from_key_built; assumption.
  - unfold private_from_string. rewrite C38_array. destruct (decode_base58 text) as [key|] eqn:D; [|right; apply no_private_invalid].
    destruct (len key =? 82) eqn:L; [|right; apply no_private_invalid]. apply C38_text_round_trip in D as [B _]. apply from_key_built; [unfold len in L; lia|exact B|exact Rp].
  - destruct IH as [(k & chain & l & K & Ol & ->)|[E V]].
    + rewrite (derive_private_spec c C lib_hmac lib_short HMAC512 H160 lib_hmac_ok hmac512_ok lib_short_ok k chain l i K).
      destruct (CKDpriv c HMAC512 k chain i) as [[ki ci]|] eqn:Ec; [|right; apply no_private_invalid].
      destruct (l_depth l =? 255) eqn:D; [right; apply no_private_invalid|]. left. exists ki, ci, (next c H160 l k i).
      split; [eapply ckd_ok; [exact hmac512_ok|exact Ec]|]. split; [apply next_ok; [exact h160_ok|exact Ol|lia|exact Hi]|reflexivity].
    + right. unfold derive_private, secret_add. rewrite V. apply no_private_invalid.
Qed.

(** Child derivation is CKDpriv and CKDpub, with the lineage of BIP32; it fails
    exactly where BIP32's does, for hardened indexes of a public key, and at the
    depth limit. *)
Theorem C72_derive_private k chain l i : key_ok k chain ->
  derive_private c lib_hmac lib_short (prv c k chain l) i =
  match CKDpriv c HMAC512 k chain i with
  | Some (ki, ci) => if l_depth l =? 255 then no_private
                     else prv c ki ci (mklineage (l_prefixes l) (l_depth l + 1) (fingerprint_of c H160 k) i)
  | None => no_private
  end.
Proof. apply (derive_private_spec c C lib_hmac lib_short HMAC512 H160 lib_hmac_ok hmac512_ok lib_short_ok). Qed.
Theorem C72_derive_public k chain l i : key_ok k chain ->
  derive_public c lib_hmac lib_short (pub c k chain l) i =
  match CKDpub c HMAC512 k chain i with
  | Some (ki, ci) => if l_depth l =? 255 then no_public
                     else pub c ki ci (mklineage (l_prefixes l) (l_depth l + 1) (fingerprint_of c H160 k) i)
  | None => no_public
  end.
Proof. apply (derive_public_spec c C lib_hmac lib_short HMAC512 H160 lib_hmac_ok hmac512_ok lib_short_ok). Qed.
(** A public key whose bytes are not a point has no children. *)
Theorem C72_not_a_point p i : dlog c (p_point p) = None -> derive_public c lib_hmac lib_short p i = no_public.
Proof. intros E. unfold derive_public, point_tweak. rewrite E. destruct (i >=? _); reflexivity. Qed.
(** The public key of a private key (BIP32 N). *)
Theorem C72_neuter k chain l : key_ok k chain -> lineage_ok l ->
  to_public lib_hash (prv c k chain l) = pub c k chain (mklineage (l_prefixes l mod 2 ^ 32) (l_depth l) (l_parent l) (l_child l)).
Proof. apply (to_public_spec c C lib_hash H256 lib_hash_ok). Qed.

(** Deriving publicly and privately agree along every non-hardened path. *)
Lemma off_curve : dlog c (repeat 0 33) = None.
Proof.
  destruct (dlog c (repeat 0 33)) as [k|] eqn:E; [|reflexivity]. exfalso. destruct C as [A B]. destruct (B _ _ E) as [R Em].
  destruct (A k R) as (_ & _ & [H2|H3] & _); [rewrite Em in H2; discriminate|rewrite Em in H3; discriminate].
Qed.
Lemma step_commutes v i : built v -> 0 <= i < 2 ^ 31 ->
  to_public lib_hash (derive_private c lib_hmac lib_short v i) = derive_public c lib_hmac lib_short (to_public lib_hash v) i.
Proof.
  intros Bv Hi. destruct (C72_objects v Bv) as [(k & chain & l & K & Ol & ->)|[E V]].
  - rewrite C72_derive_private by exact K. rewrite (C72_neuter k chain l K Ol), C72_derive_public by exact K. rewrite ckd_same by lia. cbn [l_depth l_prefixes].
    destruct (CKDpriv c HMAC512 k chain i) as [[ki ci]|] eqn:Ec; [|reflexivity]. destruct (l_depth l =? 255) eqn:D; [reflexivity|].
    rewrite C72_neuter; [reflexivity|eapply ckd_ok; [exact hmac512_ok|exact Ec]|]. apply next_ok; [exact h160_ok|exact Ol|lia|lia].
  - unfold derive_private, secret_add. rewrite V. unfold to_public. rewrite E. cbn [no_public p_valid negb no_private v_public]. symmetry. apply C72_not_a_point. exact off_curve.
Qed.
Theorem C72_path v path : built v -> Forall (fun i => 0 <= i < 2 ^ 31) path ->
  to_public lib_hash (fold_left (derive_private c lib_hmac lib_short) path v) =
  fold_left (derive_public c lib_hmac lib_short) path (to_public lib_hash v).
Proof.
  intros Bv F. revert v Bv. induction F as [|i path Hi F IH]; intros v Bv; [reflexivity|]. cbn [fold_left]. rewrite <- step_commutes by assumption. apply IH. apply built_child; [exact Bv|lia].
Qed.

(** The text form is Base58Check of BIP32's layout, and reads back. *)
Theorem C72_private_text k chain l : key_ok k chain -> lineage_ok l ->
  private_encoded lib_hash (prv c k chain l) =
    encode_base58 (serialized H256 (l_prefixes l / 2 ^ 32) (l_depth l) (l_parent l) (l_child l) chain ([0] ++ ser256 k)) /\
  private_from_string c (private_encoded lib_hash (prv c k chain l)) (l_prefixes l) = prv c k chain l.
Proof.
  intros K Ol. pose proof K as (R & Lc & Bc). assert (P : private_prefix (l_prefixes l) = l_prefixes l / 2 ^ 32).
  { unfold private_prefix. apply Z.mod_small. destruct Ol as (O1 & _). split; [apply Z.div_pos; lia|apply Z.div_lt_upper_bound; lia]. }
  unfold private_encoded. rewrite (private_key_spec c lib_hash H256 lib_hash_ok k chain l K). rewrite P. split; [reflexivity|]. unfold private_from_string.
  rewrite (serialized_bytes H256 h256_ok (l_prefixes l / 2 ^ 32) l chain ([0] ++ ser256 k) Ol Lc Bc).
  - rewrite serialized_shape, payload_lineage, <- P. apply (private_read c); assumption.
  - unfold ser256. rewrite app_length, be_bytes_length. reflexivity.
  - apply bytes_ok_app. split; [constructor; [split; lia|constructor]|apply be_bytes_ok].
Qed.
Theorem C72_public_text k chain l : key_ok k chain -> lineage_ok l -> l_prefixes l < 2 ^ 32 ->
  public_encoded lib_hash (pub c k chain l) =
    encode_base58 (serialized H256 (l_prefixes l) (l_depth l) (l_parent l) (l_child l) chain (serP c k)) /\
  public_from_string (public_encoded lib_hash (pub c k chain l)) (l_prefixes l) = pub c k chain l /\
  public_from_any_string (public_encoded lib_hash (pub c k chain l)) = pub c k chain l.
Proof.
  intros K Ol Lp. pose proof K as (R & Lc & Bc). destruct (point_facts c C k R) as (Pl & Pb & _). assert (P : public_prefix (l_prefixes l) = l_prefixes l) by (unfold public_prefix; apply Z.mod_small; destruct Ol as (O1 & _); lia).
  unfold public_encoded. rewrite (public_key_spec c C lib_hash H256 lib_hash_ok k chain l K). rewrite P. split; [reflexivity|]. unfold public_from_string, public_from_any_string.
  rewrite (serialized_bytes H256 h256_ok (l_prefixes l) l chain (serP c k) Ol Lc Bc Pl Pb). rewrite serialized_shape, payload_lineage. unfold serP in *.
  destruct (fields (l_prefixes l) l chain (mulG c k) (firstn 4 (H256 (payload (l_prefixes l) l chain (mulG c k)))) Lc Pl) as (E0 & _). rewrite E0, value4 by (destruct Ol as (O1 & _); lia).
  assert (G : public_from_key (payload (l_prefixes l) l chain (mulG c k) ++ firstn 4 (H256 (payload (l_prefixes l) l chain (mulG c k)))) (l_prefixes l) = pub c k chain l).
  { rewrite (public_read c C (l_prefixes l) l chain k _ K Ol) by (destruct Ol as (O1 & _); lia). destruct l; reflexivity. }
  split; exact G.
Qed.

(** The checksum of an extended key is not verified: any four bytes are accepted. *)
Theorem C72_checksum_refuted k chain l anything : key_ok k chain -> lineage_ok l -> length anything = 4%nat -> bytes_ok anything ->
  private_from_string c (encode_base58 (payload (l_prefixes l / 2 ^ 32) l chain ([0] ++ ser256 k) ++ anything)) (l_prefixes l) = prv c k chain l.
Proof.
  intros K Ol L4 B4. pose proof K as (R & Lc & Bc). assert (P : private_prefix (l_prefixes l) = l_prefixes l / 2 ^ 32).
  { unfold private_prefix. apply Z.mod_small. destruct Ol as (O1 & _). split; [apply Z.div_pos; lia|apply Z.div_lt_upper_bound; lia]. }
  assert (Lk : length ([0] ++ ser256 k) = 33%nat) by (unfold ser256; rewrite app_length, be_bytes_length; reflexivity).
  unfold private_from_string. rewrite C38_array, C38_round_trip.
  - rewrite (proj2 (Z.eqb_eq _ _)) by (unfold len; rewrite app_length, payload_len, L4 by assumption; reflexivity). rewrite <- P. apply (private_read c); assumption.
  - apply bytes_ok_app. split; [|exact B4]. apply payload_bytes; [exact Ol|exact Bc|]. apply bytes_ok_app. split; [constructor; [split; lia|constructor]|apply be_bytes_ok].
Qed.
(** An extended public key whose point is not on the curve is a valid object. *)
Theorem C72_point_refuted : exists text, let p := public_from_any_string text in p_valid p = true /\ dlog c (p_point p) = None.
Proof.
  exists (encode_base58 (serialized H256 76067358 0 0 0 (repeat 0 32) (repeat 0 33))). cbv zeta. unfold public_from_any_string.
  assert (Z0 : forall n, bytes_ok (repeat 0 n)) by (intros n; apply Forall_forall; intros z I; apply repeat_spec in I; subst z; split; lia).
  pose proof (serialized_bytes H256 h256_ok 76067358 (mklineage 0 0 0 0) (repeat 0 32) (repeat 0 33) ltac:(repeat split; cbn; lia) eq_refl (Z0 32%nat) eq_refl (Z0 33%nat)) as E.
  cbn [l_depth l_parent l_child] in E. rewrite E. rewrite serialized_shape.
  set (key := payload _ _ _ _ ++ _). pose proof (fields 76067358 (mklineage 0 0 0 0) (repeat 0 32) (repeat 0 33) (firstn 4 (H256 (payload 76067358 (mklineage 0 0 0 0) (repeat 0 32) (repeat 0 33)))) eq_refl eq_refl) as F.
  fold key in F. destruct F as (_ & _ & _ & _ & _ & E5).
  unfold public_from_key. rewrite Z.eqb_refl. cbn [negb p_valid p_point]. split; [reflexivity|]. rewrite E5. exact off_curve.
Qed.
(** Reading a key from a stream never assigns it: the valid text of a key throws. *)
Theorem C72_stream_refuted k chain l : key_ok k chain -> lineage_ok l ->
  private_stream_in no_private (private_encoded lib_hash (prv c k chain l)) = (no_private, true) /\
  public_stream_in no_public (public_encoded lib_hash (pub c k chain l)) = (no_public, true).
Proof. intros _ _. split; reflexivity. Qed.
End Library.
Print Assumptions C72_master.
Print Assumptions C72_objects.
Print Assumptions C72_derive_private.
Print Assumptions C72_derive_public.
Print Assumptions C72_not_a_point.
Print Assumptions C72_neuter.
Print Assumptions C72_path.
Print Assumptions C72_private_text.
Print Assumptions C72_public_text.
Print Assumptions C72_checksum_refuted.
Print Assumptions C72_point_refuted.
Print Assumptions C72_stream_refuted.

(** The hypotheses are met: the group Z/n itself is such a curve. *)
Definition toy : curve := mkcurve (fun k => 2 :: be_bytes 32 k)
  (fun p => let k := be_value (tl p) in if (0 <? k) && (k <? order) && list_eqb (2 :: be_bytes 32 k) p then Some k else None).
Example toy_ok : curve_ok toy.
Proof.
  split.
  - intros k R. cbn [toy mulG dlog tl hd]. split; [cbn [length]; rewrite be_bytes_length; reflexivity|]. split; [constructor; [split; lia|apply be_bytes_ok]|]. split; [left; reflexivity|].
    rewrite secret_value by lia. unfold list_eqb. destruct (list_eq_dec Z.eq_dec _ _) as [_|N]; [|congruence]. replace ((0 <? k) && (k <? order)) with true by (symmetry; apply andb_true_iff; lia). reflexivity.
  - intros p k. cbn [toy mulG dlog]. cbv zeta. unfold list_eqb. set (v := be_value (tl p)). destruct (list_eq_dec Z.eq_dec (2 :: be_bytes 32 v) p) as [E|]; [|rewrite andb_false_r; discriminate].
    rewrite andb_true_r. destruct ((0 <? v) && (v <? order)) eqn:Q; [|discriminate]. intros H. assert (v = k) as <- by congruence. split; [lia|exact E].
Qed.
Example C72_sat : key_ok 12345 (repeat 7 32) /\ lineage_ok (mklineage 326823837703303710 3 17 2147483649) /\
  built true false [] toy (private_make toy (be_bytes 32 12345) (repeat 7 32) 326823837703303710).
Proof.
  assert (B : bytes_ok (repeat 7 32)) by (apply Forall_forall; intros z I; apply repeat_spec in I; subst z; split; lia).
  split; [split; [unfold order; lia|split; [reflexivity|exact B]]|]. split; [repeat split; cbn; lia|].
  apply built_secret; [apply be_bytes_length|apply be_bytes_ok|reflexivity|exact B|lia].
Qed.
