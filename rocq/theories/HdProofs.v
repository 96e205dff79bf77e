(** BIP32 keys: the objects are the specification's keys. *)
From Coq Require Import String.
From Verif Require Import Base Bytes RadixModel RadixSpec RadixProps AddressModel EcModel HdSpec HdModel.

Lemma order_range : 2 ^ 255 < order < 2 ^ 256.
Proof. unfold order. lia. Qed.
Lemma secret_value k : 0 <= k < order -> be_value (be_bytes 32 k) = k.
Proof. intros R. apply be_value_bytes_small. change (256 ^ Z.of_nat 32) with (2 ^ 256). pose proof order_range. lia. Qed.
Lemma verify_key k : 0 < k < order -> verify_secret (be_bytes 32 k) = true.
Proof. intros R. unfold verify_secret. rewrite secret_value by lia. lia. Qed.
Lemma secret_bytes s : length s = 32%nat -> bytes_ok s -> be_bytes 32 (be_value s) = s.
Proof. intros L B. rewrite <- L. apply be_bytes_value, B. Qed.

Section Hd.
Variable c : curve.
Hypothesis C : curve_ok c.
Variables (hmac512 : list Z -> list Z -> list Z) (short_hash hash256 : list Z -> list Z).
Variables (HMAC_SHA512 : list Z -> list Z -> list Z) (HASH160 HASH256 : list Z -> list Z).
Hypothesis Hhmac : forall data key, len data < 2 ^ 32 -> len key < 2 ^ 32 -> hmac512 data key = HMAC_SHA512 key data.
Hypothesis Hhmac_ok : forall key data, length (HMAC_SHA512 key data) = 64%nat /\ bytes_ok (HMAC_SHA512 key data).
Hypothesis Hshort : forall data, len data < 2 ^ 32 -> short_hash data = HASH160 data.
Hypothesis Hshort_ok : forall data, length (HASH160 data) = 20%nat /\ bytes_ok (HASH160 data).
Hypothesis Hhash : forall data, len data < 2 ^ 32 -> hash256 data = HASH256 data.
Hypothesis Hhash_ok : forall data, length (HASH256 data) = 32%nat /\ bytes_ok (HASH256 data).

(** The objects. *)
Definition pub (k : Z) (chain : list Z) (l : lineage) : hdpub := mkhdpub true chain l (mulG c k).
Definition prv (k : Z) (chain : list Z) (l : lineage) : hdprv := mkhdprv (pub k chain l) (be_bytes 32 k).
Definition key_ok (k : Z) (chain : list Z) : Prop := 0 < k < order /\ length chain = 32%nat /\ bytes_ok chain.
Definition lineage_ok (l : lineage) : Prop :=
  0 <= l_prefixes l < 2 ^ 64 /\ 0 <= l_depth l < 256 /\ 0 <= l_parent l < 2 ^ 32 /\ 0 <= l_child l < 2 ^ 32.

Lemma point_facts k : 0 < k < order -> length (mulG c k) = 33%nat /\ bytes_ok (mulG c k) /\ dlog c (mulG c k) = Some k.
Proof using C. clear Hhmac Hhmac_ok Hshort Hshort_ok Hhash Hhash_ok. try clear hmac512. try clear HMAC_SHA512. try clear short_hash. try clear HASH160. try clear hash256. try clear HASH256. intros R. destruct C as [A _]. destruct (A k R) as (A1 & A2 & _ & A3). auto. Qed.
Lemma made k chain l : 0 < k < order -> private_of c (be_bytes 32 k) chain l = prv k chain l.
Proof using Type. clear C Hhmac Hhmac_ok Hshort Hshort_ok Hhash Hhash_ok. try clear hmac512. try clear HMAC_SHA512. try clear short_hash. try clear HASH160. try clear hash256. try clear HASH256. intros R. unfold private_of, public_from_secret, secret_to_public. rewrite verify_key by exact R. rewrite secret_value by lia. reflexivity. Qed.
Lemma of_bytes s chain l : length s = 32%nat -> bytes_ok s -> p_valid (v_public (private_of c s chain l)) = true ->
  0 < be_value s < order /\ private_of c s chain l = prv (be_value s) chain l.
Proof using Type. clear C Hhmac Hhmac_ok Hshort Hshort_ok Hhash Hhash_ok. try clear hmac512. try clear HMAC_SHA512. try clear short_hash. try clear HASH160. try clear hash256. try clear HASH256.
  intros L B. unfold private_of, public_from_secret, secret_to_public. destruct (verify_secret s) eqn:V; [|discriminate]. intros _. unfold verify_secret in V.
  split; [lia|]. unfold prv, pub. rewrite secret_bytes by assumption. reflexivity.
Qed.

(** ** Derivation *)
Definition next (l : lineage) (k i : Z) : lineage := mklineage (l_prefixes l) (l_depth l + 1) (fingerprint_of c HASH160 k) i.
Lemma fingerprint_spec k chain l : 0 < k < order -> fingerprint short_hash (pub k chain l) = fingerprint_of c HASH160 k.
Proof using C Hshort. clear Hhmac Hhmac_ok Hshort_ok Hhash Hhash_ok. try clear hmac512. try clear HMAC_SHA512. try clear short_hash. try clear HASH160. try clear hash256. try clear HASH256.
  intros R. unfold fingerprint, fingerprint_of, serP. cbn [pub p_point]. rewrite Hshort; [reflexivity|]. destruct (point_facts k R) as (L & _). unfold len. rewrite L. reflexivity.
Qed.
Lemma to_secret_ok a : 0 <= a < 2 ^ 256 -> forall k, to_secret (k + a) = (if (a + k) mod order =? 0 then None else Some (be_bytes 32 ((a + k) mod order))).
Proof using Type. clear C Hhmac Hhmac_ok Hshort Hshort_ok Hhash Hhash_ok. try clear hmac512. try clear HMAC_SHA512. try clear short_hash. try clear HASH160. try clear hash256. try clear HASH256. intros _ k. unfold to_secret. rewrite (Z.add_comm k a). reflexivity. Qed.
Lemma left_range key data : 0 <= be_value (firstn 32 (HMAC_SHA512 key data)) < 2 ^ 256.
Proof using Hhmac_ok. clear C Hhmac Hshort Hshort_ok Hhash Hhash_ok. try clear hmac512. try clear HMAC_SHA512. try clear short_hash. try clear HASH160. try clear hash256. try clear HASH256.
  destruct (Hhmac_ok key data) as (L & B). pose proof (be_value_range (firstn 32 (HMAC_SHA512 key data)) (bytes_ok_firstn _ _ B)) as R. unfold len in R. rewrite firstn_length, L in R. exact R.
Qed.
Lemma right_ok key data : length (skipn 32 (HMAC_SHA512 key data)) = 32%nat /\ bytes_ok (skipn 32 (HMAC_SHA512 key data)).
Proof using Hhmac_ok. clear C Hhmac Hshort Hshort_ok Hhash Hhash_ok. try clear hmac512. try clear HMAC_SHA512. try clear short_hash. try clear HASH160. try clear hash256. try clear HASH256. destruct (Hhmac_ok key data) as (L & B). split; [rewrite skipn_length, L; reflexivity|apply bytes_ok_skipn, B]. Qed.
Lemma small_data k chain i : key_ok k chain -> len (mulG c k ++ be_bytes 4 i) < 2 ^ 32 /\ len ([0] ++ be_bytes 32 k ++ be_bytes 4 i) < 2 ^ 32 /\ len chain < 2 ^ 32.
Proof using C. clear Hhmac Hhmac_ok Hshort Hshort_ok Hhash Hhash_ok. try clear hmac512. try clear HMAC_SHA512. try clear short_hash. try clear HASH160. try clear hash256. try clear HASH256.
  intros (R & L & _). destruct (point_facts k R) as (Lp & _). rewrite !len_app, !len_be_bytes. unfold len. rewrite Lp, L. cbn [length]. lia.
Qed.
Lemma derive_private_spec k chain l i : key_ok k chain ->
  derive_private c hmac512 short_hash (prv k chain l) i =
  match CKDpriv c HMAC_SHA512 k chain i with
  | Some (ki, ci) => if l_depth l =? 255 then no_private else prv ki ci (next l k i)
  | None => no_private
  end.
Proof using C Hhmac Hhmac_ok Hshort. clear Hshort_ok Hhash Hhash_ok. try clear hmac512. try clear HMAC_SHA512. try clear short_hash. try clear HASH160. try clear hash256. try clear HASH256.
  intros K. pose proof K as (R & Lc & Bc). destruct (small_data k chain i K) as (S1 & S2 & S3).
  unfold derive_private, CKDpriv. change (v_public (prv k chain l)) with (pub k chain l). change (v_secret (prv k chain l)) with (be_bytes 32 k).
  change (p_point (pub k chain l)) with (mulG c k). change (p_chain (pub k chain l)) with chain. change (p_lineage (pub k chain l)) with l. unfold hd_first_hardened_key, serP, ser256, ser32.
  rewrite fingerprint_spec by exact R. fold (next l k i).
  set (data := if i >=? 2 ^ 31 then [0] ++ be_bytes 32 k ++ be_bytes 4 i else mulG c k ++ be_bytes 4 i).
  replace (if i >=? 2 ^ 31 then HMAC_SHA512 chain ([0] ++ be_bytes 32 k ++ be_bytes 4 i) else HMAC_SHA512 chain (mulG c k ++ be_bytes 4 i)) with (HMAC_SHA512 chain data) by (subst data; destruct (i >=? 2 ^ 31); reflexivity).
  rewrite Hhmac by (assumption || (subst data; destruct (i >=? 2 ^ 31); assumption)).
  unfold left32, right32, parse256. pose proof (left_range chain data) as LR. set (a := be_value (firstn 32 (HMAC_SHA512 chain data))) in *.
  unfold secret_add. rewrite verify_key by exact R. fold a. rewrite secret_value by lia. cbn [andb]. rewrite to_secret_ok by exact LR.
  destruct (Z.ltb_spec a order); destruct (a >=? order) eqn:Q; try lia; cbn [orb]; [|reflexivity].
  destruct ((a + k) mod order =? 0) eqn:Z0; [reflexivity|]. destruct (l_depth l =? 255); [reflexivity|]. apply made.
  pose proof (Z.mod_pos_bound (a + k) order ltac:(unfold order; lia)). lia.
Qed.
Lemma derive_public_spec k chain l i : key_ok k chain ->
  derive_public c hmac512 short_hash (pub k chain l) i =
  match CKDpub c HMAC_SHA512 k chain i with
  | Some (ki, ci) => if l_depth l =? 255 then no_public else pub ki ci (next l k i)
  | None => no_public
  end.
Proof using C Hhmac Hhmac_ok Hshort. clear Hshort_ok Hhash Hhash_ok. try clear hmac512. try clear HMAC_SHA512. try clear short_hash. try clear HASH160. try clear hash256. try clear HASH256.
  intros K. pose proof K as (R & Lc & Bc). destruct (small_data k chain i K) as (S1 & S2 & S3).
  unfold derive_public, CKDpub. change (p_point (pub k chain l)) with (mulG c k). change (p_chain (pub k chain l)) with chain. change (p_lineage (pub k chain l)) with l. unfold hd_first_hardened_key, serP, ser32.
  destruct (i >=? 2 ^ 31); [reflexivity|]. rewrite fingerprint_spec by exact R. fold (next l k i). rewrite Hhmac by assumption. cbv zeta.
  unfold left32, right32, parse256. set (data := mulG c k ++ be_bytes 4 i). set (a := be_value (firstn 32 (HMAC_SHA512 chain data))).
  unfold point_tweak. destruct (point_facts k R) as (_ & _ & ->). fold a. unfold to_point. rewrite (Z.add_comm k a).
  destruct (Z.ltb_spec a order); destruct (a >=? order) eqn:Q; try lia; cbn [orb]; [|reflexivity].
  destruct ((a + k) mod order =? 0); reflexivity.
Qed.
Lemma ckd_ok k chain i ki ci : CKDpriv c HMAC_SHA512 k chain i = Some (ki, ci) -> key_ok ki ci.
Proof using Hhmac_ok. clear C Hhmac Hshort Hshort_ok Hhash Hhash_ok. try clear hmac512. try clear HMAC_SHA512. try clear short_hash. try clear HASH160. try clear hash256. try clear HASH256.
  unfold CKDpriv. replace (if i >=? 2 ^ 31 then _ else _) with (HMAC_SHA512 chain (if i >=? 2 ^ 31 then [0] ++ ser256 k ++ ser32 i else serP c k ++ ser32 i)) by (destruct (i >=? 2 ^ 31); reflexivity).
  set (I := HMAC_SHA512 chain _). destruct ((parse256 (left32 I) >=? order) || _) eqn:Q; [discriminate|]. intros E. injection E as <- <-. apply orb_false_iff in Q as [_ Q].
  pose proof (Z.mod_pos_bound (parse256 (left32 I) + k) order ltac:(unfold order; lia)). split; [lia|]. apply right_ok.
Qed.
Lemma ckd_same k chain i : i < 2 ^ 31 -> CKDpub c HMAC_SHA512 k chain i = CKDpriv c HMAC_SHA512 k chain i.
Proof using Type. clear C Hhmac Hhmac_ok Hshort Hshort_ok Hhash Hhash_ok. try clear hmac512. try clear HMAC_SHA512. try clear short_hash. try clear HASH160. try clear hash256. try clear HASH256. intros Hi. unfold CKDpub, CKDpriv. destruct (i >=? 2 ^ 31) eqn:Q; [lia|]. reflexivity. Qed.

(** ** Serialization *)
Definition payload (version : Z) (l : lineage) (chain key : list Z) : list Z :=
  be_bytes 4 version ++ [l_depth l] ++ be_bytes 4 (l_parent l) ++ be_bytes 4 (l_child l) ++ chain ++ key.
Lemma checked_payload_spec p : len p < 2 ^ 32 -> insert_checksum hash256 4 (p ++ repeat 0 4) = checked58 HASH256 p.
Proof using Hhash. clear C Hhmac Hhmac_ok Hshort Hshort_ok Hhash_ok. try clear hmac512. try clear HMAC_SHA512. try clear short_hash. try clear HASH160. try clear hash256. try clear HASH256.
  intros L. unfold insert_checksum, checked58. rewrite app_length. cbn [repeat length]. rewrite Nat.add_sub. rewrite firstn_app, Nat.sub_diag, firstn_all. cbn [firstn]. rewrite app_nil_r, Hhash by exact L. reflexivity.
Qed.
Lemma payload_len version l chain key : length chain = 32%nat -> length key = 33%nat -> length (payload version l chain key) = 78%nat.
Proof using Type. clear C Hhmac Hhmac_ok Hshort Hshort_ok Hhash Hhash_ok. try clear hmac512. try clear HMAC_SHA512. try clear short_hash. try clear HASH160. try clear hash256. try clear HASH256. intros L1 L2. unfold payload. rewrite !app_length, !be_bytes_length, L1, L2. reflexivity. Qed.
Lemma payload_bytes version l chain key : lineage_ok l -> bytes_ok chain -> bytes_ok key -> bytes_ok (payload version l chain key).
Proof using Type. clear C Hhmac Hhmac_ok Hshort Hshort_ok Hhash Hhash_ok. try clear hmac512. try clear HMAC_SHA512. try clear short_hash. try clear HASH160. try clear hash256. try clear HASH256.
  intros (_ & D & _) B1 B2. unfold payload. apply bytes_ok_app; split; [apply be_bytes_ok|]. apply bytes_ok_app; split; [constructor; [exact D|constructor]|]. apply bytes_ok_app; split; [apply be_bytes_ok|]. apply bytes_ok_app; split; [apply be_bytes_ok|]. apply bytes_ok_app; split; assumption.
Qed.
Lemma public_key_spec k chain l : key_ok k chain ->
  public_to_key hash256 (pub k chain l) = serialized HASH256 (public_prefix (l_prefixes l)) (l_depth l) (l_parent l) (l_child l) chain (serP c k).
Proof using C Hhash. clear Hhmac Hhmac_ok Hshort Hshort_ok Hhash_ok. try clear hmac512. try clear HMAC_SHA512. try clear short_hash. try clear HASH160. try clear hash256. try clear HASH256.
  intros (R & Lc & Bc). destruct (point_facts k R) as (Lp & _). unfold serialized. rewrite <- checked_payload_spec; [|change (len (payload (public_prefix (l_prefixes l)) l chain (serP c k)) < 2 ^ 32); unfold len; rewrite payload_len by assumption; reflexivity].
  unfold public_to_key. cbn [pub p_lineage p_chain p_point]. unfold ser32, serP. rewrite <- !app_assoc. reflexivity.
Qed.
Lemma private_key_spec k chain l : key_ok k chain ->
  private_to_key hash256 (prv k chain l) = serialized HASH256 (private_prefix (l_prefixes l)) (l_depth l) (l_parent l) (l_child l) chain ([0] ++ ser256 k).
Proof using Hhash. clear C Hhmac Hhmac_ok Hshort Hshort_ok Hhash_ok. try clear hmac512. try clear HMAC_SHA512. try clear short_hash. try clear HASH160. try clear hash256. try clear HASH256.
  intros (R & Lc & Bc). unfold serialized. rewrite <- checked_payload_spec; [|change (len (payload (private_prefix (l_prefixes l)) l chain ([0] ++ ser256 k)) < 2 ^ 32); unfold len; rewrite payload_len; [reflexivity|assumption|unfold ser256; rewrite app_length, be_bytes_length; reflexivity]].
  unfold private_to_key. cbn [prv pub v_public v_secret p_lineage p_chain p_point]. unfold ser32, ser256. rewrite <- !app_assoc. reflexivity.
Qed.
Lemma field_app (a m r : list Z) from size : length a = from -> length m = size -> field from size (a ++ m ++ r) = m.
Proof using Type. clear C Hhmac Hhmac_ok Hshort Hshort_ok Hhash Hhash_ok. try clear hmac512. try clear HMAC_SHA512. try clear short_hash. try clear HASH160. try clear hash256. try clear HASH256. intros <- <-. unfold field. rewrite skipn_app, Nat.sub_diag, skipn_all. cbn [skipn app]. rewrite firstn_app, Nat.sub_diag, firstn_all. cbn [firstn]. apply app_nil_r. Qed.
Lemma fields version l chain key tail : length chain = 32%nat -> length key = 33%nat ->
  let d := payload version l chain key ++ tail in
  field 0 4 d = be_bytes 4 version /\ field 4 1 d = [l_depth l] /\ field 5 4 d = be_bytes 4 (l_parent l) /\ field 9 4 d = be_bytes 4 (l_child l) /\
  field 13 32 d = chain /\ field 45 33 d = key.
Proof using Type. clear C Hhmac Hhmac_ok Hshort Hshort_ok Hhash Hhash_ok. try clear hmac512. try clear HMAC_SHA512. try clear short_hash. try clear HASH160. try clear hash256. try clear HASH256.
  intros L1 L2. cbv zeta. unfold payload. rewrite <- !app_assoc.
  split; [apply (field_app []); [reflexivity|apply be_bytes_length]|].
  split; [apply (field_app (be_bytes 4 version)); [apply be_bytes_length|reflexivity]|].
  split; [rewrite (app_assoc (be_bytes 4 version)); apply field_app; [rewrite app_length, be_bytes_length; reflexivity|apply be_bytes_length]|].
  split; [rewrite (app_assoc (be_bytes 4 version)), (app_assoc (be_bytes 4 version ++ _)); apply field_app; [rewrite !app_length, !be_bytes_length; reflexivity|apply be_bytes_length]|].
  split.
  - rewrite (app_assoc (be_bytes 4 version)), (app_assoc (be_bytes 4 version ++ _)), (app_assoc ((be_bytes 4 version ++ _) ++ _)). apply field_app; [rewrite !app_length, !be_bytes_length; reflexivity|exact L1].
  - rewrite (app_assoc (be_bytes 4 version)), (app_assoc (be_bytes 4 version ++ _)), (app_assoc ((be_bytes 4 version ++ _) ++ _)), (app_assoc (((be_bytes 4 version ++ _) ++ _) ++ _)).
    apply field_app; [rewrite !app_length, !be_bytes_length, L1; reflexivity|exact L2].
Qed.
Lemma value4 v : 0 <= v < 2 ^ 32 -> be_value (be_bytes 4 v) = v.
Proof using Type. clear C Hhmac Hhmac_ok Hshort Hshort_ok Hhash Hhash_ok. try clear hmac512. try clear HMAC_SHA512. try clear short_hash. try clear HASH160. try clear hash256. try clear HASH256. intros R. apply be_value_bytes_small. exact R. Qed.
Lemma public_read version l chain k tail : key_ok k chain -> lineage_ok l -> 0 <= version < 2 ^ 32 ->
  public_from_key (payload version l chain (mulG c k) ++ tail) version = pub k chain (mklineage version (l_depth l) (l_parent l) (l_child l)).
Proof using C. clear Hhmac Hhmac_ok Hshort Hshort_ok Hhash Hhash_ok. try clear hmac512. try clear HMAC_SHA512. try clear short_hash. try clear HASH160. try clear hash256. try clear HASH256.
  intros (R & Lc & Bc) (O1 & O2 & O3 & O4) Rv. destruct (point_facts k R) as (Lp & _). destruct (fields version l chain (mulG c k) tail Lc Lp) as (E1 & E2 & E3 & E4 & E5 & E6).
  unfold public_from_key. rewrite E1, E2, E3, E4, E5, E6. rewrite !value4 by assumption. rewrite Z.eqb_refl. cbn [negb].
  replace (be_value [l_depth l]) with (l_depth l) by (rewrite be_value_cons; cbn; lia). reflexivity.
Qed.
Lemma private_read l chain k tail : key_ok k chain -> lineage_ok l ->
  private_from_key c (payload (private_prefix (l_prefixes l)) l chain ([0] ++ be_bytes 32 k) ++ tail) (l_prefixes l) = prv k chain l.
Proof using Type. clear C Hhmac Hhmac_ok Hshort Hshort_ok Hhash Hhash_ok. try clear hmac512. try clear HMAC_SHA512. try clear short_hash. try clear HASH160. try clear hash256. try clear HASH256.
  intros (R & Lc & Bc) (O1 & O2 & O3 & O4). assert (Lk : length ([0] ++ be_bytes 32 k) = 33%nat) by (rewrite app_length, be_bytes_length; reflexivity).
  destruct (fields (private_prefix (l_prefixes l)) l chain _ tail Lc Lk) as (E1 & E2 & E3 & E4 & E5 & E6).
  unfold private_from_key. rewrite E1, E2, E3, E4, E5. rewrite !value4 by (assumption || (unfold private_prefix; apply Z.mod_pos_bound; lia)). rewrite Z.eqb_refl. cbn [negb].
  assert (F1 : field 45 1 (payload (private_prefix (l_prefixes l)) l chain ([0] ++ be_bytes 32 k) ++ tail) = [0]).
  { clear - Lc. unfold payload. rewrite <- !app_assoc. rewrite (app_assoc (be_bytes 4 _)), (app_assoc (be_bytes 4 _ ++ _)), (app_assoc ((be_bytes 4 _ ++ _) ++ _)), (app_assoc (((be_bytes 4 _ ++ _) ++ _) ++ _)).
    apply field_app; [rewrite !app_length, !be_bytes_length, Lc; reflexivity|reflexivity]. }
  assert (F2 : field 46 32 (payload (private_prefix (l_prefixes l)) l chain ([0] ++ be_bytes 32 k) ++ tail) = be_bytes 32 k).
  { clear - Lc. unfold payload. rewrite <- !app_assoc. rewrite (app_assoc (be_bytes 4 _)), (app_assoc (be_bytes 4 _ ++ _)), (app_assoc ((be_bytes 4 _ ++ _) ++ _)), (app_assoc (((be_bytes 4 _ ++ _) ++ _) ++ _)), (app_assoc ((((be_bytes 4 _ ++ _) ++ _) ++ _) ++ _)).
    apply field_app; [rewrite !app_length, !be_bytes_length, Lc; reflexivity|apply be_bytes_length]. }
  rewrite F1, F2. change (be_value [0] =? 0) with true. cbn [negb]. replace (be_value [l_depth l]) with (l_depth l) by (rewrite be_value_cons; cbn; lia).
  rewrite made by exact R. destruct l; reflexivity.
Qed.
Lemma serialized_shape version depth parent child chain key : serialized HASH256 version depth parent child chain key =
  payload version (mklineage 0 depth parent child) chain key ++ firstn 4 (HASH256 (payload version (mklineage 0 depth parent child) chain key)).
Proof using Type. clear C Hhmac Hhmac_ok Hshort Hshort_ok Hhash Hhash_ok. try clear hmac512. try clear HMAC_SHA512. try clear short_hash. try clear HASH160. try clear hash256. try clear HASH256. reflexivity. Qed.
Lemma payload_lineage version l chain key : payload version (mklineage 0 (l_depth l) (l_parent l) (l_child l)) chain key = payload version l chain key.
Proof using Type. clear C Hhmac Hhmac_ok Hshort Hshort_ok Hhash Hhash_ok. try clear hmac512. try clear HMAC_SHA512. try clear short_hash. try clear HASH160. try clear hash256. try clear HASH256. reflexivity. Qed.
Lemma to_public_spec k chain l : key_ok k chain -> lineage_ok l ->
  to_public hash256 (prv k chain l) = pub k chain (mklineage (public_prefix (l_prefixes l)) (l_depth l) (l_parent l) (l_child l)).
Proof using C Hhash. clear Hhmac Hhmac_ok Hshort Hshort_ok Hhash_ok. try clear hmac512. try clear HMAC_SHA512. try clear short_hash. try clear HASH160.
  intros K L. unfold to_public. change (v_public (prv k chain l)) with (pub k chain l). change (p_valid (pub k chain l)) with true. cbn [negb]. change (p_lineage (pub k chain l)) with l.
  rewrite public_key_spec by exact K. rewrite serialized_shape, payload_lineage. apply public_read; [exact K|exact L|]. unfold public_prefix. apply Z.mod_pos_bound. lia.
Qed.
Lemma fp_range k : 0 <= fingerprint_of c HASH160 k < 2 ^ 32.
Proof using Hshort_ok. clear C Hhmac Hhmac_ok Hshort Hhash Hhash_ok. try clear hmac512. try clear HMAC_SHA512. try clear short_hash. try clear HASH160. try clear hash256. try clear HASH256.
  unfold fingerprint_of. destruct (Hshort_ok (serP c k)) as (L & B). pose proof (be_value_range (firstn 4 (HASH160 (serP c k))) (bytes_ok_firstn _ _ B)) as R.
  unfold len in R. rewrite firstn_length, L in R. exact R.
Qed.
Lemma next_ok l k i : lineage_ok l -> l_depth l <> 255 -> 0 <= i < 2 ^ 32 -> lineage_ok (next l k i).
Proof using Hshort_ok. clear C Hhmac Hhmac_ok Hshort Hhash Hhash_ok. try clear hmac512. try clear HMAC_SHA512. try clear short_hash. try clear HASH160. try clear hash256. try clear HASH256. intros (O1 & O2 & _) D I. split; [exact O1|]. split; [cbn; lia|]. split; [apply fp_range|exact I]. Qed.
(** The encoded text decodes to the 82 bytes. *)
Lemma serialized_bytes version l chain key : lineage_ok l -> length chain = 32%nat -> bytes_ok chain -> length key = 33%nat -> bytes_ok key ->
  decode_base58_array 82 (encode_base58 (serialized HASH256 version (l_depth l) (l_parent l) (l_child l) chain key)) =
  Some (serialized HASH256 version (l_depth l) (l_parent l) (l_child l) chain key).
Proof using Hhash_ok. clear C Hhmac Hhmac_ok Hshort Hshort_ok Hhash. try clear hmac512. try clear HMAC_SHA512. try clear short_hash. try clear HASH160. try clear hash256. try clear HASH256.
  intros L L1 B1 L2 B2. rewrite C38_array. rewrite serialized_shape, payload_lineage. destruct (Hhash_ok (payload version l chain key)) as [HL HB].
  rewrite C38_round_trip by (apply bytes_ok_app; split; [apply payload_bytes; assumption|apply bytes_ok_firstn, HB]).
  rewrite (proj2 (Z.eqb_eq _ _)); [reflexivity|]. unfold len. rewrite app_length, payload_len, firstn_length, HL by assumption. reflexivity.
Qed.
End Hd.
