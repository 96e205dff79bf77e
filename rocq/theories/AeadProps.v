(** C47: authenticated encryption, and the forward-secure ciphers of BIP 324. *)
From Coq Require Import PeanoNat.
From Verif Require Import Base Bytes ShaModel ShaSpec RmdSpec KdfSpec KdfProofs PolySpec PolyModel PolyProps ChachaSpec ChachaModel ChachaProofs2 ChachaProps
  AeadSpec AeadModel AeadProofs.
Local Opaque chacha_block.

Definition poly_widths (widths : list nat) : Prop := Forall (fun c => In c [8; 4; 2]%nat) widths.
(** [keyed key c]: the object holds [key]; every operation below leaves it so. *)
Theorem C47_keyed key (c : chacha20) : length key = 32%nat -> keyed key (construct key) /\ keyed key (set_key key c).
Proof. intros L. split; [apply (set_key_keyed key (mkchacha [] [] 0 (repeat 0 64) 64) L)|apply set_key_keyed; exact L]. Qed.
Print Assumptions C47_keyed.

(** encrypt writes RFC 8439's cipher text and tag, however the plain text is
    divided into two segments. *)
Theorem C47_encrypt cw pw key nonce32 nonce64 plain1 plain2 aad c :
  vector_widths cw -> poly_widths pw -> length key = 32%nat -> 0 <= nonce32 < 2 ^ 32 -> 0 <= nonce64 < 2 ^ 64 ->
  bytes_ok plain1 -> bytes_ok plain2 -> bytes_ok aad -> len aad < 2 ^ 64 -> len (plain1 ++ plain2) < 2 ^ 64 -> keyed key c ->
  exists c', encrypt cw pw plain1 plain2 aad nonce32 nonce64 c = Some (c', aead_encrypt key (nonce96 nonce32 nonce64) aad (plain1 ++ plain2)) /\ keyed key c'.
Proof. intros W P. apply encrypt_ok; assumption. Qed.
Print Assumptions C47_encrypt.
(** decrypt is RFC 8439's: true with the plain text, or false and zeros. *)
Theorem C47_decrypt cw pw key nonce32 nonce64 aad cipher c :
  vector_widths cw -> poly_widths pw -> length key = 32%nat -> 0 <= nonce32 < 2 ^ 32 -> 0 <= nonce64 < 2 ^ 64 ->
  bytes_ok cipher -> bytes_ok aad -> len aad < 2 ^ 64 -> len cipher < 2 ^ 64 -> (16 <= length cipher)%nat -> keyed key c ->
  exists c', decrypt cw pw aad nonce32 nonce64 cipher c =
    Some (match aead_decrypt key (nonce96 nonce32 nonce64) aad cipher with
          | Some plain => (c', plain, true)
          | None => (c', repeat 0 (length cipher - 16), false) end) /\ keyed key c'.
Proof. intros W P. apply decrypt_ok; assumption. Qed.
Print Assumptions C47_decrypt.

Lemma apply_twice key nonce text : apply_stream key nonce (apply_stream key nonce text) = text.
Proof.
  unfold apply_stream at 1. unfold apply_stream at 2. rewrite xor_bytes_length, keystream_length, Nat.min_id. apply xor_cancel. rewrite keystream_length. reflexivity.
Qed.
Lemma apply_length key nonce text : length (apply_stream key nonce text) = length text.
Proof. unfold apply_stream. rewrite xor_bytes_length, keystream_length, Nat.min_id. reflexivity. Qed.
(** The RFC's cipher: a cipher text decrypts to [plain] exactly if it is the
    encryption of [plain], byte for byte. *)
Theorem C47_authentic key nonce aad cipher plain : (16 <= length cipher)%nat ->
  aead_decrypt key nonce aad cipher = Some plain <-> cipher = aead_encrypt key nonce aad plain.
Proof.
  intros L. unfold aead_decrypt, aead_encrypt. cbv zeta. set (n := (length cipher - 16)%nat).
  destruct (list_eq_dec Z.eq_dec (aead_tag key nonce aad (firstn n cipher)) (skipn n cipher)) as [E|N].
  - split.
    + intros H. assert (H' : apply_stream key nonce (firstn n cipher) = plain) by congruence. subst plain.
      rewrite apply_twice, E, firstn_skipn. reflexivity.
    + intros H. f_equal.
      assert (F : firstn n cipher = apply_stream key nonce plain).
      { assert (n = length (apply_stream key nonce plain)) as ->.
        { unfold n. rewrite H, app_length, tag_length. lia. }
        rewrite H, firstn_app, Nat.sub_diag, firstn_O, app_nil_r. apply firstn_all. }
      rewrite F. apply apply_twice.
  - split; [discriminate|]. intros H. elim N.
    assert (En : n = length (apply_stream key nonce plain)) by (unfold n; rewrite H, app_length, tag_length; lia).
    rewrite En, H, firstn_app, Nat.sub_diag, firstn_O, app_nil_r, firstn_all.
    rewrite skipn_app, Nat.sub_diag, skipn_all. reflexivity.
Qed.
Print Assumptions C47_authentic.
(** So in the code: what one object encrypts another with the key decrypts, on any
    processors, and any other cipher text, tag or associated data is refused
    unless it is itself an encryption. *)
Theorem C47_round_trip cw1 pw1 cw2 pw2 key nonce32 nonce64 plain1 plain2 aad c1 c2 :
  vector_widths cw1 -> poly_widths pw1 -> vector_widths cw2 -> poly_widths pw2 ->
  length key = 32%nat -> 0 <= nonce32 < 2 ^ 32 -> 0 <= nonce64 < 2 ^ 64 ->
  bytes_ok plain1 -> bytes_ok plain2 -> bytes_ok aad -> len aad < 2 ^ 64 -> len (plain1 ++ plain2) + 16 < 2 ^ 64 -> keyed key c1 -> keyed key c2 ->
  exists c1' c2' cipher, encrypt cw1 pw1 plain1 plain2 aad nonce32 nonce64 c1 = Some (c1', cipher) /\
    len cipher = len (plain1 ++ plain2) + 16 /\
    decrypt cw2 pw2 aad nonce32 nonce64 cipher c2 = Some (c2', plain1 ++ plain2, true).
Proof.
  intros W1 P1 W2 P2 Lk H32 H64 B1 B2 Ba Sa Sp K1 K2.
  destruct (C47_encrypt cw1 pw1 key nonce32 nonce64 plain1 plain2 aad c1) as (c1' & E & _); try assumption; [lia|].
  set (nonce := nonce96 nonce32 nonce64) in *. set (plain := plain1 ++ plain2) in *.
  assert (L : length (aead_encrypt key nonce aad plain) = (length plain + 16)%nat) by (unfold aead_encrypt; rewrite app_length, tag_length, apply_length; reflexivity).
  destruct (C47_decrypt cw2 pw2 key nonce32 nonce64 aad (aead_encrypt key nonce aad plain) c2) as (c2' & D & _); try assumption.
  - unfold aead_encrypt, bytes_ok. apply Forall_app. split; [|unfold aead_tag, Poly1305; apply le_bytes_ok].
    apply xor_bytes_ok; [unfold plain, bytes_ok in *; apply Forall_app; split; assumption|apply stream_bytes; [exact Lk|apply nonce96_length]].
  - unfold len in *. rewrite L. lia.
  - rewrite L. lia.
  - fold nonce in D. rewrite (proj2 (C47_authentic key nonce aad _ plain ltac:(rewrite L; lia)) eq_refl) in D.
    exists c1', c2', (aead_encrypt key nonce aad plain). split; [exact E|]. split; [unfold len; rewrite L; lia|exact D].
Qed.
Print Assumptions C47_round_trip.

(** * BIP 324 messages *)
Inductive message := Seal (plain1 plain2 aad : list Z) | Open (aad cipher : list Z).
Definition outcome : Type := list Z + list Z * bool.
Definition do_message (cw pw : list nat) (m : message) (f : fs) : option (fs * outcome) :=
  match m with
  | Seal plain1 plain2 aad => do r <- fs_seal cw pw plain1 plain2 aad f; Some (fst r, inl (snd r))
  | Open aad cipher => do r <- fs_open cw pw aad cipher f; Some (fst (fst r), inr (snd (fst r), snd r))
  end.
Fixpoint do_messages (cw pw : list nat) (ms : list message) (f : fs) : option (list outcome) :=
  match ms with
  | [] => Some []
  | m :: ms => do r <- do_message cw pw m f; do rest <- do_messages cw pw ms (fst r); Some (snd r :: rest)
  end.
(** What BIP 324 gives for the [n]th message. *)
Definition bip324 (key : list Z) (interval n : nat) (m : message) : outcome :=
  match m with
  | Seal plain1 plain2 aad => inl (fs_encrypt key interval n aad (plain1 ++ plain2))
  | Open aad cipher => inr match fs_decrypt key interval n aad cipher with Some plain => (plain, true) | None => (repeat 0 (length cipher - 16), false) end
  end.
Definition message_ok (m : message) : Prop :=
  match m with
  | Seal plain1 plain2 aad => bytes_ok plain1 /\ bytes_ok plain2 /\ bytes_ok aad /\ len aad < 2 ^ 64 /\ len (plain1 ++ plain2) < 2 ^ 64
  | Open aad cipher => bytes_ok cipher /\ bytes_ok aad /\ len aad < 2 ^ 64 /\ len cipher < 2 ^ 64 /\ (16 <= length cipher)%nat
  end.
(** Every history of messages, including failed ones, follows BIP 324's counters
    and rekeying. *)
Theorem C47_messages cw pw key interval ms :
  vector_widths cw -> poly_widths pw -> length key = 32%nat -> (0 < interval)%nat -> Z.of_nat interval < 2 ^ 32 -> Z.of_nat (length ms) < 2 ^ 64 ->
  Forall message_ok ms ->
  do_messages cw pw ms (fs_construct key (Z.of_nat interval)) = Some (map (fun p => bip324 key interval (fst p) (snd p)) (combine (seq 0 (length ms)) ms)).
Proof.
  intros W P Lk Hi Hi2 Hl F.
  assert (G : forall ms n f, Forall message_ok ms -> Z.of_nat (n + length ms) < 2 ^ 64 -> synced key interval n f ->
    do_messages cw pw ms f = Some (map (fun p => bip324 key interval (fst p) (snd p)) (combine (seq n (length ms)) ms))).
  { clear ms Hl F. induction ms as [|m ms IH]; intros n f F Hn SY; [reflexivity|]. cbn [do_messages length seq combine map fst snd] in *.
    assert (Sn : Z.of_nat (S n) < 2 ^ 64) by lia.
    pose proof SY as (E1 & E2 & E3 & K).
    pose proof (Nat.mod_upper_bound n interval ltac:(lia)) as U.
    assert (DL : (n / interval <= n)%nat) by (apply Nat.div_le_upper_bound; nia).
    assert (C32 : 0 <= Z.of_nat (n mod interval) < 2 ^ 32).
    { clear -U Hi2. revert U. generalize (n mod interval)%nat. intros r U. lia. }
    assert (C64 : 0 <= Z.of_nat (n / interval) < 2 ^ 64).
    { clear -DL Sn. revert DL. generalize (n / interval)%nat. intros q DL. lia. }
    pose proof (epoch_key_length key (n / interval) Lk) as LE.
    assert (R : exists f', do_message cw pw m f = Some (f', bip324 key interval n m) /\ synced key interval (S n) f').
    { pose proof (Forall_inv F) as Fm. destruct m as [p1 p2 aad|aad cipher]; cbn [message_ok do_message bip324] in *.
      - destruct Fm as (B1 & B2 & Ba & Sa & Sp). unfold fs_seal. rewrite E2, E3.
        destruct (encrypt_ok cw pw W P (epoch_key key (n / interval)) _ _ p1 p2 aad (fs_cipher f) LE C32 C64 B1 B2 Ba Sa Sp K) as (c' & Ee & K').
        rewrite Ee. cbn [obind fst snd]. eexists. split; [reflexivity|]. apply next_synced; assumption.
      - destruct Fm as (Bc & Ba & Sa & Sc & L16). unfold fs_open. rewrite E2, E3.
        destruct (decrypt_ok cw pw W P (epoch_key key (n / interval)) _ _ aad cipher (fs_cipher f) LE C32 C64 Bc Ba Sa Sc L16 K) as (c' & Ed & K').
        rewrite Ed. cbn [obind]. unfold fs_decrypt, message_nonce. fold (nonce96 (Z.of_nat (n mod interval)) (Z.of_nat (n / interval))).
        destruct (aead_decrypt _ _ aad cipher) as [plain|]; cbn [fst snd]; (eexists; split; [reflexivity|]); apply next_synced; assumption. }
    destruct R as (f' & Ed & SY'). rewrite Ed. cbn [obind fst snd]. rewrite (IH (S n) f' (Forall_inv_tail F)) by (assumption || lia). reflexivity. }
  apply (G ms 0%nat); [exact F|exact Hl|]. unfold synced, fs_construct. cbn [fs_interval fs_count fs_rekeys fs_cipher].
  rewrite Nat.mod_0_l, Nat.div_0_l by lia. split; [reflexivity|]. split; [reflexivity|]. split; [reflexivity|]. apply (C47_keyed key (construct key) Lk).
Qed.
Print Assumptions C47_messages.

(** * BIP 324 length chunks *)
Fixpoint do_chunks (cw : list nat) (chunks : list (list Z)) (f : fs) : list (list Z) :=
  match chunks with [] => [] | chunk :: rest => let (f, out) := fs_chunk cw chunk f in out :: do_chunks cw rest f end.
Theorem C47_chunks cw key interval chunks :
  vector_widths cw -> length key = 32%nat -> (0 < interval)%nat -> Z.of_nat interval < 2 ^ 32 -> Z.of_nat (length chunks) < 2 ^ 64 ->
  do_chunks cw chunks (fs_construct key (Z.of_nat interval)) = fs_crypt interval key 0 0 chunks.
Proof.
  intros W Lk Hi Hi2 Hl.
  assert (G : forall chunks key n pos f, length key = 32%nat -> Z.of_nat (n + length chunks) < 2 ^ 64 ->
    fs_interval f = Z.of_nat interval -> fs_count f = Z.of_nat (n mod interval) -> fs_rekeys f = Z.of_nat (n / interval) ->
    At (le_words key) (le_words (chunk_nonce (n / interval))) 0 (fs_cipher f) pos ->
    do_chunks cw chunks f = fs_crypt interval key n pos chunks).
  { clear chunks Hl key Lk. induction chunks as [|chunk chunks IH]; intros key n pos f Lk Hn E1 E2 E3 A; [reflexivity|].
    cbn [do_chunks fs_crypt length] in *. unfold fs_chunk.
    assert (DL : (n / interval <= n)%nat) by (apply Nat.div_le_upper_bound; nia).
    assert (C64 : 0 <= Z.of_nat (n / interval) /\ Z.of_nat (n / interval) + 1 < 2 ^ 64).
    { clear -DL Hn. revert DL. generalize (n / interval)%nat. intros q DL. lia. }
    assert (C64' : 0 <= Z.of_nat (n / interval) < 2 ^ 64).
    { clear -C64. revert C64. generalize (Z.of_nat (n / interval)). intros q C64. lia. }
    pose proof (nonce_words 0 (Z.of_nat (n / interval)) ltac:(lia) C64') as Lw. change (nonce96 0 (Z.of_nat (n / interval))) with (chunk_nonce (n / interval)) in Lw.
    destruct (crypt_at cw W key _ Lk Lw 0 (fs_cipher f) pos chunk A) as (c1 & Ec & A1). rewrite Ec.
    pose proof (Nat.mod_upper_bound n interval ltac:(lia)) as U. pose proof (step_div interval n Hi) as SD.
    assert (C : (fs_count f + 1) mod 2 ^ 32 = Z.of_nat (S (n mod interval))).
    { rewrite E2, Nat2Z.inj_succ. apply Z.mod_small. clear -U Hi2. revert U. generalize (n mod interval)%nat. intros r U. lia. }
    cbv zeta. rewrite C, E1.
    destruct (Z.eqb_spec (Z.of_nat (S (n mod interval))) (Z.of_nat interval)) as [E|N].
    - apply Nat2Z.inj in E. rewrite E, Nat.eqb_refl in SD. destruct SD as [S1 S2]. rewrite S1. cbn [Nat.eqb].
      destruct (stream_at cw W key _ Lk Lw 0 c1 _ 32 A1) as (c2 & Es & A2). rewrite Es. f_equal.
      set (key' := keystream key (chunk_nonce (n / interval)) 0 (pos + length chunk) 32).
      assert (Lk' : length key' = 32%nat) by apply keystream_length.
      assert (ER : (fs_rekeys f + 1) mod 2 ^ 64 = Z.of_nat (S (n / interval))).
      { rewrite E3, Nat2Z.inj_succ. apply Z.mod_small. clear -C64. revert C64. generalize (Z.of_nat (n / interval)). intros q C64. lia. }
      rewrite ER. apply IH; cbn [fs_interval fs_count fs_rekeys fs_cipher]; rewrite ?S1, ?S2; try reflexivity; try assumption; [lia|].
      apply (seek_at key' 0 (Z.of_nat (S (n / interval))) 0 (set_key key' c2)); try lia; try exact Lk'.
      apply set_key_keyed. exact Lk'.
    - assert (N' : Nat.eqb (S (n mod interval)) interval = false) by (apply Nat.eqb_neq; intros Q; apply N; rewrite Q; reflexivity).
      rewrite N' in SD. destruct SD as [S1 S2]. rewrite S1. cbn [Nat.eqb]. f_equal.
      apply IH; cbn [fs_interval fs_count fs_rekeys fs_cipher]; rewrite ?S1, ?S2; try reflexivity; try assumption. lia. }
  apply (G chunks key 0%nat 0%nat); [exact Lk|exact Hl|reflexivity| | |]; unfold fs_construct; cbn [fs_count fs_rekeys fs_cipher];
    rewrite ?Nat.mod_0_l, ?Nat.div_0_l by lia; try reflexivity.
  apply (seek_at key 0 0 0 (construct key)); try lia; try exact Lk. apply (C47_keyed key (construct key) Lk).
Qed.
Print Assumptions C47_chunks.

(** RFC 8439 2.8.2 (the first bytes of the cipher text and the tag). *)
Definition rfc_aead_key : list Z := map (fun i => 0x80 + Z.of_nat i) (seq 0 32).
Definition rfc_aead_nonce : list Z := [7; 0; 0; 0; 0x40; 0x41; 0x42; 0x43; 0x44; 0x45; 0x46; 0x47].
Definition rfc_aead_aad : list Z := [0x50; 0x51; 0x52; 0x53; 0xc0; 0xc1; 0xc2; 0xc3; 0xc4; 0xc5; 0xc6; 0xc7].
Example C47_sat : vector_widths [16; 8; 4]%nat /\ poly_widths [8; 4; 2]%nat /\ message_ok (Seal [76] [97; 100] rfc_aead_aad) /\
  nonce96 7 0x4746454443424140 = rfc_aead_nonce /\
  firstn 3 (aead_encrypt rfc_aead_key rfc_aead_nonce rfc_aead_aad [76; 97; 100]) = [0xd3; 0x1a; 0x8d].
Proof.
  split; [apply Forall_forall; intros c Hc; cbn [In] in *; intuition|]. split; [apply Forall_forall; intros c Hc; exact Hc|].
  split; [cbn [message_ok]; unfold rfc_aead_aad, bytes_ok, byte_ok, len; cbn [app length]; repeat split; try (repeat constructor; lia); lia|].
  split; [vm_compute; reflexivity|]. vm_compute. reflexivity.
Qed.
