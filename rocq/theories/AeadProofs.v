(** The authenticated cipher of the model against RFC 8439, the forward-secure
    ciphers against BIP 324. *)
From Coq Require Import PeanoNat.
From Verif Require Import Base Bytes MathModel MathProofs MathProofs2 BitProofs ShaModel ShaSpec ShaProofs2 AccProofs RmdSpec KdfSpec KdfProofs ScryptProofs ScryptProps
  PolySpec PolyModel PolyProps ChachaSpec ChachaModel ChachaProofs ChachaProofs2 ChachaProps AeadSpec AeadModel.
Local Opaque chacha_block.

Lemma padding_ok n : 0 <= n < 2 ^ 64 -> padding n = Some ((16 - n mod 16) mod 16).
Proof.
  intros H. unfold padding.
  assert (F : fits u64 n) by (apply fits_unsigned; [reflexivity|exact H]).
  rewrite ceilinged_modulo_unsigned_eq by (reflexivity || exact F || lia || (apply fits_unsigned; [reflexivity|cbn; lia]) || (cbn; lia)).
  cbn [obind].
  assert (E : n - 16 * - (- n / 16) = - ((16 - n mod 16) mod 16)).
  { pose proof (Z.div_mod n 16 ltac:(lia)). pose proof (Z.mod_pos_bound n 16 ltac:(lia)).
    destruct (Z.eq_dec (n mod 16) 0) as [Z0|Z0].
    - rewrite Z0. change ((16 - 0) mod 16) with 0. rewrite Z.div_opp_l_z by lia. lia.
    - rewrite Z.div_opp_l_nz by lia. rewrite (Z.mod_small (16 - n mod 16)) by lia. lia. }
  rewrite E. pose proof (Z.mod_pos_bound (16 - n mod 16) 16 ltac:(lia)) as B. set (m := (16 - n mod 16) mod 16) in *. clearbody m.
  rewrite absolute_exact; [f_equal; lia|cbn; lia|reflexivity| |].
  - apply fits_signed; [reflexivity|]. cbn. lia.
  - unfold imin. cbn. lia.
Qed.
Lemma zero_span_ok (l : list Z) : len l < 2 ^ 64 -> (do n <- padding (len l); zero_span n) = Some (pad16 l).
Proof.
  intros H. pose proof (Zle_0_nat (length l)). unfold len in *. rewrite padding_ok by lia. cbn [obind].
  pose proof (Z.mod_pos_bound (16 - Z.of_nat (length l) mod 16) 16 ltac:(lia)) as B. unfold zero_span.
  destruct (Z.leb_spec 0 ((16 - Z.of_nat (length l) mod 16) mod 16)); [|lia].
  destruct (Z.leb_spec ((16 - Z.of_nat (length l) mod 16) mod 16) 16); [|lia]. cbn [andb]. unfold pad16. f_equal. f_equal.
  apply Nat2Z.inj. rewrite Z2Nat.id by lia.
  rewrite Nat2Z.inj_mod, Nat2Z.inj_sub by (pose proof (Nat.mod_upper_bound (length l) 16 ltac:(lia)); lia). rewrite Nat2Z.inj_mod. reflexivity.
Qed.
Lemma block_bytes key nonce t : length key = 32%nat -> length nonce = 12%nat -> bytes_ok (chacha_block key nonce t) /\ length (chacha_block key nonce t) = 64%nat.
Proof.
  intros Lk Ln. rewrite block_bridge.
  assert (L3 : length (le_words nonce) = 3%nat).
  { unfold le_words. rewrite <- (proj1 (chunks_split 4 3 nonce ltac:(lia) Ln)). rewrite map_length. apply ShaProofs6.chunks_length. }
  split; [|apply block_at_length; [apply (key_words key Lk)|exact L3]].
  unfold block_at, bytes_ok. apply Forall_forall. intros x Hx. apply in_flat_map in Hx. destruct Hx as (w & _ & Hw).
  pose proof (le_bytes_ok 4 w) as B. unfold bytes_ok in B. rewrite Forall_forall in B. apply B. exact Hw.
Qed.
Lemma stream_bytes key nonce c0 p n : length key = 32%nat -> length nonce = 12%nat -> bytes_ok (keystream key nonce c0 p n).
Proof.
  intros Lk Ln. unfold keystream, bytes_ok. apply Forall_forall. intros x Hx. apply in_map_iff in Hx. destruct Hx as (i & <- & _).
  unfold stream_byte. destruct (block_bytes key nonce ((c0 + Z.of_nat (i / 64)) mod 2 ^ 32) Lk Ln) as [B L]. unfold bytes_ok in B. rewrite Forall_forall in B.
  apply B. apply nth_In. rewrite L. apply Nat.mod_upper_bound. lia.
Qed.
Lemma stream_first key nonce : length key = 32%nat -> length nonce = 12%nat -> keystream key nonce 0 0 32 = poly_key key nonce.
Proof.
  intros Lk Ln. unfold poly_key. destruct (block_bytes key nonce 0 Lk Ln) as [_ L]. apply (list_ext _ _ 0); [rewrite keystream_length, firstn_length, L; reflexivity|].
  intros i H. rewrite keystream_length in H. unfold keystream. rewrite (nth_indep _ 0 (stream_byte key nonce 0 0)) by (rewrite map_length, seq_length; exact H).
  rewrite map_nth, seq_nth by exact H. cbn [Nat.add]. unfold stream_byte. rewrite Nat.mod_small, Nat.div_small by lia. cbn [Z.of_nat]. rewrite Z.add_0_l, Z.mod_0_l by lia.
  rewrite <- (firstn_skipn 32 (chacha_block key nonce 0)) at 1. apply app_nth1. rewrite firstn_length, L. lia.
Qed.
Lemma nonce96_length a b : length (nonce96 a b) = 12%nat.
Proof. unfold nonce96. rewrite app_length, !le_bytes_length. reflexivity. Qed.
Lemma xor_bytes_ok a b : bytes_ok a -> bytes_ok b -> bytes_ok (xor_bytes a b).
Proof.
  unfold bytes_ok. intros Ha. revert b. induction Ha as [|x a Hx Ha IH]; intros [|y b] Hb; cbn; try constructor.
  - pose proof (Forall_inv Hb) as Hy. unfold byte_ok in *. cbn [fst snd]. split; [apply Z.lxor_nonneg; lia|].
    change 256 with (2 ^ 8). destruct (Z.eq_dec (Z.lxor x y) 0) as [->|N]; [lia|].
    assert (P : 0 <= Z.lxor x y) by (apply Z.lxor_nonneg; lia).
    apply Z.log2_lt_pow2; [lia|]. eapply Z.le_lt_trans; [apply Z.log2_lxor; lia|].
    apply Z.max_lub_lt; destruct (Z.eq_dec x 0) as [->|]; destruct (Z.eq_dec y 0) as [->|]; try (cbn; lia); apply Z.log2_lt_pow2; lia.
  - apply IH. exact (Forall_inv_tail Hb).
Qed.

(** The object's key was last set to [key]. *)
Definition keyed (key : list Z) (c : chacha20) : Prop := c_key c = le_words key.
Lemma At_keyed key nonce c0 c p : At (le_words key) (le_words nonce) c0 c p -> keyed key c.
Proof. intros [(q & _ & E & _)|(q & _ & _ & E & _)]; exact E. Qed.

Lemma fold6 {A B} (f : A -> B -> A) x a b c d e g : fold_left f [a; b; c; d; e; g] x = f (f (f (f (f (f x a) b) c) d) e) g.
Proof. reflexivity. Qed.
Lemma concat6 (a b c d e g : list Z) : concat [a; b; c; d; e; g] = a ++ b ++ c ++ d ++ e ++ g.
Proof. cbn [concat]. rewrite app_nil_r. reflexivity. Qed.
Section Aead.
Variables cw pw : list nat.
Hypothesis Hcw : vector_widths cw.
Hypothesis Hpw : Forall (fun c => In c [8; 4; 2]%nat) pw.
Section Key.
Variables key nonce : list Z.
Hypothesis Lk : length key = 32%nat.
Hypothesis Lw : length (le_words nonce) = 3%nat.
Lemma crypt_at c0 c p input : At (le_words key) (le_words nonce) c0 c p ->
  exists c', crypt cw input (length input) c = (c', xor_bytes input (keystream key nonce c0 p (length input))) /\
             At (le_words key) (le_words nonce) c0 c' (p + length input).
Proof using Hcw Lk Lw.
  intros A. destruct (key_words key Lk) as [_ LK].
  destruct (crypt_ok (le_words key) (le_words nonce) c0 LK Lw input (length input) (or_intror eq_refl) p cw c (widths_or _ Hcw) A) as [E A'].
  destruct (crypt cw input (length input) c) as [c' out]. cbn [fst snd] in *. exists c'. split; [|exact A']. f_equal. rewrite E, ks_bridge.
  unfold xs. destruct input as [|x l] eqn:EI; [reflexivity|]. rewrite <- EI in *. rewrite map2_xor. f_equal. rewrite keystream_length. apply firstn_all.
Qed.
Lemma stream_at c0 c p size : At (le_words key) (le_words nonce) c0 c p ->
  exists c', stream cw size c = (c', keystream key nonce c0 p size) /\ At (le_words key) (le_words nonce) c0 c' (p + size).
Proof using Hcw Lk Lw.
  intros A. destruct (key_words key Lk) as [_ LK]. unfold stream.
  destruct (crypt_ok (le_words key) (le_words nonce) c0 LK Lw [] size (or_introl eq_refl) p cw c (widths_or _ Hcw) A) as [E A'].
  destruct (crypt cw [] size c) as [c' out]. cbn [fst snd] in *. exists c'. split; [|exact A']. f_equal. rewrite E, ks_bridge. reflexivity.
Qed.
Lemma authenticate_ok aad text c : length nonce = 12%nat -> bytes_ok aad -> bytes_ok text -> len aad < 2 ^ 64 -> len text < 2 ^ 64 ->
  At (le_words key) (le_words nonce) 0 c 0 ->
  exists c', authenticate cw pw aad text c = Some (c', aead_tag key nonce aad text) /\ keyed key c'.
Proof using Hcw Hpw Lk Lw.
  intros Ln Ba Bt Sa St A. unfold authenticate. destruct (stream_at 0 c 0 32 A) as (c' & E & A'). rewrite E.
  pose proof (zero_span_ok aad Sa) as Pa. pose proof (zero_span_ok text St) as Pt.
  destruct (padding (len aad)) as [n1|]; [|discriminate]. cbn [obind] in *. destruct (zero_span n1) as [pad1|]; [|discriminate].
  destruct (padding (len text)) as [n2|]; [|discriminate]. cbn [obind] in *. destruct (zero_span n2) as [pad2|]; [|discriminate]. cbn [obind].
  assert (E1 : pad1 = pad16 aad) by congruence. assert (E2 : pad2 = pad16 text) by congruence. subst pad1 pad2.
  exists c'. split; [|apply (At_keyed _ _ _ _ _ A')]. cbv zeta. f_equal. f_equal.
  assert (Z16 : forall l, bytes_ok (pad16 l)).
  { intros l. unfold pad16, bytes_ok. apply Forall_forall. intros x Hx. apply repeat_spec in Hx. subst x. unfold byte_ok. lia. }
  pose proof (C46_poly1305 pw (keystream key nonce 0 0 32) [aad; pad16 aad; text; pad16 text; le_bytes 8 (len aad); le_bytes 8 (len text)] Hpw) as H.
  rewrite fold6, concat6 in H. rewrite H.
  - unfold aead_tag. rewrite stream_first, ?app_nil_r by assumption. reflexivity.
  - apply stream_bytes; assumption.
  - apply keystream_length.
  - repeat (apply Forall_cons; [first [assumption | apply Z16 | apply le_bytes_ok]|]). constructor.
Qed.
End Key.

Lemma encrypt_ok key n32 n64 p1 p2 aad c : length key = 32%nat -> 0 <= n32 < 2 ^ 32 -> 0 <= n64 < 2 ^ 64 ->
  bytes_ok p1 -> bytes_ok p2 -> bytes_ok aad -> len aad < 2 ^ 64 -> len (p1 ++ p2) < 2 ^ 64 -> keyed key c ->
  exists c', encrypt cw pw p1 p2 aad n32 n64 c = Some (c', aead_encrypt key (nonce96 n32 n64) aad (p1 ++ p2)) /\ keyed key c'.
Proof using Hcw Hpw.
  intros Lk H32 H64 B1 B2 Ba Sa Sp K. unfold encrypt. pose proof (nonce_words n32 n64 H32 H64) as Lw. pose proof (nonce96_length n32 n64) as Ln.
  pose proof (seek_at key n32 n64 1 c Lk H32 H64 ltac:(lia) K) as A0. set (nonce := nonce96 n32 n64) in *.
  destruct (crypt_at key nonce Lk Lw 1 _ 0 p1 A0) as (c1 & E1 & A1). cbv zeta. rewrite E1.
  destruct (crypt_at key nonce Lk Lw 1 c1 _ p2 A1) as (c2 & E2 & A2). rewrite E2.
  pose proof (seek_at key n32 n64 0 c2 Lk H32 H64 ltac:(lia) (At_keyed _ _ _ _ _ A2)) as A3. fold nonce in A3.
  assert (ET : xor_bytes p1 (keystream key nonce 1 0 (length p1)) ++ xor_bytes p2 (keystream key nonce 1 (0 + length p1) (length p2)) = apply_stream key nonce (p1 ++ p2)).
  { unfold apply_stream. rewrite app_length, keystream_app, xor_app; [reflexivity|rewrite keystream_length; reflexivity]. }
  rewrite ET. destruct (authenticate_ok key nonce Lk Lw aad (apply_stream key nonce (p1 ++ p2)) (seek n32 n64 0 c2) Ln Ba) as (c' & E & K').
  - unfold apply_stream. apply xor_bytes_ok; [unfold bytes_ok in *; apply Forall_app; split; assumption|apply stream_bytes; assumption].
  - exact Sa.
  - unfold len, apply_stream in *. rewrite xor_bytes_length, keystream_length, Nat.min_id. exact Sp.
  - exact A3.
  - rewrite E. cbn [obind fst snd]. exists c'. split; [reflexivity|exact K'].
Qed.
Lemma difference_ok : forall (a b : list Z), length a = 16%nat -> length b = 16%nat ->
  (fold_left (fun d i => Z.lor d (Z.lxor (nth i a 0) (nth i b 0))) (seq 0 16) 0 =? 0) = true <-> a = b.
Proof using.
  clear. intros a b La Lb. rewrite Z.eqb_eq.
  assert (G : forall l d, fold_left (fun d i => Z.lor d (Z.lxor (nth i a 0) (nth i b 0))) l d = 0 <-> d = 0 /\ Forall (fun i => nth i a 0 = nth i b 0) l).
  { induction l as [|i l IH]; intros d; cbn [fold_left]; [split; [intros H; split; [exact H|constructor]|intros [H _]; exact H]|].
    rewrite IH, Z.lor_eq_0_iff, Z.lxor_eq_0_iff. split.
    - intros [[H1 H2] H3]. split; [exact H1|constructor; assumption].
    - intros [H1 H2]. split; [split; [exact H1|exact (Forall_inv H2)]|exact (Forall_inv_tail H2)]. }
  rewrite G. split.
  - intros [_ F]. apply (list_ext _ _ 0); [lia|]. intros i Hi. rewrite Forall_forall in F. apply F. apply in_seq. lia.
  - intros ->. split; [reflexivity|]. apply Forall_forall. reflexivity.
Qed.
Lemma tag_length key nonce aad text : length (aead_tag key nonce aad text) = 16%nat.
Proof using. clear. unfold aead_tag, Poly1305. apply le_bytes_length. Qed.
Lemma decrypt_ok key n32 n64 aad cipher c : length key = 32%nat -> 0 <= n32 < 2 ^ 32 -> 0 <= n64 < 2 ^ 64 ->
  bytes_ok cipher -> bytes_ok aad -> len aad < 2 ^ 64 -> len cipher < 2 ^ 64 -> (16 <= length cipher)%nat -> keyed key c ->
  exists c', decrypt cw pw aad n32 n64 cipher c =
    Some (match aead_decrypt key (nonce96 n32 n64) aad cipher with
          | Some plain => (c', plain, true) | None => (c', repeat 0 (length cipher - 16), false) end) /\ keyed key c'.
Proof using Hcw Hpw.
  intros Lk H32 H64 Bc Ba Sa Sc L16 K. unfold decrypt, aead_decrypt. cbv zeta. pose proof (nonce_words n32 n64 H32 H64) as Lw. pose proof (nonce96_length n32 n64) as Ln.
  set (size := (length cipher - 16)%nat) in *.
  assert (Lt : length (firstn size cipher) = size) by (rewrite firstn_length; unfold size; lia).
  destruct (bytes_split size cipher Bc) as [Bt _].
  pose proof (seek_at key n32 n64 0 c Lk H32 H64 ltac:(lia) K) as A0. set (nonce := nonce96 n32 n64) in *.
  assert (St : len (firstn size cipher) < 2 ^ 64) by (unfold len in *; rewrite Lt; unfold size; lia).
  destruct (authenticate_ok key nonce Lk Lw aad (firstn size cipher) _ Ln Ba Bt Sa St A0) as (c1 & E & K1).
  rewrite E. cbn [obind].
  pose proof (difference_ok (aead_tag key nonce aad (firstn size cipher)) (skipn size cipher) (tag_length _ _ _ _) ltac:(rewrite skipn_length; unfold size; lia)) as D.
  set (diff := fold_left _ _ _) in *. clearbody diff.
  destruct (list_eq_dec Z.eq_dec (aead_tag key nonce aad (firstn size cipher)) (skipn size cipher)) as [EQ|NE].
  - rewrite (proj2 D EQ).
    pose proof (seek_at key n32 n64 1 c1 Lk H32 H64 ltac:(lia) K1) as A1. fold nonce in A1.
    destruct (crypt_at key nonce Lk Lw 1 _ 0 (firstn size cipher) A1) as (c2 & E2 & A2). rewrite Lt in E2 at 1. rewrite E2.
    exists c2. split; [reflexivity|]. apply (At_keyed _ _ _ _ _ A2).
  - destruct (diff =? 0); [elim NE; apply D; reflexivity|]. exists c1. split; [reflexivity|exact K1].
Qed.
Lemma aead_stream_ok key n32 n64 size c : length key = 32%nat -> 0 <= n32 < 2 ^ 32 -> 0 <= n64 < 2 ^ 64 -> keyed key c ->
  exists c', aead_stream cw n32 n64 size c = (c', keystream key (nonce96 n32 n64) 1 0 size) /\ keyed key c'.
Proof using Hcw.
  intros Lk H32 H64 K. unfold aead_stream.
  destruct (stream_at key _ Lk (nonce_words n32 n64 H32 H64) 1 _ 0 size (seek_at key n32 n64 1 c Lk H32 H64 ltac:(lia) K)) as (c' & E & A).
  exists c'. split; [exact E|apply (At_keyed _ _ _ _ _ A)].
Qed.
Lemma set_key_keyed key c : length key = 32%nat -> keyed key (set_key key c).
Proof using. clear. intros L. unfold keyed, set_key. cbn [c_key]. apply (key_words key L). Qed.

(** * Forward-secure messages *)
Lemma aead_zeros key nonce : firstn 32 (aead_encrypt key nonce [] (repeat 0 32)) = keystream key nonce 1 0 32.
Proof using.
  clear. unfold aead_encrypt, apply_stream. cbv zeta. rewrite repeat_length. set (k := keystream key nonce 1 0 32).
  assert (L : length k = 32%nat) by apply keystream_length.
  assert (E : xor_bytes (repeat 0 32) k = k).
  { clearbody k. do 32 (destruct k as [|? k]; [discriminate|]). destruct k; [|discriminate]. reflexivity. }
  rewrite E, firstn_app, L, Nat.sub_diag, firstn_O, app_nil_r. apply firstn_all2. lia.
Qed.
Lemma epoch_key_length key e : length key = 32%nat -> length (epoch_key key e) = 32%nat.
Proof using. clear. intros L. destruct e; [exact L|]. cbn [epoch_key]. rewrite aead_zeros. apply keystream_length. Qed.
Definition synced (key : list Z) (interval n : nat) (f : fs) : Prop :=
  fs_interval f = Z.of_nat interval /\ fs_count f = Z.of_nat (n mod interval) /\ fs_rekeys f = Z.of_nat (n / interval) /\
  keyed (epoch_key key (n / interval)) (fs_cipher f).
Lemma step_div interval n : (0 < interval)%nat ->
  if Nat.eqb (S (n mod interval)) interval then (S n mod interval = 0 /\ S n / interval = S (n / interval))%nat
  else (S n mod interval = S (n mod interval) /\ S n / interval = n / interval)%nat.
Proof using.
  clear. intros H. pose proof (Nat.div_mod n interval ltac:(lia)) as D. pose proof (Nat.mod_upper_bound n interval ltac:(lia)) as U.
  set (q := (n / interval)%nat) in *. set (r := (n mod interval)%nat) in *. clearbody q r.
  destruct (Nat.eqb_spec (S r) interval) as [E|N].
  - assert (F : S n = (S q * interval)%nat) by lia. rewrite F, Nat.mod_mul, Nat.div_mul by lia. split; reflexivity.
  - assert (F : S n = (S r + q * interval)%nat) by lia. rewrite F, Nat.mod_add, Nat.div_add, Nat.mod_small, Nat.div_small by lia. split; lia.
Qed.
Lemma next_synced key interval n f c : length key = 32%nat -> (0 < interval)%nat -> Z.of_nat interval < 2 ^ 32 -> Z.of_nat (S n) < 2 ^ 64 ->
  synced key interval n f -> keyed (epoch_key key (n / interval)) c -> synced key interval (S n) (fs_next cw c f).
Proof using Hcw.
  intros Lk Hi Hi2 Hn (E1 & E2 & E3 & _) K. unfold fs_next. cbv zeta. pose proof (step_div interval n Hi) as SD.
  pose proof (Nat.mod_upper_bound n interval ltac:(lia)) as U.
  assert (DL : (n / interval <= n)%nat) by (apply Nat.div_le_upper_bound; nia).
  assert (DZ : 0 <= Z.of_nat (n / interval) /\ Z.succ (Z.of_nat (n / interval)) < 2 ^ 64).
  { clear -DL Hn. revert DL. generalize (n / interval)%nat. intros q DL. lia. }
  assert (C : (fs_count f + 1) mod 2 ^ 32 = Z.of_nat (S (n mod interval))).
  { rewrite E2, Nat2Z.inj_succ. apply Z.mod_small. lia. }
  rewrite C, E1.
  destruct (Z.eqb_spec (Z.of_nat (S (n mod interval))) (Z.of_nat interval)) as [E|N].
  - apply Nat2Z.inj in E. rewrite E, Nat.eqb_refl in SD. destruct SD as [S1 S2]. rewrite E3.
    destruct (aead_stream_ok (epoch_key key (n / interval)) 0xffffffff (Z.of_nat (n / interval)) 32 c) as (c' & Ec & _);
      [apply epoch_key_length; exact Lk|lia|split; [apply DZ|eapply Z.lt_trans; [apply Z.lt_succ_diag_r|apply DZ]]|exact K|]. rewrite Ec. unfold synced. cbn [fs_interval fs_count fs_rekeys fs_cipher]. rewrite S1, S2.
    split; [reflexivity|]. split; [reflexivity|]. split; [rewrite Nat2Z.inj_succ; apply Z.mod_small; split; [apply Z.add_nonneg_nonneg; [apply DZ|lia]|apply DZ]|]. cbn [epoch_key]. rewrite aead_zeros.
    apply set_key_keyed. apply keystream_length.
  - assert (N' : Nat.eqb (S (n mod interval)) interval = false) by (apply Nat.eqb_neq; intros Q; apply N; rewrite Q; reflexivity).
    rewrite N' in SD. destruct SD as [S1 S2]. unfold synced. cbn [fs_interval fs_count fs_rekeys fs_cipher]. rewrite S1, S2.
    split; [reflexivity|]. split; [reflexivity|]. split; [exact E3|exact K].
Qed.
End Aead.
