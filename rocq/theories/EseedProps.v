(** * C84: Electrum seeds. *)
From Coq Require Import String PeanoNat.
From Verif Require Import Base Bytes MathModel StreamModel BitProofs BitStreamModel BitStreamSpec BitStreamProofs BitStreamProofs2
  RadixModel RadixProofs4 ShaSpec ShaModel ShaProofs8 AccModel KdfSpec KdfModel KdfProofs KdfProofs2 KdfProps HdProps WordsModel WordsProofs WordsData MnemonicSpec MnemonicModel MnemonicProofs MnemonicProps ElectrumModel EseedModel EseedSpec EseedProofs.

(** ** Versions *)
Definition octets : list Z := map Z.of_nat (seq 0 256).
Lemma octets_checked : forallb (fun b => let h := to_base16_hi_character b in let l := to_base16_lo_character b in
  Bool.eqb ((h =? 48) && (l =? 49)) (b =? 1) && Bool.eqb ((h =? 49) && (l =? 48)) (b =? 16) && Bool.eqb (h =? 48) (b / 16 =? 0) && Bool.eqb (h =? 49) (b / 16 =? 1) && Bool.eqb (h =? 50) (b / 16 =? 2) &&
  negb (h =? 111) && negb (h =? 110) && negb (l =? 105)) octets = true.
Proof. vm_compute. reflexivity. Qed.
Lemma octet_checked b : byte_ok b -> let h := to_base16_hi_character b in let l := to_base16_lo_character b in
  ((h =? 48) && (l =? 49)) = (b =? 1) /\ ((h =? 49) && (l =? 48)) = (b =? 16) /\ (h =? 48) = (b / 16 =? 0) /\ (h =? 49) = (b / 16 =? 1) /\ (h =? 50) = (b / 16 =? 2) /\
  (h =? 111) = false /\ (h =? 110) = false /\ (l =? 105) = false.
Proof.
  intros B. pose proof octets_checked as H. rewrite forallb_forall in H. specialize (H b). cbv zeta in *. rewrite !Bool.andb_true_iff, !Bool.negb_true_iff, !Bool.eqb_true_iff in H.
  destruct H as [[[[[[[H1 H2] H3] H4] H5] H6] H7] H8]; [|auto 10]. unfold octets. apply in_map_iff. exists (Z.to_nat b). unfold byte_ok in B. split; [lia|]. apply in_seq. lia.
Qed.
Lemma version_text p h : bytes_ok h -> (2 <= length h)%nat -> starts_with (encode_base16 h) (to_version p) = true <-> version_is p h.
Proof.
  intros B L. destruct h as [|a [|b h]]; cbn [length] in L; try lia. pose proof (Forall_inv B) as Ba. pose proof (Forall_inv (Forall_inv_tail B)) as Bb.
  destruct (octet_checked a Ba) as (A1 & A2 & _ & _ & _ & A6 & A7 & A8). destruct (octet_checked b Bb) as (_ & _ & B3 & B4 & B5 & _).
  change (encode_base16 (a :: b :: h)) with (to_base16_hi_character a :: to_base16_lo_character a :: to_base16_hi_character b :: to_base16_lo_character b :: encode_base16 h).
  unfold to_version, version_is. cbn [nth]. destruct p; match goal with |- context [chars ?s] => let v := eval vm_compute in (chars s) in change (chars s) with v end; cbn [starts_with].
  - rewrite A6. split; [discriminate|intros []].
  - rewrite A8, Bool.andb_false_r. split; [discriminate|intros []].
  - rewrite Bool.andb_true_r, A1. apply Z.eqb_eq.
  - rewrite Bool.andb_true_r, Bool.andb_assoc, A2, B3, Bool.andb_true_iff, !Z.eqb_eq. reflexivity.
  - rewrite Bool.andb_true_r, Bool.andb_assoc, A2, B4, Bool.andb_true_iff, !Z.eqb_eq. reflexivity.
  - rewrite Bool.andb_true_r, Bool.andb_assoc, A2, B5, Bool.andb_true_iff, !Z.eqb_eq. reflexivity.
  - rewrite A7. split; [discriminate|intros []].
Qed.
(** No seed has two versions. *)
Theorem C84_versions p q h : version_is p h -> version_is q h -> p = q.
Proof. unfold version_is. destruct p, q; try reflexivity; intros H1 H2; try contradiction; lia. Qed.

(** ** Spelling *)
Lemma spells_length d e ws : spells d e ws -> 0 <= 8 * len e - 11 * len ws < 8.
Proof.
  intros (idx & _ & (_ & n & Hn & E) & ->). apply (f_equal len) in E. change (flat_map _ idx) with (pack_bits 11 idx) in E. rewrite bits_of_len, len_app, pack_bits_len in E by lia.
  assert (R : len (repeat false n) = Z.of_nat n) by (unfold len; rewrite repeat_length; reflexivity). assert (M : len (map (fun i => nth (Z.to_nat i) d ""%string) idx) = len idx) by (unfold len; rewrite map_length; reflexivity). rewrite R in E. rewrite M. clear R M. lia.
Qed.
Lemma spells_indexes d e ws : In d dictionaries -> spells (words_of d) e ws ->
  exists idx, Forall (fun i => 0 <= i < 2048) idx /\ padded (pack_bits 11 idx) e /\ ws = dict_at_all d idx /\ dict_index_all d ws = idx /\ dict_contains_all d ws = true.
Proof.
  intros I (idx & F & P & ->). exists idx. destruct (at_all d idx I F) as (A1 & A2 & A3). rewrite <- A1. repeat (split; [assumption || reflexivity|]). exact A3.
Qed.
Lemma spells_unique d e ws ws' : spells d e ws -> spells d e ws' -> ws = ws'.
Proof.
  intros S S'. pose proof (spells_length _ _ _ S) as L. pose proof (spells_length _ _ _ S') as L'. destruct S as (a & A & (_ & n & _ & Ea) & ->). destruct S' as (b & B & (_ & m & _ & Eb) & ->). f_equal.
  assert (M : forall l, len (map (fun i => nth (Z.to_nat i) d ""%string) l) = len l) by (intros l; unfold len; rewrite map_length; reflexivity). rewrite M in L, L'. clear M. assert (Q : length a = length b) by (unfold len in *; lia).
  apply pack11_inj; [assumption..|]. change (flat_map _ a) with (pack_bits 11 a) in Ea. change (flat_map _ b) with (pack_bits 11 b) in Eb.
  pose proof (pack_bits_len 11 a ltac:(lia)) as La. pose proof (pack_bits_len 11 b ltac:(lia)) as Lb. assert (Q2 : length (pack_bits 11 a) = length (pack_bits 11 b)) by (unfold len in *; lia).
  rewrite Ea in Eb. apply (f_equal (firstn (length (pack_bits 11 a)))) in Eb. rewrite firstn_app, firstn_all, Nat.sub_diag, firstn_O, app_nil_r in Eb. rewrite Q2 in Eb at 1. rewrite firstn_app, firstn_all, Nat.sub_diag, firstn_O, app_nil_r in Eb. exact Eb.
Qed.
Lemma encoder_spells d c bl n : In d dictionaries -> padded bl c -> len bl = 11 * n -> 0 < n -> len c < 2 ^ 60 ->
  spells (words_of d) c (e2_encoder c (identifier d)) /\ len (e2_encoder c (identifier d)) = n.
Proof.
  intros I P L Hn Hc. destruct (pack_padded bl c n P L Hn Hc) as (Li & F & E). unfold e2_encoder, decode_base2048_list, dicts_at. destruct (data_find d I) as [-> _]. destruct (at_all d _ I F) as (A1 & _ & _). rewrite A1. split.
  - exists (base2048_pack c). split; [exact F|]. split; [|reflexivity]. change (flat_map _ (base2048_pack c)) with (pack_bits 11 (base2048_pack c)). rewrite E. exact P.
  - unfold len. rewrite map_length. exact Li.
Qed.
Lemma decoder_spells d e ws : In d dictionaries -> dict_contains_all d ws = true -> (e2_decoder ws (identifier d) = e <-> spells (words_of d) e ws).
Proof.
  intros I C. unfold e2_decoder. rewrite (encode_list d ws I C). destruct (index_all d ws I C) as (F & A & L). pose proof (unpack_packed (dict_index_all d ws)) as P. apply padded_packed in P. split.
  - intros <-. exists (dict_index_all d ws). split; [exact F|]. split; [exact P|]. rewrite <- A at 1. apply at_all; assumption.
  - intros S. destruct (spells_indexes d e ws I S) as (idx & _ & P' & _ & E & _). subst idx. apply (padded_unique _ _ _ P P').
Qed.

Lemma hmac_any checked s8 widths key data : len key < max_data -> len data < max_data -> hmac_code (sha_algorithm sha512 s8 widths) checked data key = HMAC SHA512 128 key data.
Proof.
  intros K M. assert (E0 : concat [data] = data) by (cbn [concat]; apply app_nil_r). pose proof (proj2 (C66_hmac _ _ _ _ (lib_sha512 s8 widths) checked key [data] K ltac:(rewrite E0; exact M))) as E. rewrite E0 in E. exact E.
Qed.
Lemma hmac_shape (s8 : bool) (widths : list nat) key data : (2 <= length (HMAC SHA512 128 key data))%nat /\ bytes_ok (HMAC SHA512 128 key data).
Proof. destruct (hmac512_ok s8 widths key data) as [L B]. unfold HMAC512 in L, B. split; [rewrite L; lia|exact B]. Qed.
Lemma key_short : len (chars "Seed version") < max_data.
Proof. vm_compute. reflexivity. Qed.

Section Props.
Variables (checked s8 : bool) (widths : list nat).
Variables (normal form phrase_form : string -> string).
Hypothesis form_len : forall s, len (chars (form s)) < max_data.
Notation v1_of := (v1_from_words normal).
Notation bip39_of := (MnemonicModel.from_words checked s8 widths normal).
Notation from_entropy := (e2_from_entropy checked s8 widths normal form).
Notation from_words := (e2_from_words checked s8 widths normal form).
Notation validator := (validator checked s8 widths form).
Notation is_conflict := (is_conflict checked s8 widths normal).

Definition seed_version (ws : list string) : list Z := HMAC SHA512 128 (chars "Seed version") (chars (form (String.concat " " ws))).
(** A generated seed has the version, is not a seed of the first Electrum (in english)
    and is not a BIP39 mnemonic. *)
Definition acceptable (p : seed_prefix) (ws : list string) : Prop := version_is p (seed_version ws) /\ v1_of ws en = None /\ bip39_of ws none = None.

Lemma validator_ok p ws : validator ws p = true <-> version_is p (seed_version ws).
Proof.
  unfold EseedModel.validator, seed_version. rewrite hmac_any by (exact key_short || apply form_len). destruct (hmac_shape s8 widths (chars "Seed version") (chars (form (String.concat " " ws)))) as [L B].
  revert L B. generalize (HMAC SHA512 128 (chars "Seed version") (chars (form (String.concat " " ws)))). intros h L B. apply version_text; assumption.
Qed.
Lemma conflict_ok ws : negb (is_conflict ws) = true <-> v1_of ws en = None /\ bip39_of ws none = None.
Proof.
  unfold EseedModel.is_conflict, to_conflict. destruct (v1_of ws en); [split; [discriminate|intros [X _]; discriminate X]|]. destruct (bip39_of ws none); [split; [discriminate|intros [_ X]; discriminate X]|]. split; auto.
Qed.
Definition accepts (p : seed_prefix) (ws : list string) : bool := validator ws p && negb (is_conflict ws).
Lemma accepts_ok p ws : accepts p ws = true <-> acceptable p ws.
Proof. unfold accepts. rewrite Bool.andb_true_iff, validator_ok, conflict_ok. reflexivity. Qed.

(** ** Grinding *)
Definition next (size : nat) (u : Z) (c : list Z) : list Z := mask_last u (firstn size (AccModel.hash (sha_algorithm sha512 s8 widths) checked c)).
Fixpoint tried (size : nat) (u : Z) (k : nat) (c : list Z) : list Z := match k with O => c | S k => next size u (tried size u k c) end.
Lemma tried_next size u k c : tried size u k (next size u c) = next size u (tried size u k c).
Proof. induction k as [|k IH]; cbn [tried]; [reflexivity|]. rewrite IH. reflexivity. Qed.
Lemma grind_ok size u p id limit : forall h c ws, grind checked s8 widths normal form size u p id limit h = Some (c, ws) <->
  exists k, (k <= limit)%nat /\ c = tried size u k (mask_last u h) /\ ws = e2_encoder c id /\ accepts p ws = true /\
    forall j, (j < k)%nat -> accepts p (e2_encoder (tried size u j (mask_last u h)) id) = false.
Proof.
  induction limit as [|limit IH]; intros h c ws; cbn [grind]; cbv zeta; fold (accepts p (e2_encoder (mask_last u h) id)).
  - destruct (accepts p (e2_encoder (mask_last u h) id)) eqn:A.
    + split.
      * intros E. injection E as <- <-. exists 0%nat. split; [lia|]. cbn [tried]. split; [reflexivity|]. split; [reflexivity|]. split; [exact A|]. intros j Hj. lia.
      * intros (k & Hk & -> & -> & _). assert (k = 0%nat) by lia. subst k. reflexivity.
    + split; [discriminate|]. intros (k & Hk & -> & -> & B & _). assert (k = 0%nat) by lia. subst k. cbn [tried] in B. congruence.
  - destruct (accepts p (e2_encoder (mask_last u h) id)) eqn:A.
    + split.
      * intros E. injection E as <- <-. exists 0%nat. split; [lia|]. cbn [tried]. split; [reflexivity|]. split; [reflexivity|]. split; [exact A|]. intros j Hj. lia.
      * intros (k & Hk & Ec & Ew & B & N). destruct k as [|k]; [cbn [tried] in Ec; subst; reflexivity|]. specialize (N 0%nat ltac:(lia)). cbn [tried] in N. congruence.
    + rewrite IH. change (mask_last u (firstn size _)) with (next size u (mask_last u h)). split.
      * intros (k & Hk & Ec & Ew & B & N). exists (S k). split; [lia|]. rewrite tried_next in Ec. split; [exact Ec|]. split; [exact Ew|]. split; [exact B|]. intros [|j] Hj; [exact A|]. cbn [tried]. rewrite <- tried_next. apply N. lia.
      * intros (k & Hk & Ec & Ew & B & N). destruct k as [|k]; [cbn [tried] in Ec; subst; congruence|]. exists k. split; [lia|]. rewrite tried_next. split; [exact Ec|]. split; [exact Ew|]. split; [exact B|]. intros j Hj. rewrite tried_next. apply (N (S j)). lia.
Qed.
Lemma candidate_unique e k c : candidate e k c -> forall c', candidate e k c' -> c = c'.
Proof.
  induction 1 as [c P|k q c H IH P]; intros c' H'; inversion H' as [? Pc|? ? ? Hq Pc]; subst; [apply (padded_unique _ _ _ P Pc)|].
  rewrite <- (IH _ Hq) in Pc. apply (padded_unique _ _ _ P Pc).
Qed.
Lemma tried_candidate e k : bytes_ok e -> 17 <= len e <= 64 -> let size := Z.to_nat (usable_size e) in let u := unused_bits (firstn size e) in
  let c := tried size u k (mask_last u (firstn size e)) in candidate e k c /\ len c = usable_size e /\ bytes_ok c /\ c <> [].
Proof.
  intros B L. pose proof (usable e ltac:(lia)) as U. cbv zeta in *. destruct U as (U0 & U1 & U2 & U3).
  set (s := usable_size e) in *. assert (Ls : len (firstn (Z.to_nat s) e) = s) by (unfold len in *; rewrite firstn_length; lia).
  assert (Eu : unused_bits (firstn (Z.to_nat s) e) = 8 * s - 11 * (8 * len e / 11)) by (unfold unused_bits; rewrite Ls, Z.mul_comm; exact U2). rewrite Eu.
  set (q := 8 * len e / 11) in *. set (u := 8 * s - 11 * q) in *. clear Eu.
  induction k as [|k IH].
  - cbn [tried]. assert (N : firstn (Z.to_nat s) e <> []) by (intros X; rewrite X in Ls; change (len (@nil Z)) with 0 in Ls; lia).
    assert (LM : len (mask_last u (firstn (Z.to_nat s) e)) = s) by (rewrite mask_len by exact N; exact Ls). split; [|split; [exact LM|]].
    + apply candidate_first. apply masked; [exact N|apply bytes_ok_firstn, B|exact U0|fold q; unfold u; lia|]. intros k Hk. rewrite Ls in Hk. unfold bit_at. rewrite firstn_nth; [reflexivity|]. apply Z2Nat.inj_lt; [apply Z.div_pos; lia|lia|]. apply Z.div_lt_upper_bound; lia.
    + split; [apply mask_ok, bytes_ok_firstn, B|]. intros X. rewrite X in LM. change (len (@nil Z)) with 0 in LM. lia.
  - destruct IH as (IC & IL & IB & IN). cbn [tried]. set (c := tried _ _ _ _) in *. unfold next.
    rewrite (h_hash _ _ _ (hashed_sha512 s8 widths)) by (rewrite IL; clear -L U1; change (2 ^ 61) with 2305843009213693952; change (2 ^ 40) with 1099511627776; lia).
    assert (Lc : length c = Z.to_nat s) by (unfold len in IL; lia). pose proof (h_length _ _ _ (hashed_sha512 s8 widths) c) as LH.
    assert (BH : bytes_ok (firstn (Z.to_nat s) (SHA512 c))) by (apply bytes_ok_firstn, sha512_bytes).
    assert (Lh : len (firstn (Z.to_nat s) (SHA512 c)) = s) by (unfold len; rewrite firstn_length, LH; lia).
    assert (CN : forall y, padded (whole (firstn (Z.to_nat s) (SHA512 c))) y -> candidate e (S k) y) by (intros y Hy; apply (candidate_next e k c y IC); rewrite Lc; exact Hy).
    revert BH Lh CN. generalize (firstn (Z.to_nat s) (SHA512 c)). intros h BH Lh CN. clear LH IC.
    assert (N : h <> []) by (intros X; rewrite X in Lh; change (len (@nil Z)) with 0 in Lh; lia).
    assert (LM : len (mask_last u h) = s) by (rewrite mask_len by exact N; exact Lh). split; [|split; [exact LM|]].
    + apply CN. apply masked; [exact N|exact BH|exact U0|rewrite Lh, U3; unfold u; lia|]. intros; reflexivity.
    + split; [apply mask_ok, BH|]. intros X. rewrite X in LM. change (len (@nil Z)) with 0 in LM. lia.
Qed.
(** Words are generated from entropy: the first candidate whose sentence has the
    version, and is not taken by the first Electrum or BIP39, if it is found in time. *)
Theorem C84_from_entropy d e p limit m : In d dictionaries -> native p -> bytes_ok e ->
  from_entropy e p (identifier d) limit = Some m <->
  17 <= len e <= 64 /\ two_factor_count p (8 * len e / 11) /\
  exists k c ws, (k <= limit)%nat /\ candidate e k c /\ spells (words_of d) c ws /\ acceptable p ws /\
    (forall j c' ws', (j < k)%nat -> candidate e j c' -> spells (words_of d) c' ws' -> ~ acceptable p ws') /\
    m = mke2 c [] ws (identifier d) p.
Proof.
  intros I P B. destruct (data_find d I) as [F Fn].
  assert (E1 : from_entropy e p (identifier d) limit = if e2_valid_entropy_size (len e) && negb (is_ambiguous_count (entropy_word_count e) p) then
    match grinder checked s8 widths normal form e p (identifier d) limit with None => None | Some (entropy, words) => match words with [] => None | _ => Some (mke2 entropy [] words (identifier d) p) end end else None).
  { assert (X : dicts_exists dictionaries (identifier d) = true) by (unfold dicts_exists; rewrite F; reflexivity).
    unfold e2_from_entropy. rewrite X. destruct P as [-> | [-> | [-> | ->]]]; destruct (e2_valid_entropy_size (len e)), (is_ambiguous_count _ _); reflexivity. }
  rewrite E1. clear E1. assert (E2 : e2_valid_entropy_size (len e) = true <-> 17 <= len e <= 64) by (unfold e2_valid_entropy_size; lia).
  assert (E3 : negb (is_ambiguous_count (entropy_word_count e) p) = true <-> two_factor_count p (8 * len e / 11)).
  { unfold is_ambiguous_count, two_factor_count, entropy_word_count. rewrite (Z.mul_comm (len e) 8). destruct P as [-> | [-> | [-> | ->]]]; cbn [prefix_eqb negb]; split; intros; try reflexivity; try discriminate; try lia. }
  destruct (e2_valid_entropy_size (len e)) eqn:V; cbn [andb].
  2:{ split; [discriminate|]. intros [L _]. apply E2 in L. discriminate L. }
  destruct (negb (is_ambiguous_count (entropy_word_count e) p)) eqn:A.
  2:{ split; [discriminate|]. intros (_ & T & _). apply E3 in T. discriminate T. }
  assert (L : 17 <= len e <= 64) by (apply E2; reflexivity). assert (T := proj1 E3 eq_refl). clear E2 E3 V A.
  pose proof (fun k => tried_candidate e k B L) as C. cbv zeta in C. unfold grinder. cbv zeta. set (size := Z.to_nat (usable_size e)) in *. set (u := unused_bits (firstn size e)) in *.
  set (t := fun k => tried size u k (mask_last u (firstn size e))) in *.
  assert (Q : 0 < 8 * len e / 11) by (apply Z.div_str_pos; lia).
  pose proof (usable e ltac:(lia)) as U. cbv zeta in U. destruct U as (_ & U1 & _ & _).
  assert (SP : forall k, spells (words_of d) (t k) (e2_encoder (t k) (identifier d)) /\ len (e2_encoder (t k) (identifier d)) = 8 * len e / 11).
  { intros k. destruct (C k) as (Ck & Lk & Bk & Nk). fold (t k) in Ck, Lk. assert (HL : len (t k) < 2 ^ 60) by (rewrite Lk; clear -U1 L; change (2 ^ 60) with 1152921504606846976; lia).
    assert (HP : exists bl, padded bl (t k) /\ len bl = 11 * (8 * len e / 11)).
    { inversion Ck as [? Pc E0|k' q c Hq Pc E0]; [exists (whole e); split; [exact Pc|apply whole_len]|]. exists (whole (firstn (length q) (SHA512 q))). split; [exact Pc|]. rewrite whole_len.
      assert (Eq : q = t k') by (destruct (C k') as (Ck' & _); apply (candidate_unique _ _ _ Hq _ Ck')). subst q. destruct (C k') as (_ & Lk' & _). fold (t k') in Lk'.
      pose proof (usable e ltac:(lia)) as U. cbv zeta in U. destruct U as (_ & _ & _ & U3). f_equal. rewrite <- U3. f_equal. f_equal. rewrite <- Lk'. unfold len. rewrite firstn_length.
      rewrite (h_length _ _ _ (hashed_sha512 s8 widths)). unfold len in *. lia. }
    destruct HP as (bl & HP & Hb). apply (encoder_spells d (t k) bl _ I HP Hb Q HL). }
  split.
  - intros E. split; [exact L|]. split; [exact T|].
    destruct (grind checked s8 widths normal form size u p (identifier d) limit (firstn size e)) as [[c ws]|] eqn:G; [|discriminate E].
    apply grind_ok in G. destruct G as (k & Hk & Ec & Ew & Ak & N). fold (t k) in Ec. exists k, c, ws. destruct (SP k) as [Sk Lk]. rewrite <- Ec, <- Ew in Sk, Lk.
    split; [exact Hk|]. split; [rewrite Ec; apply C|]. split; [exact Sk|]. split; [apply accepts_ok; exact Ak|]. split.
    + intros j c' ws' Hj Cj Sj Aj. specialize (N j Hj). fold (t j) in N. assert (c' = t j) by (apply (candidate_unique _ _ _ Cj), C). subst c'. rewrite (spells_unique _ _ _ _ Sj (proj1 (SP j))) in Aj. apply accepts_ok in Aj. congruence.
    + destruct ws; [discriminate E|]. congruence.
  - intros (_ & _ & k & c & ws & Hk & Ck & Sk & Ak & N & ->). assert (Ec : c = t k) by (apply (candidate_unique _ _ _ Ck), C). subst c.
    assert (Ew : ws = e2_encoder (t k) (identifier d)) by (apply (spells_unique _ _ _ _ Sk), SP).
    assert (G : grind checked s8 widths normal form size u p (identifier d) limit (firstn size e) = Some (t k, ws)).
    { apply grind_ok. exists k. split; [exact Hk|]. split; [reflexivity|]. split; [exact Ew|]. split; [apply accepts_ok; exact Ak|]. intros j Hj. fold (t j).
      destruct (accepts p (e2_encoder (t j) (identifier d))) eqn:X; [|reflexivity]. exfalso. apply accepts_ok in X. apply (N j (t j) _ Hj (proj1 (C j)) (proj1 (SP j)) X). }
    rewrite G. destruct ws as [|w ws]; [|reflexivity]. exfalso. pose proof (proj2 (SP k)) as X. rewrite <- Ew in X. change (len (@nil string)) with 0 in X. lia.
Qed.
(** A generated seed is confirmed from its own entropy, without grinding. *)
Lemma padded_whole bl c n : padded bl c -> len bl = 11 * n -> 0 <= n -> 8 * len c / 11 = n /\ whole c = bl.
Proof.
  intros (B & z & Hz & E) L Hn. assert (R : 8 * len c = 11 * n + Z.of_nat z).
  { pose proof (bits_of_len c) as Q. rewrite E, len_app, L in Q. unfold len in Q at 1. rewrite repeat_length in Q. lia. }
  assert (D : 8 * len c / 11 = n) by (symmetry; apply (Z.div_unique _ 11 n (Z.of_nat z)); lia). split; [exact D|].
  pose proof (whole_len c) as W. rewrite D in W. unfold whole in *. rewrite E in *. pose proof (Nat.mul_div_le (length (bl ++ repeat false z)) 11 ltac:(lia)) as KL. set (k := (11 * _)%nat) in *.
  assert (K : k = length bl) by (unfold len in W, L; rewrite firstn_length, app_length, repeat_length in W; rewrite app_length, repeat_length in KL; lia). rewrite K, firstn_app, firstn_all, Nat.sub_diag, firstn_O. apply app_nil_r.
Qed.
Lemma candidate_whole e k c : 17 <= len e <= 64 -> candidate e k c -> bytes_ok e -> 17 <= len c <= 64 /\ 8 * len c / 11 = 8 * len e / 11 /\ padded (whole c) c.
Proof.
  intros L C B. pose proof (tried_candidate e k B L) as T. cbv zeta in T. destruct T as (T & Lc & _ & _). rewrite <- (candidate_unique _ _ _ C _ T) in Lc.
  pose proof (usable e ltac:(lia)) as U. cbv zeta in U. destruct U as (U0 & U1 & U2 & U3).
  assert (HP : exists bl, padded bl c /\ len bl = 11 * (8 * len e / 11)).
  { inversion C as [? Pc E0|k' q c0 Hq Pc E0]; subst; [exists (whole e); split; [exact Pc|apply whole_len]|]. exists (whole (firstn (length q) (SHA512 q))). split; [exact Pc|]. rewrite whole_len.
    pose proof (tried_candidate e k' B L) as T'. cbv zeta in T'. destruct T' as (T' & Lc' & _ & _). rewrite <- (candidate_unique _ _ _ Hq _ T') in Lc'. f_equal. rewrite <- U3. f_equal. f_equal. rewrite <- Lc'. unfold len. rewrite firstn_length.
    rewrite (h_length _ _ _ (hashed_sha512 s8 widths)). unfold len in *. lia. }
  destruct HP as (bl & HP & Hb). assert (0 <= 8 * len e / 11) by (apply Z.div_pos; lia). destruct (padded_whole bl c _ HP Hb H) as [D W]. split; [|split; [exact D|rewrite W; exact HP]].
  rewrite Lc. destruct U1 as [U1|U1]; [lia|]. assert (len e <> 17); [|lia]. intros X. rewrite X in *. unfold usable_size, unused_bytes, unused_bits in U1. rewrite X in U1. change (17 - 17 * 8 mod 11 / 8) with 17 in U1. lia.
Qed.
Theorem C84_verify d e p limit m : In d dictionaries -> native p -> bytes_ok e -> from_entropy e p (identifier d) limit = Some m ->
  from_entropy (e2_entropy m) p (identifier d) 0 = Some m.
Proof.
  intros I P B E. apply (C84_from_entropy d e p limit m I P B) in E. destruct E as (L & T & k & c & ws & Hk & C & S & A & N & ->). cbn [e2_entropy].
  destruct (candidate_whole e k c L C B) as (Lc & D & W). apply C84_from_entropy; [exact I|exact P|apply W|]. split; [exact Lc|]. split; [rewrite D; exact T|].
  exists 0%nat, c, ws. split; [lia|]. split; [apply candidate_first, W|]. split; [exact S|]. split; [exact A|]. split; [intros j; lia|reflexivity].
Qed.

(** ** Reading words *)
(** What a sentence is taken for. *)
Definition has_prefix (ws : list string) (p : seed_prefix) : Prop :=
  match p with
  | p_old => v1_of ws en <> None
  | p_bip39 => v1_of ws en = None /\ bip39_of ws none <> None
  | p_none => v1_of ws en = None /\ bip39_of ws none = None /\ forall q, version_is q (seed_version ws) -> ~ two_factor_count q (len ws)
  | _ => acceptable p ws /\ two_factor_count p (len ws)
  end.
Lemma native_ok p ws : native p -> normalized_is_prefix checked s8 widths normal form ws p = true <-> version_is p (seed_version ws) /\ two_factor_count p (len ws).
Proof.
  intros P. unfold normalized_is_prefix. fold (validator ws p).
  assert (E3 : is_ambiguous_count (len ws) p = false <-> two_factor_count p (len ws)).
  { unfold is_ambiguous_count, two_factor_count. destruct P as [-> | [-> | [-> | ->]]]; cbn [prefix_eqb negb]; split; intros; try reflexivity; try discriminate; try lia. }
  rewrite <- E3, <- validator_ok. destruct P as [-> | [-> | [-> | ->]]]; cbn [prefix_eqb]; destruct (is_ambiguous_count _ _); rewrite ?Bool.orb_false_r; split; try discriminate; auto; try (intros [? ?]; congruence); intros [X Y]; exact X.
Qed.
Lemma version_native p h : version_is p h -> native p.
Proof. unfold native. destruct p; cbn [version_is]; auto; contradiction. Qed.
Theorem C84_prefix ws p : normalized_to_prefix checked s8 widths normal form ws = p <-> has_prefix ws p.
Proof.
  assert (G : has_prefix ws (normalized_to_prefix checked s8 widths normal form ws)).
  { unfold normalized_to_prefix, to_conflict. destruct (v1_of ws en) eqn:V; [cbn [prefix_eqb negb has_prefix]; congruence|]. destruct (bip39_of ws none) eqn:Bw; [cbn [prefix_eqb negb has_prefix]; split; [exact V|rewrite Bw; discriminate]|]. cbn [prefix_eqb negb].
    assert (Q : forall q, native q -> normalized_is_prefix checked s8 widths normal form ws q = true -> has_prefix ws q).
    { intros q Hq X. apply native_ok in X; [|exact Hq]. destruct X as [X Y]. assert (acceptable q ws) by (split; [exact X|]; split; assumption). destruct Hq as [-> | [-> | [-> | ->]]]; split; assumption. }
    assert (Nq : forall q, native q -> normalized_is_prefix checked s8 widths normal form ws q = false -> ~ (version_is q (seed_version ws) /\ two_factor_count q (len ws))).
    { intros q Hq X Y. apply native_ok in Y; [congruence|exact Hq]. }
    destruct (normalized_is_prefix _ _ _ _ _ ws p_standard) eqn:N1; [apply Q; unfold native; auto|].
    destruct (normalized_is_prefix _ _ _ _ _ ws p_witness) eqn:N2; [apply Q; unfold native; auto|].
    destruct (normalized_is_prefix _ _ _ _ _ ws p_two_factor) eqn:N3; [apply Q; unfold native; auto|].
    destruct (normalized_is_prefix _ _ _ _ _ ws p_two_factor_witness) eqn:N4; [apply Q; unfold native; auto|].
    cbn [has_prefix]. split; [exact V|]. split; [exact Bw|]. intros q Hv Hc. pose proof (version_native _ _ Hv) as Hq. destruct Hq as [-> | [-> | [-> | ->]]]; [apply (Nq p_standard ltac:(unfold native; auto) N1)|apply (Nq p_witness ltac:(unfold native; auto) N2)|apply (Nq p_two_factor ltac:(unfold native; auto) N3)|apply (Nq p_two_factor_witness ltac:(unfold native; auto) N4)]; split; assumption. }
  split; [intros <-; exact G|]. intros H. revert G H. generalize (normalized_to_prefix checked s8 widths normal form ws). intros q.
  unfold has_prefix, acceptable. destruct p, q; try reflexivity; intros G H; exfalso; repeat match goal with H : _ /\ _ |- _ => destruct H end; try congruence;
    try (match goal with A : version_is ?x ?h, B : version_is ?y ?h |- _ => pose proof (C84_versions x y h A B); discriminate end);
    match goal with A : forall q, version_is q _ -> _, B : version_is ?y _ |- _ => apply (A y B); assumption end.
Qed.
Theorem C84_from_words d ws m : In d dictionaries ->
  from_words ws (identifier d) = Some m <->
  12 <= len ws <= 46 /\
  match v1_of ws (identifier d) with
  | Some old => m = of_v1 old
  | None => exists e p, spells (words_of d) e (map normal ws) /\ has_prefix (map normal ws) p /\ m = mke2 e [] (map normal ws) (identifier d) p
  end.
Proof.
  intros I. destruct (data_find d I) as [F Fn]. set (ts := map normal ws). assert (Lt : len ts = len ws) by (unfold ts, len; rewrite map_length; reflexivity).
  assert (NB : language_eqb (identifier d) none = false) by (destruct (identifier d); try reflexivity; contradiction).
  assert (RB : forall l, language_eqb l l = true) by (intros []; reflexivity).
  assert (AB : is_ambiguous ts (identifier d) (identifier d) = false) by (unfold is_ambiguous; rewrite NB, Bool.andb_false_r; reflexivity).
  unfold e2_from_words. cbv zeta. fold ts. assert (V : e2_valid_word_count (len ws) = true <-> 12 <= len ws <= 46) by (unfold e2_valid_word_count; lia).
  destruct (e2_valid_word_count (len ws)); cbn [negb]; [|split; [discriminate|intros [X _]; apply V in X; discriminate X]].
  assert (W := proj1 V eq_refl). clear V. destruct (v1_of ws (identifier d)) as [old|]; [split; [intros X; split; [exact W|congruence]|intros [_ ->]; reflexivity]|].
  unfold dicts_contains. rewrite NB. cbn [negb]. rewrite F. destruct (dict_contains_all d ts) eqn:C.
  - rewrite NB, RB, AB. cbn [negb andb]. assert (Q : forall e, e2_decoder ts (identifier d) = e <-> spells (words_of d) e ts) by (intros e; apply decoder_spells; assumption).
    pose proof (proj1 (Q _) eq_refl) as S. pose proof (spells_length _ _ _ S) as SL. rewrite Lt in SL. destruct (e2_decoder ts (identifier d)) as [|x r] eqn:E; [change (len (@nil Z)) with 0 in SL; lia|]. rewrite <- E in *. clear SL. split.
    + intros X. split; [exact W|]. exists (e2_decoder ts (identifier d)), (normalized_to_prefix checked s8 widths normal form ts). split; [exact S|]. split; [apply C84_prefix; reflexivity|congruence].
    + intros (_ & e & p & Se & Hp & ->). apply Q in Se. apply C84_prefix in Hp. congruence.
  - cbn [language_eqb]. split; [discriminate|]. intros (_ & e & p & S & _). apply (spells_indexes d e ts I) in S. destruct S as (_ & _ & _ & _ & _ & X). congruence.
Qed.
(** Words read back to the same object, except in portuguese. *)
Theorem C84_round_trip_partial d e p limit m : In d dictionaries -> native p -> bytes_ok e -> (forall w, In w (words_of d) -> normal w = w) ->
  identifier d <> pt -> from_entropy e p (identifier d) limit = Some m -> from_words (e2_words m) (identifier d) = Some m.
Proof.
  intros I P B Hn Npt E. apply (C84_from_entropy d e p limit m I P B) in E. destruct E as (L & T & k & c & ws & Hk & C & S & A & N & ->). cbn [e2_words].
  destruct (candidate_whole e k c L C B) as (Lc & D & W). pose proof (spells_length _ _ _ S) as SL.
  assert (Lw : len ws = 8 * len e / 11) by (rewrite <- D; apply (Z.div_unique _ 11 (len ws) (8 * len c - 11 * len ws)); lia).
  assert (Tn : map normal ws = ws).
  { destruct (spells_indexes d c ws I S) as (idx & _ & _ & _ & _ & Cw). rewrite <- (map_id ws) at 2. apply map_ext_in. intros w Hw. apply Hn. unfold dict_contains_all in Cw. rewrite forallb_forall in Cw. apply (contains_ok d w (data_ok d I)). apply Cw. exact Hw. }
  apply C84_from_words; [exact I|]. assert (Lr : 12 <= len ws <= 46).
  { rewrite Lw. split; [apply Z.div_le_lower_bound; lia|]. assert (8 * len e / 11 < 47); [|lia]. apply Z.div_lt_upper_bound; lia. }
  split; [exact Lr|]. destruct A as (A1 & A2 & A3). assert (V : v1_of ws (identifier d) = None).
  { destruct (language_eqb (identifier d) en) eqn:Q; [assert (identifier d = en) by (destruct (identifier d); try discriminate Q; reflexivity); congruence|]. unfold v1_from_words. destruct (v1_valid_word_count _); [|reflexivity]. cbn [negb]. cbv zeta. unfold dicts_contains, to_dictionary, v1_dictionaries. cbn [find identifier].
    pose proof (proj2 (data_find d I)) as Fn. revert Q Npt Fn. destruct (identifier d); intros; try discriminate Q; try reflexivity; contradiction. }
  rewrite V. exists c, p. rewrite Tn. split; [exact S|]. split; [|reflexivity]. rewrite <- Lw in T. assert (X : acceptable p ws) by (split; [exact A1|]; split; assumption). destruct P as [-> | [-> | [-> | ->]]]; split; assumption.
Qed.
(** ** Seeds *)
Theorem C84_seed m passphrase : let password := chars (form (String.concat " " (e2_words m))) in let salt := chars ("electrum" ++ phrase_form passphrase)%string in
  len salt < max_data ->
  e2_to_seed checked s8 widths form phrase_form (Some m) passphrase =
  match e2_prefix m with
  | p_standard | p_witness | p_two_factor | p_two_factor_witness => PBKDF2 SHA512 128 64 password salt 2048 64
  | _ => repeat 0 64
  end.
Proof.
  intros password salt Hs. unfold e2_to_seed, e2_seeder. fold password salt. assert (E : pbkd_key (sha_algorithm sha512 s8 widths) checked 64 64 password salt 2048 = PBKDF2 SHA512 128 64 password salt 2048 64).
  { apply (C66_pbkdf2 _ _ _ _ (lib_sha512 s8 widths)); [apply form_len|exact Hs|]. apply (Nat.leb_le 1 2048). reflexivity. }
  destruct (e2_prefix m); cbn [is_seedable]; exact E || reflexivity.
Qed.
(** The prefix of given words, when they are already normal. *)
Theorem C84_to_prefix_partial ws p : map normal ws = ws ->
  to_prefix checked s8 widths normal form ws = p <->
  ((exists d, In d dictionaries /\ Forall (fun w => In w (words_of d)) ws) /\ has_prefix ws p) \/
  (~ (exists d, In d dictionaries /\ Forall (fun w => In w (words_of d)) ws) /\ p = p_none).
Proof.
  intros Hn. unfold to_prefix. rewrite Hn. cbv zeta. unfold dicts_contains. cbn [language_eqb negb].
  assert (Q : forall d, In d dictionaries -> dict_contains_all d ws = true <-> Forall (fun w => In w (words_of d)) ws).
  { intros d I. unfold dict_contains_all. rewrite forallb_forall, Forall_forall. split; intros X w Hw; apply (contains_ok d w (data_ok d I)), X, Hw. }
  destruct (find (fun d => dict_contains_all d ws) dictionaries) as [d|] eqn:F.
  - apply find_some in F. destruct F as [I C]. apply (Q d I) in C. destruct (data_find d I) as [_ Fn]. replace (language_eqb (identifier d) none) with false by (destruct (identifier d); try reflexivity; contradiction).
    rewrite C84_prefix. split; [intros H; left; split; [exists d; split; assumption|exact H]|]. intros [[_ H]|[N _]]; [exact H|]. exfalso. apply N. exists d. split; assumption.
  - cbn [language_eqb]. assert (N : ~ exists d, In d dictionaries /\ Forall (fun w => In w (words_of d)) ws). { intros (d & I & C). apply (Q d I) in C. pose proof (find_none _ _ F d I) as X. cbv beta in X. congruence. }
    split; [intros <-; right; split; [exact N|reflexivity]|]. intros [[X _]|[_ ->]]; [contradiction|reflexivity].
Qed.
End Props.

(** ** Where it fails *)
Definition same (s : string) : string := s.
Definition pt_entropy : list Z := [19;162;52;24;3;0;96;12;1;128;48;6;0;192;24;3;0].
(** A portuguese seed is generated whose words are a seed of the first Electrum. *)
Theorem C84_round_trip_refuted : exists p e m, native p /\
  e2_from_entropy false false [] same same e p pt 0 = Some m /\ e2_prefix m = p_standard /\
  exists m', e2_from_words false false [] same same (e2_words m) pt = Some m' /\ e2_prefix m' = p_old /\ e2_entropy m' <> e2_entropy m.
Proof.
  exists p_standard, pt_entropy. eexists. split; [left; reflexivity|]. split; [vm_compute; reflexivity|]. split; [reflexivity|].
  eexists. split; [vm_compute; reflexivity|]. split; [reflexivity|]. cbv. discriminate.
Qed.
Fixpoint lower (s : string) : string :=
  match s with
  | EmptyString => EmptyString
  | String c s => String (let n := Ascii.nat_of_ascii c in if andb (65 <=? n)%nat (n <=? 90)%nat then Ascii.ascii_of_nat (n + 32) else c) (lower s)
  end.
Definition shouted : list string := ["ATOM"; "AREA"; "AREA"; "ARCH"; "ALL"; "ALL"; "ALL"; "ALL"; "ALL"; "ALL"; "ALL"; "ALL"]%string.
(** to_prefix hashes words it has not normalized: upper case words have the standard
    prefix by is_prefix, and make a standard seed, but to_prefix finds none. *)
Theorem C84_to_prefix_refuted : exists normal ws,
  is_prefix false false [] normal same ws p_standard = true /\ omap e2_prefix (e2_from_words false false [] normal same ws en) = Some p_standard /\
  to_prefix false false [] normal same ws = p_none.
Proof. exists lower, shouted. split; [vm_compute; reflexivity|]. split; vm_compute; reflexivity. Qed.
Print Assumptions C84_versions.
Print Assumptions C84_from_entropy.
Print Assumptions C84_verify.
Print Assumptions C84_prefix.
Print Assumptions C84_from_words.
Print Assumptions C84_round_trip_partial.
Print Assumptions C84_round_trip_refuted.
Print Assumptions C84_to_prefix_partial.
Print Assumptions C84_to_prefix_refuted.
Print Assumptions C84_seed.
(** A seed in english, from 17 bytes, found at the first attempt; it reads back. *)
Example C84_ex : let e := [14;65;104;45;5;128;102;12;193;152;51;6;96;204;25;131;48] in
  omap e2_words (e2_from_entropy false false [] same same e p_standard en 0) = Some (map lower shouted) /\
  omap e2_entropy (e2_from_words false false [] same same (map lower shouted) en) = Some e.
Proof. cbv zeta. split; vm_compute; reflexivity. Qed.
