(** C37 base16, C38 base58, C39 base64 / base85 / base32. *)
From Coq Require Import String.
From Verif Require Import Base Bytes BitStreamSpec RadixModel RadixSpec RadixProofs RadixProofs2 RadixProofs3 RadixProofs4.

(** * C37 *)
(** Each byte is two lower case hexadecimal characters, high nibble first. *)
Theorem C37_encode x : bytes_ok x ->
  len (encode_base16 x) = 2 * len x /\
  map lower (encode_base16 x) = encode_base16 x /\
  forall i, 0 <= i < len x ->
    hex_value (nth (Z.to_nat (2 * i)) (encode_base16 x) 0) = Some (nth (Z.to_nat i) x 0 / 16) /\
    hex_value (nth (Z.to_nat (2 * i + 1)) (encode_base16 x) 0) = Some (nth (Z.to_nat i) x 0 mod 16).
Proof.
  intros B. split; [apply encode16_len|]. induction B as [|b x Hb B IH].
  { split; [reflexivity|]. intros i Hi. change (len (@nil Z)) with 0 in Hi. lia. }
  destruct IH as [IH1 IH2]. destruct (byte_hex b Hb) as (H1 & H2 & H3 & H4). unfold encode_base16 in *. cbn [flat_map app map].
  rewrite H3, H4, IH1. split; [reflexivity|]. intros i Hi. rewrite len_cons in Hi. destruct (Z.eq_dec i 0) as [->|Ni].
  - change (Z.to_nat (2 * 0)) with 0%nat. change (Z.to_nat (2 * 0 + 1)) with 1%nat. change (Z.to_nat 0) with 0%nat. cbn [nth]. auto.
  - replace (Z.to_nat (2 * i)) with (S (S (Z.to_nat (2 * (i - 1))))) by lia.
    replace (Z.to_nat (2 * i + 1)) with (S (S (Z.to_nat (2 * (i - 1) + 1)))) by lia.
    replace (Z.to_nat i) with (S (Z.to_nat (i - 1))) by lia. cbn [nth]. apply IH2. lia.
Qed.
Print Assumptions C37_encode.
Theorem C37_round_trip x : bytes_ok x -> decode_base16 (encode_base16 x) = Some x.
Proof.
  intros B. unfold decode_base16. rewrite encode16_len, Z.mul_comm, Z.mod_mul, encode16_hex, decode_pairs_encode by (assumption || lia). reflexivity.
Qed.
Print Assumptions C37_round_trip.
(** Accepted: exactly the even-length hexadecimal texts, either case. *)
Theorem C37_accepts (s : list Z) : decode_base16 s <> None <-> len s mod 2 = 0 /\ Forall is_hex s.
Proof.
  unfold decode_base16. destruct (Z.eqb_spec (len s mod 2) 0) as [E|E]; cbn [negb]; [|split; [congruence|tauto]].
  assert (F : forallb is_base16 s = true <-> Forall is_hex s).
  { rewrite forallb_forall, Forall_forall. split; intros H c I; apply hex_is, H, I. }
  destruct (forallb is_base16 s); cbn [negb]; split; intros H; try congruence.
  - split; [exact E|]. apply F. reflexivity.
  - destruct H as [_ H]. apply F in H. discriminate.
Qed.
Print Assumptions C37_accepts.
Theorem C37_text_round_trip s x : decode_base16 s = Some x -> bytes_ok x /\ encode_base16 x = map lower s.
Proof.
  unfold decode_base16. destruct (Z.eqb_spec (len s mod 2) 0) as [E|E]; cbn [negb]; [|discriminate].
  destruct (forallb is_base16 s) eqn:F; cbn [negb]; [|discriminate]. intros H. injection H as <-.
  destruct (encode_decode_pairs s E F) as (A & B & _). auto.
Qed.
Print Assumptions C37_text_round_trip.
(** Fixed-size decoding is decoding plus the size check. *)
Theorem C37_array n s : 0 <= n -> decode_base16_array n s =
  match decode_base16 s with Some x => if len x =? n then Some x else None | None => None end.
Proof.
  intros Hn. unfold decode_base16_array, decode_base16.
  destruct (Z.eqb_spec (len s mod 2) 0) as [E|E]; cbn [negb].
  - destruct (forallb is_base16 s) eqn:F; cbn [negb].
    + destruct (encode_decode_pairs s E F) as (_ & _ & L).
      destruct (Z.eqb_spec (len s) (2 * n)), (Z.eqb_spec (len (decode_pairs s)) n); try reflexivity; lia.
    + destruct (negb (len s =? 2 * n)); reflexivity.
  - destruct (Z.eqb_spec (len s) (2 * n)) as [E2|]; [|reflexivity]. exfalso. apply E. rewrite E2, Z.mul_comm. apply Z.mod_mul. lia.
Qed.
Print Assumptions C37_array.
(** Hash text is the hexadecimal of the reversed bytes, and parses back. *)
Theorem C37_hash n (h : list Z) : 0 <= n -> bytes_ok h ->
  encode_hash h = encode_base16 (rev h) /\
  (len h = n -> decode_hash n (encode_hash h) = Some h) /\
  (forall s x, decode_hash n s = Some x <-> decode_base16 s = Some (rev x) /\ len x = n).
Proof.
  intros Hn B. split; [reflexivity|].
  assert (G : forall s x, decode_hash n s = Some x <-> decode_base16 s = Some (rev x) /\ len x = n).
  { intros s x. unfold decode_hash, decode_base16.
    destruct (Z.eqb_spec (len s) (n * 2)) as [L|L]; cbn [negb].
    - rewrite L, Z.mod_mul by lia. cbn [Z.eqb negb]. destruct (forallb is_base16 s) eqn:F; cbn [negb]; [|split; [discriminate|intros [H _]; discriminate]].
      assert (E : len s mod 2 = 0) by (rewrite L; apply Z.mod_mul; lia).
      destruct (encode_decode_pairs s E F) as (_ & _ & LL). rewrite reverse_pairs by exact E. split.
      + intros H. injection H as <-. rewrite rev_involutive. split; [reflexivity|]. rewrite len_rev. lia.
      + intros [H _]. injection H as H. rewrite H, rev_involutive. reflexivity.
    - split; [discriminate|]. intros [H Lx]. destruct (Z.eqb_spec (len s mod 2) 0) as [E|E]; cbn [negb] in H; [|discriminate].
      destruct (forallb is_base16 s) eqn:F; cbn [negb] in H; [|discriminate]. injection H as H.
      destruct (encode_decode_pairs s E F) as (_ & _ & LL). rewrite H, len_rev in LL. lia. }
  split; [|exact G]. intros L. apply G. unfold encode_hash. split; [|exact L]. apply C37_round_trip.
  apply Forall_rev. exact B.
Qed.
Print Assumptions C37_hash.
Example C37_sat : decode_base16 (codes "00fFa5"%string) = Some [0; 255; 165] /\ encode_base16 [0; 255; 165] = codes "00ffa5"%string /\
  decode_base16 (codes "0g"%string) = None /\ decode_base16 (codes "000"%string) = None /\ decode_hash 2 (codes "01ff"%string) = Some [255; 1].
Proof. vm_compute. auto. Qed.

(** * C38 *)
Lemma alphabet58_eq : base58_chars = alphabet58. Proof. reflexivity. Qed.
(** n leading zero bytes become n leading '1's; what follows is the canonical
    base 58 numeral of the remaining bytes' big-endian value. *)
Theorem C38_encode x : bytes_ok x -> exists n y ds text,
  x = repeat 0 n ++ y /\ canonical y /\ encode_base58 x = repeat 49 n ++ text /\
  spells alphabet58 text ds /\ canonical ds /\ radix_value 58 ds = radix_value 256 y.
Proof.
  intros B. destruct (bytes_split x B) as (n & y & -> & D & C). destruct (encode_shape n y D C) as (ds & E & D5 & C5 & V).
  exists n, y, ds, (map c58 ds). repeat (split; [assumption || reflexivity|]). split; [split; [exact D5|reflexivity]|]. auto.
Qed.
Print Assumptions C38_encode.
Theorem C38_round_trip x : bytes_ok x -> decode_base58 (encode_base58 x) = Some x.
Proof.
  intros B. destruct (bytes_split x B) as (n & y & -> & D & C). destruct (encode_shape n y D C) as (ds & -> & D5 & C5 & V).
  destruct (decode_shape n ds D5 C5) as (z & -> & Dz & Cz & Vz). do 2 f_equal.
  apply (radix_inj 256); [lia|assumption..|congruence].
Qed.
Print Assumptions C38_round_trip.
Lemma decode58_alphabet s : decode_base58 s <> None -> forall c, In c s -> In c base58_chars.
Proof.
  intros H c I. unfold decode_base58 in H.
  destruct (leading_split 49 s) as (n & r & Es & Ec & Hr). rewrite Ec, Nat2Z.id in H. rewrite Es in H, I.
  rewrite skip_repeat in H. apply in_app_iff in I. destruct I as [I|I].
  - apply repeat_spec in I. subst c. vm_compute. auto.
  - match type of H with context [fold_left ?f r ?z] => destruct (fold_left f r z) eqn:F end; [|cbn in H; congruence].
    apply decode_fold_inv in F. destruct F as (ds & D & ->). apply in_map_iff in I. destruct I as (d & <- & Id).
    unfold digits_ok in D. rewrite Forall_forall in D. specialize (D d Id). unfold c58. apply nth_In.
    pose proof base58_len as L. unfold len in L. lia.
Qed.
Theorem C38_accepts s : decode_base58 s <> None <-> Forall (fun c => In c alphabet58) s.
Proof.
  rewrite Forall_forall. split; [apply decode58_alphabet|]. intros A.
  destruct (text_split s A) as (n & ds & -> & D & C). destruct (decode_shape n ds D C) as (y & -> & _). discriminate.
Qed.
Print Assumptions C38_accepts.
Theorem C38_text_round_trip s x : decode_base58 s = Some x -> bytes_ok x /\ encode_base58 x = s.
Proof.
  intros H. assert (A : forall c, In c s -> In c base58_chars) by (apply decode58_alphabet; congruence).
  destruct (text_split s A) as (n & ds & -> & D & C). destruct (decode_shape n ds D C) as (y & E & Dy & Cy & Vy). rewrite E in H. injection H as <-.
  split; [apply bytes_ok_app; split; [apply Forall_forall; intros z I; apply repeat_spec in I; subst z; split; lia|exact Dy]|].
  destruct (encode_shape n y Dy Cy) as (es & -> & De & Ce & Ve). do 2 f_equal. apply (radix_inj 58); [lia|assumption..|congruence].
Qed.
Print Assumptions C38_text_round_trip.
Theorem C38_array n s : decode_base58_array n s =
  match decode_base58 s with Some x => if len x =? n then Some x else None | None => None end.
Proof. unfold decode_base58_array. destruct (decode_base58 s); reflexivity. Qed.
Print Assumptions C38_array.
Example C38_sat : encode_base58 [0; 0; 97; 98; 99] = codes "11ZiCa"%string /\ decode_base58 (codes "11ZiCa"%string) = Some [0; 0; 97; 98; 99] /\
  decode_base58 (codes "0"%string) = None.
Proof. vm_compute. auto. Qed.

(** * C39 *)
Lemma spells64 ds : digits_ok 64 ds -> spells alphabet64 (map at64 ds) ds.
Proof. intros D. split; [exact D|reflexivity]. Qed.
Theorem C39_base64_encode x : bytes_ok x -> rfc4648 x (encode_base64 x).
Proof.
  revert x. apply (triple_ind (fun x => bytes_ok x -> rfc4648 x (encode_base64 x))).
  - intros _. constructor.
  - intros a B. inversion B as [|? ? Ha _]; subst. unfold byte_ok in Ha. cbn [encode_base64].
    pose proof (value24 a 0 0) as E. rewrite Z.shiftl_0_l, !Z.add_0_r in E. rewrite E.
    destruct (group_digits (a * 65536) ltac:(lia)) as (-> & -> & _). destruct (group_value (a * 65536) ltac:(lia)) as [V R].
    assert (M : 0 <= (a * 65536 / 4096) mod 64 < 64) by (apply Z.mod_pos_bound; lia).
    apply (rfc_one a [a * 65536 / 262144; (a * 65536 / 4096) mod 64] (map at64 [a * 65536 / 262144; (a * 65536 / 4096) mod 64])).
    + apply spells64. repeat constructor; lia.
    + reflexivity.
    + unfold radix_value. cbn [fold_left]. change (2 ^ 4) with 16.
      assert (Q1 : (a * 65536 / 64) mod 64 = 0) by (replace (a * 65536) with (a * 16 * 64 * 64) by lia; rewrite Z.div_mul by lia; apply Z.mod_mul; lia).
      assert (Q2 : (a * 65536) mod 64 = 0) by (replace (a * 65536) with (a * 1024 * 64) by lia; apply Z.mod_mul; lia). lia.
  - intros a b B. inversion B as [|? ? Ha B']; subst. inversion B' as [|? ? Hb _]; subst. unfold byte_ok in Ha, Hb. cbn [encode_base64].
    pose proof (value24 a b 0) as E. rewrite !Z.add_0_r in E. rewrite E. set (w := a * 65536 + b * 256) in *.
    destruct (group_digits w ltac:(unfold w; lia)) as (-> & -> & -> & _). destruct (group_value w ltac:(unfold w; lia)) as [V R].
    assert (0 <= (w / 4096) mod 64 < 64) by (apply Z.mod_pos_bound; lia).
    assert (0 <= (w / 64) mod 64 < 64) by (apply Z.mod_pos_bound; lia).
    assert (M : w mod 64 = 0).
    { unfold w. replace (a * 65536 + b * 256) with ((a * 1024 + b * 4) * 64) by lia. apply Z.mod_mul. lia. }
    apply (rfc_two a b [w / 262144; (w / 4096) mod 64; (w / 64) mod 64] (map at64 [w / 262144; (w / 4096) mod 64; (w / 64) mod 64])).
    + apply spells64. repeat constructor; lia.
    + reflexivity.
    + unfold radix_value. cbn [fold_left]. change (2 ^ 2) with 4. unfold w in V. fold w in V. unfold w in *. lia.
  - intros a b c l IH B. inversion B as [|? ? Ha B']; subst. inversion B' as [|? ? Hb B2]; subst. inversion B2 as [|? ? Hc Bl]; subst.
    unfold byte_ok in Ha, Hb, Hc. cbn [encode_base64]. rewrite value24. set (w := a * 65536 + b * 256 + c) in *.
    destruct (group_digits w ltac:(unfold w; lia)) as (-> & -> & -> & ->). destruct (group_value w ltac:(unfold w; lia)) as [V R].
    assert (0 <= (w / 4096) mod 64 < 64) by (apply Z.mod_pos_bound; lia).
    assert (0 <= (w / 64) mod 64 < 64) by (apply Z.mod_pos_bound; lia).
    assert (0 <= w mod 64 < 64) by (apply Z.mod_pos_bound; lia).
    apply (rfc_three a b c [w / 262144; (w / 4096) mod 64; (w / 64) mod 64; w mod 64] (map at64 [w / 262144; (w / 4096) mod 64; (w / 64) mod 64; w mod 64])).
    + apply spells64. repeat constructor; lia.
    + reflexivity.
    + unfold radix_value. cbn [fold_left]. unfold w in *. lia.
    + apply IH. exact Bl.
Qed.
Print Assumptions C39_base64_encode.
Theorem C39_base64_round_trip x : bytes_ok x -> decode_base64 (encode_base64 x) = Some x.
Proof. apply decode64_round. Qed.
Print Assumptions C39_base64_round_trip.
(** Accepted texts are not unique per value: unused bits and anything after a
    first '=' in the third place are ignored. *)
Theorem C39_base64_canonical_refuted : ~ (forall s x, decode_base64 s = Some x -> encode_base64 x = s).
Proof.
  intros H. specialize (H (codes "AA=B"%string) [0] eq_refl). vm_compute in H. discriminate.
Qed.
Print Assumptions C39_base64_canonical_refuted.
Example C39_base64_sat : encode_base64 (codes "foobar"%string) = codes "Zm9vYmFy"%string /\ encode_base64 (codes "fooba"%string) = codes "Zm9vYmE="%string /\
  decode_base64 (codes "Zm9vYg=="%string) = Some (codes "foob"%string) /\ decode_base64 (codes "Zh=="%string) = Some (codes "f"%string) /\
  encode_base64 (codes "f"%string) = codes "Zg=="%string.
Proof. vm_compute. auto 6. Qed.

(** base85: encoding is defined exactly on sizes divisible by four. *)
Theorem C39_base85_encode x : bytes_ok x ->
  (len x mod 4 <> 0 -> encode_base85 x = None) /\
  (len x mod 4 = 0 -> exists t, encode_base85 x = Some t /\ z85 x t).
Proof.
  intros B. unfold encode_base85. destruct (Z.eqb_spec (len x mod 4) 0) as [E|E]; cbn [negb]; [|split; [reflexivity|intros H; congruence]].
  split; [congruence|]. intros _. exists (encode85 x 0 0). split; [reflexivity|].
  assert (G : forall i, i mod 4 = 0 -> z85 x (encode85 x 0 i)); [|apply G; reflexivity].
  revert B. revert x E. apply (quad_ind (fun x => bytes_ok x -> forall i, i mod 4 = 0 -> z85 x (encode85 x 0 i))).
  - intros _ i _. constructor.
  - intros a b c d l IH B i Hi. inversion B as [|? ? Ha B1]; subst. inversion B1 as [|? ? Hb B2]; subst.
    inversion B2 as [|? ? Hc B3]; subst. inversion B3 as [|? ? Hd B4]; subst. unfold byte_ok in *.
    rewrite encode85_group by exact Hi. set (acc := ((a * 256 + b) * 256 + c) * 256 + d).
    pose proof (digits85_sum acc ltac:(unfold acc; lia)) as S. cbv beta zeta in S.
    apply (z85_group a b c d (map (fun x => (acc / x) mod 85) [52200625; 614125; 7225; 85; 1]) (digits85 acc)).
    + split; [|unfold digits85; rewrite map_map; reflexivity]. change (len alphabet85) with 85.
      apply Forall_map. apply Forall_forall. intros k _. apply Z.mod_pos_bound. lia.
    + reflexivity.
    + unfold radix_value. cbn [map fold_left]. rewrite Z.mul_0_l, Z.add_0_l. unfold acc in *. lia.
    + apply IH; [exact B4|]. apply next_mod_full; lia.
Qed.
Print Assumptions C39_base85_encode.
Theorem C39_base85_round_trip x t : bytes_ok x -> encode_base85 x = Some t -> decode_base85 t = Some x.
Proof. apply decode85_round. Qed.
Print Assumptions C39_base85_round_trip.
(** The decoder accepts characters that are not in the alphabet (as zero
    digits) and groups above 2^32 - 1. *)
Theorem C39_base85_alphabet_refuted : ~ (forall s x, decode_base85 s = Some x -> Forall (fun c => In c alphabet85) s).
Proof.
  intros H. specialize (H (codes "0000,"%string) [0; 0; 0; 0] eq_refl). inversion_clear H. inversion_clear H1. inversion_clear H2. inversion_clear H3. inversion_clear H4.
  vm_compute in H3. intuition discriminate.
Qed.
Print Assumptions C39_base85_alphabet_refuted.
Theorem C39_base85_canonical_refuted : ~ (forall s x, decode_base85 s = Some x ->
  Forall (fun c => In c alphabet85) s -> encode_base85 x = Some s).
Proof.
  intros H. assert (D : encode_base85 [8; 120; 14; 196] = Some (codes "#####"%string)); [|vm_compute in D; discriminate D].
  apply H; [vm_compute; reflexivity|]. vm_compute.
  repeat (apply Forall_cons; [repeat (first [left; reflexivity|right])|]). apply Forall_nil.
Qed.
Print Assumptions C39_base85_canonical_refuted.
Example C39_base85_sat : encode_base85 [134; 79; 210; 111; 181; 89; 247; 91] = Some (codes "HelloWorld"%string).
Proof. vm_compute. reflexivity. Qed.

(** base32 (bech32 alphabet): the text is the 5-bit fields of the data, the
    last one zero-filled. *)
Theorem C39_base32_encode x : len x < 2 ^ 64 ->
  spells alphabet32 (encode_base32 x) (map (fun i => field x (5 * Z.of_nat i) 5) (seq 0 (Z.to_nat ((8 * len x + 4) / 5)))).
Proof.
  intros Hl. unfold encode_base32. pose proof (base32_unpack_eq x Hl) as E. unfold cover in E.
  replace (8 * len x + 5 - 1) with (8 * len x + 4) in E by lia. rewrite <- E.
  split; [apply unpack_digits; exact Hl|reflexivity].
Qed.
Print Assumptions C39_base32_encode.
Theorem C39_base32_round_trip x : bytes_ok x -> len x < 2 ^ 64 -> decode_base32 (encode_base32 x) = Some (Some x).
Proof. apply decode32_round. Qed.
Print Assumptions C39_base32_round_trip.
(** Symbol decoding: for ASCII text the outcome is defined, and what is
    accepted spells, case-insensitively, exactly the returned symbols. *)
Theorem C39_base32_symbols s : Forall (fun c => 0 <= c < 128) s ->
  decode_base32_chunk s <> None /\
  forall u, decode_base32_chunk s = Some (Some u) -> spells alphabet32 (map lower s) u.
Proof.
  intros F. unfold decode_base32_chunk. destruct (has_mixed_ascii_case s); [split; [discriminate|intros u H; discriminate]|].
  split; [apply decode_symbols_defined; exact F|]. intros u H.
  apply decode_symbols_inv in H; [|eapply Forall_impl; [|exact F]; cbv beta; lia]. destruct H as [D E]. split; [exact D|]. symmetry. exact E.
Qed.
Print Assumptions C39_base32_symbols.
Theorem C39_base32_symbols_round_trip u : digits_ok 32 u -> decode_base32_chunk (encode_base32_chunk u) = Some (Some u).
Proof. apply decode32_chunk_round. Qed.
Print Assumptions C39_base32_symbols_round_trip.
(** A character above 127 reads beyond the 128-element decode table. *)
Theorem C39_base32_bounds_refuted : ~ (forall s, bytes_ok s -> decode_base32 s <> None).
Proof. intros H. apply (H [200]); [constructor; [split; lia|constructor]|vm_compute; reflexivity]. Qed.
Print Assumptions C39_base32_bounds_refuted.
(** Texts are not unique per value: a superfluous zero symbol is dropped. And
    non-zero padding does not fail but yields empty data. *)
Theorem C39_base32_canonical_refuted : ~ (forall s x, Forall (fun c => In c alphabet32) s -> decode_base32 s = Some (Some x) -> encode_base32 x = s).
Proof.
  intros H. specialize (H (codes "qqq"%string) [0]). assert (D : encode_base32 [0] = codes "qqq"); [|vm_compute in D; discriminate D].
  apply H; [repeat (apply Forall_cons; [left; reflexivity|]); apply Forall_nil|vm_compute; reflexivity].
Qed.
Print Assumptions C39_base32_canonical_refuted.
Example C39_base32_padding : decode_base32 (codes "ql"%string) = Some (Some []) /\ decode_base32 (codes "Ql"%string) = Some None /\
  decode_base32 (codes "b"%string) = Some None /\ decode_base32 (encode_base32 [1; 2; 3]) = Some (Some [1; 2; 3]).
Proof. vm_compute. auto. Qed.
