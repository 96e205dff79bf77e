(** base16, base64, base85. *)
From Verif Require Import Base Bytes MathProofs RadixModel RadixSpec RadixProofs.

Definition range (n : nat) : list Z := map Z.of_nat (seq 0 n).
Lemma forall_range (P : Z -> bool) n : forallb P (range n) = true -> forall b, 0 <= b < Z.of_nat n -> P b = true.
Proof.
  intros H b Hb. rewrite forallb_forall in H. apply H. unfold range. apply in_map_iff.
  exists (Z.to_nat b). split; [lia|]. apply in_seq. lia.
Qed.

(** * base16 *)
Lemma hex_is c : is_base16 c = true <-> hex_value c <> None.
Proof.
  unfold is_base16, hex_value, is_between.
  destruct ((48 <=? c) && (c <=? 57)); cbn [orb]; [split; congruence|].
  destruct ((97 <=? c) && (c <=? 102)); cbn [orb]; [split; congruence|].
  destruct ((65 <=? c) && (c <=? 70)); cbn [orb]; split; congruence.
Qed.
Lemma hex_digit c v : hex_value c = Some v -> from_base16_digit c = v /\ 0 <= v < 16.
Proof.
  unfold hex_value, from_base16_digit, is_between. intros H.
  assert (W : forall x, 0 <= x < 256 -> wrap u8 x = x).
  { intros x Hx. unfold wrap, u8; cbn [sg bits]. apply Z.mod_small. lia. }
  destruct ((48 <=? c) && (c <=? 57)) eqn:A.
  - apply andb_true_iff in A. injection H as <-.
    replace ((65 <=? c) && (c <=? 70)) with false by lia. replace ((97 <=? c) && (c <=? 102)) with false by lia.
    rewrite W by lia. lia.
  - destruct ((97 <=? c) && (c <=? 102)) eqn:B.
    + apply andb_true_iff in B. injection H as <-. replace ((65 <=? c) && (c <=? 70)) with false by lia.
      rewrite W by lia. lia.
    + destruct ((65 <=? c) && (c <=? 70)) eqn:D; [|discriminate]. apply andb_true_iff in D. injection H as <-.
      rewrite W by lia. lia.
Qed.
Lemma nibbles a b : 0 <= a < 16 -> 0 <= b < 16 -> wrap u8 (Z.lor (Z.shiftl a 4) b) = 16 * a + b.
Proof.
  intros Ha Hb.
  assert (C : forallb (fun x => forallb (fun y => wrap u8 (Z.lor (Z.shiftl x 4) y) =? 16 * x + y) (range 16)) (range 16) = true)
    by (vm_compute; reflexivity).
  pose proof (forall_range _ 16 C a Ha) as C'. cbv beta in C'. pose proof (forall_range _ 16 C' b Hb) as C''. cbv beta in C''. lia.
Qed.
Lemma hex_pair h l a b : hex_value h = Some a -> hex_value l = Some b -> from_base16_characters h l = 16 * a + b.
Proof.
  intros H L. apply hex_digit in H. apply hex_digit in L. destruct H as [E1 ?], L as [E2 ?].
  unfold from_base16_characters. rewrite E1, E2. apply nibbles; assumption.
Qed.
Lemma byte_hex b : 0 <= b < 256 ->
  hex_value (to_base16_hi_character b) = Some (b / 16) /\ hex_value (to_base16_lo_character b) = Some (b mod 16) /\
  lower (to_base16_hi_character b) = to_base16_hi_character b /\ lower (to_base16_lo_character b) = to_base16_lo_character b.
Proof.
  intros Hb.
  assert (C : forallb (fun b => match hex_value (to_base16_hi_character b), hex_value (to_base16_lo_character b) with
     | Some x, Some y => (x =? b / 16) && (y =? b mod 16) && (lower (to_base16_hi_character b) =? to_base16_hi_character b)
          && (lower (to_base16_lo_character b) =? to_base16_lo_character b)
     | _, _ => false end) (range 256) = true) by (vm_compute; reflexivity).
  pose proof (forall_range _ 256 C b Hb) as C'. cbv beta in C'.
  destruct (hex_value (to_base16_hi_character b)) as [x|]; [|discriminate].
  destruct (hex_value (to_base16_lo_character b)) as [y|]; [|discriminate].
  rewrite !andb_true_iff, !Z.eqb_eq in C'. destruct C' as (((-> & ->) & ?) & ?). auto.
Qed.
Lemma encode16_len d : len (encode_base16 d) = 2 * len d.
Proof. induction d as [|b d IH]; [reflexivity|]. unfold encode_base16 in *. cbn [flat_map app]. rewrite !len_cons, IH. lia. Qed.
Lemma encode16_hex d : bytes_ok d -> forallb is_base16 (encode_base16 d) = true.
Proof.
  induction d as [|b d IH]; intros B; [reflexivity|]. inversion B; subst. unfold encode_base16 in *. cbn [flat_map app forallb].
  rewrite IH by assumption. destruct (byte_hex b H1) as (A1 & A2 & _).
  assert (is_base16 (to_base16_hi_character b) = true) as -> by (apply hex_is; congruence).
  assert (is_base16 (to_base16_lo_character b) = true) as -> by (apply hex_is; congruence). reflexivity.
Qed.
Lemma decode_pairs_encode d : bytes_ok d -> decode_pairs (encode_base16 d) = d.
Proof.
  induction d as [|b d IH]; intros B; [reflexivity|]. inversion B; subst. unfold encode_base16 in *. cbn [flat_map app decode_pairs].
  rewrite IH by assumption. f_equal. destruct (byte_hex b H1) as (A1 & A2 & _).
  rewrite (hex_pair _ _ _ _ A1 A2). pose proof (Z.div_mod b 16). lia.
Qed.
Lemma pair_ind (P : list Z -> Prop) : P [] -> (forall a b l, P l -> P (a :: b :: l)) ->
  forall l, len l mod 2 = 0 -> P l.
Proof.
  intros H0 H2. assert (G : forall n l, (length l <= n)%nat -> len l mod 2 = 0 -> P l).
  { induction n as [|n IH]; intros l L E; [destruct l; [exact H0|cbn in L; lia]|].
    destruct l as [|a [|b l]]; [exact H0|discriminate|]. apply H2. apply IH; [cbn in L; lia|].
    rewrite !len_cons in E. replace (1 + (1 + len l)) with (len l + 1 * 2) in E by lia. rewrite Z.mod_add in E by lia. exact E. }
  intros l. apply (G (length l)). lia.
Qed.
Lemma even_pair (a b : Z) (l : list Z) : len (a :: b :: l) mod 2 = 0 -> len l mod 2 = 0.
Proof. rewrite !len_cons. replace (1 + (1 + len l)) with (len l + 1 * 2) by lia. rewrite Z.mod_add by lia. auto. Qed.

Lemma hex_lower_char c v : hex_value c = Some v -> lower c = to_base16_character v.
Proof.
  unfold hex_value, lower, to_base16_character, is_between. intros H.
  destruct ((48 <=? c) && (c <=? 57)) eqn:A.
  - injection H as <-. replace ((65 <=? c) && (c <=? 90)) with false by lia.
    replace ((0 <=? c - 48) && (c - 48 <=? 9)) with true by lia. lia.
  - destruct ((97 <=? c) && (c <=? 102)) eqn:B.
    + injection H as <-. replace ((65 <=? c) && (c <=? 90)) with false by lia.
      replace ((0 <=? c - 87) && (c - 87 <=? 9)) with false by lia. lia.
    + destruct ((65 <=? c) && (c <=? 70)) eqn:D; [|discriminate]. injection H as <-.
      replace ((65 <=? c) && (c <=? 90)) with true by lia.
      replace ((0 <=? c - 55) && (c - 55 <=? 9)) with false by lia. lia.
Qed.
Lemma encode_pair a b : 0 <= a < 16 -> 0 <= b < 16 ->
  to_base16_hi_character (16 * a + b) = to_base16_character a /\ to_base16_lo_character (16 * a + b) = to_base16_character b.
Proof.
  intros Ha Hb. unfold to_base16_hi_character, to_base16_lo_character. split.
  - rewrite Z.shiftr_div_pow2 by lia. change (2 ^ 4) with 16. f_equal. symmetry. apply (Z.div_unique _ 16 a b); lia.
  - change 15 with (Z.ones 4). rewrite Z.land_ones by lia. change (2 ^ 4) with 16. f_equal. symmetry. apply (Z.mod_unique _ 16 a b); lia.
Qed.
Lemma encode_decode_pairs l : len l mod 2 = 0 -> forallb is_base16 l = true ->
  encode_base16 (decode_pairs l) = map lower l /\ bytes_ok (decode_pairs l) /\ 2 * len (decode_pairs l) = len l.
Proof.
  revert l. apply (pair_ind (fun l => forallb is_base16 l = true ->
    encode_base16 (decode_pairs l) = map lower l /\ bytes_ok (decode_pairs l) /\ 2 * len (decode_pairs l) = len l)).
  - intros _. split; [reflexivity|]. split; [constructor|reflexivity].
  - intros h c l IH F. cbn [forallb] in F. rewrite !andb_true_iff in F. destruct F as (Hh & Hc & F).
    destruct (IH F) as (E & B & L).
    destruct (hex_value h) as [a|] eqn:VA; [|apply hex_is in Hh; congruence].
    destruct (hex_value c) as [b|] eqn:VB; [|apply hex_is in Hc; congruence].
    pose proof (hex_digit _ _ VA) as [_ RA]. pose proof (hex_digit _ _ VB) as [_ RB].
    cbn [decode_pairs map]. rewrite (hex_pair _ _ _ _ VA VB).
    destruct (encode_pair a b RA RB) as [E1 E2]. unfold encode_base16 in *. cbn [flat_map app].
    rewrite E, E1, E2, (hex_lower_char _ _ VA), (hex_lower_char _ _ VB). split; [reflexivity|].
    split; [constructor; [unfold byte_ok; lia|exact B]|]. rewrite !len_cons. lia.
Qed.

Lemma pairs_app (l m : list Z) : len l mod 2 = 0 -> decode_pairs (l ++ m) = decode_pairs l ++ decode_pairs m.
Proof. revert l. apply (pair_ind (fun l => decode_pairs (l ++ m) = decode_pairs l ++ decode_pairs m)); [reflexivity|]. intros a b l IH. cbn [app decode_pairs]. rewrite IH. reflexivity. Qed.
Lemma reverse_pairs l : len l mod 2 = 0 -> decode_pairs_reverse (rev l) = rev (decode_pairs l).
Proof.
  assert (A : forall l : list Z, len l mod 2 = 0 -> forall x y, decode_pairs_reverse (l ++ [x; y]) = decode_pairs_reverse l ++ [from_base16_characters y x]).
  { intros l0. revert l0. apply (pair_ind (fun l => forall x y, decode_pairs_reverse (l ++ [x; y]) = decode_pairs_reverse l ++ [from_base16_characters y x])); [reflexivity|].
    intros a b l0 IH x y. cbn [app decode_pairs_reverse]. rewrite IH. reflexivity. }
  assert (G : forall l : list Z, len l mod 2 = 0 -> len l mod 2 = 0 /\ decode_pairs_reverse (rev l) = rev (decode_pairs l)).
  { apply (pair_ind (fun l => len l mod 2 = 0 /\ decode_pairs_reverse (rev l) = rev (decode_pairs l))); [split; reflexivity|].
    intros a b l0 [E IH]. split.
    - rewrite !len_cons. replace (1 + (1 + len l0)) with (len l0 + 1 * 2) by lia. rewrite Z.mod_add by lia. exact E.
    - cbn [rev decode_pairs]. rewrite <- app_assoc. cbn [app]. rewrite A by (rewrite len_rev; exact E). rewrite IH. reflexivity. }
  intros E. apply (G l E).
Qed.

(** * base64 *)
Lemma table64_digit d : 0 <= d < 64 -> digit64 (at64 d) = Some d.
Proof.
  intros Hd. assert (C : forallb (fun d => match digit64 (at64 d) with Some x => x =? d | None => false end) (range 64) = true) by (vm_compute; reflexivity).
  pose proof (forall_range _ 64 C d Hd) as C'. cbv beta in C'. destruct (digit64 (at64 d)) as [x|]; [|discriminate]. f_equal. lia.
Qed.
Lemma pad64_digit : digit64 pad64 = None. Proof. reflexivity. Qed.

Lemma field64 v m s k : 0 <= s -> 0 <= k -> m = Z.shiftl (Z.ones k) s -> Z.shiftr (Z.land v m) s = (v / 2 ^ s) mod 2 ^ k.
Proof.
  intros Hs Hk ->. rewrite Z.shiftr_land, Z.shiftr_shiftl_l, Z.sub_diag, Z.shiftl_0_r by lia.
  rewrite Z.land_ones by lia. rewrite Z.shiftr_div_pow2 by lia. reflexivity.
Qed.
Lemma value24 a b c : Z.shiftl a 16 + Z.shiftl b 8 + c = a * 65536 + b * 256 + c.
Proof. rewrite !Z.shiftl_mul_pow2 by lia. change (2 ^ 16) with 65536. change (2 ^ 8) with 256. reflexivity. Qed.

(** The four digits of a group. *)
Lemma group_digits v : 0 <= v < 16777216 ->
  Z.shiftr (Z.land v 16515072) 18 = v / 262144 /\ Z.shiftr (Z.land v 258048) 12 = (v / 4096) mod 64 /\
  Z.shiftr (Z.land v 4032) 6 = (v / 64) mod 64 /\ Z.land v 63 = v mod 64.
Proof.
  intros H. split; [|split; [|split]].
  - rewrite (field64 v 16515072 18 6) by (try lia; reflexivity). change (2 ^ 18) with 262144. change (2 ^ 6) with 64.
    apply Z.mod_small. split; [apply Z.div_pos; lia|]. apply Z.div_lt_upper_bound; lia.
  - rewrite (field64 v 258048 12 6) by (try lia; reflexivity). reflexivity.
  - rewrite (field64 v 4032 6 6) by (try lia; reflexivity). reflexivity.
  - change 63 with (Z.ones 6). rewrite Z.land_ones by lia. reflexivity.
Qed.

(** One accumulation step of the decoder: only the low bits matter. *)
Lemma step64 v d : 0 <= d < 64 -> 0 <= v < 2 ^ 32 ->
  Z.lor (wrap u32 (Z.shiftl v 6)) d = (v mod 2 ^ 26) * 64 + d.
Proof.
  intros Hd Hv. assert (E : wrap u32 (Z.shiftl v 6) = Z.shiftl (v mod 2 ^ 26) 6).
  { unfold wrap, u32; cbn [sg bits]. rewrite !Z.shiftl_mul_pow2 by lia.
    change (2 ^ 32) with (2 ^ 26 * 2 ^ 6). rewrite Z.mul_mod_distr_r by (cbn; lia). reflexivity. }
  rewrite E.
  assert (Z.land (Z.shiftl (v mod 2 ^ 26) 6) d = 0) as L.
  { apply Z.bits_inj'. intros i Hi. rewrite Z.land_spec, Z.testbit_0_l, Z.shiftl_spec by lia.
    destruct (Z.lt_ge_cases i 6).
    + rewrite Z.testbit_neg_r by lia. reflexivity.
    + rewrite <- (Z.mod_small d (2 ^ 6)) by (cbn; lia). rewrite (Z.mod_pow2_bits_high d 6 i) by lia. apply andb_false_r. }
  pose proof (Z.add_nocarry_lxor (Z.shiftl (v mod 2 ^ 26) 6) d L) as A.
  rewrite <- (Z.lxor_lor _ _ L), <- A, Z.shiftl_mul_pow2 by lia. reflexivity.
Qed.

Lemma mask8_eq v k : 0 <= k -> mask8 (Z.shiftr v k) = (v / 2 ^ k) mod 256.
Proof. intros. unfold mask8. change 255 with (Z.ones 8). rewrite Z.land_ones, Z.shiftr_div_pow2 by lia. reflexivity. Qed.
Lemma mask8_0 v : mask8 v = v mod 256.
Proof. unfold mask8. change 255 with (Z.ones 8). rewrite Z.land_ones by lia. reflexivity. Qed.
Lemma low8 x a q : x = a + 256 * q -> 0 <= a < 256 -> x mod 256 = a.
Proof. intros -> H. replace (a + 256 * q) with (a + q * 256) by lia. rewrite Z.mod_add by lia. apply Z.mod_small. exact H. Qed.
Lemma div_low x n a r : x = a * n + r -> 0 <= r < n -> x / n = a.
Proof. intros -> H. symmetry. apply (Z.div_unique _ n a r); lia. Qed.
(** The accumulator after one digit, up to the wrapped high part. *)
Lemma acc64 v d : 0 <= d < 64 -> 0 <= v < 2 ^ 32 ->
  exists q, Z.lor (wrap u32 (Z.shiftl v 6)) d = v * 64 + d - q * 2 ^ 32 /\ 0 <= Z.lor (wrap u32 (Z.shiftl v 6)) d < 2 ^ 32.
Proof.
  intros Hd Hv. rewrite step64 by assumption. exists (v / 2 ^ 26). pose proof (Z.div_mod v (2 ^ 26)).
  pose proof (Z.mod_pos_bound v (2 ^ 26)). change (2 ^ 32) with (64 * 2 ^ 26). change (2 ^ 26) with 67108864 in *. lia.
Qed.
Lemma acc64_pad v : 0 <= v < 2 ^ 32 -> exists q, wrap u32 (Z.shiftl v 6) = v * 64 - q * 2 ^ 32.
Proof.
  intros Hv. destruct (acc64 v 0 ltac:(lia) Hv) as (q & E & _). rewrite Z.lor_0_r in E. exists q. lia.
Qed.
Lemma decode64_digit c d r p v out : digit64 c = Some d -> (p < 3)%nat ->
  decode64 (c :: r) p v out = decode64 r (S p) (Z.lor (wrap u32 (Z.shiftl v 6)) d) out.
Proof. intros D P. cbn [decode64]. rewrite D. destruct p as [|[|[|p]]]; [reflexivity..|lia]. Qed.
Lemma decode64_last c d r v out : digit64 c = Some d ->
  decode64 (c :: r) 3 v out = decode64 r 0 (Z.lor (wrap u32 (Z.shiftl v 6)) d)
    (out ++ [mask8 (Z.shiftr (Z.lor (wrap u32 (Z.shiftl v 6)) d) 16); mask8 (Z.shiftr (Z.lor (wrap u32 (Z.shiftl v 6)) d) 8);
             mask8 (Z.lor (wrap u32 (Z.shiftl v 6)) d)]).
Proof. intros D. cbn [decode64]. rewrite D. reflexivity. Qed.

Lemma decode64_group c0 c1 c2 c3 d0 d1 d2 d3 a b c r v out :
  digit64 c0 = Some d0 -> digit64 c1 = Some d1 -> digit64 c2 = Some d2 -> digit64 c3 = Some d3 ->
  0 <= d0 < 64 -> 0 <= d1 < 64 -> 0 <= d2 < 64 -> 0 <= d3 < 64 ->
  0 <= a < 256 -> 0 <= b < 256 -> 0 <= c < 256 ->
  d0 * 262144 + d1 * 4096 + d2 * 64 + d3 = a * 65536 + b * 256 + c ->
  0 <= v < 2 ^ 32 -> exists v', 0 <= v' < 2 ^ 32 /\
  decode64 (c0 :: c1 :: c2 :: c3 :: r) 0 v out = decode64 r 0 v' (out ++ [a; b; c]).
Proof.
  intros D0 D1 D2 D3 B0 B1 B2 B3 Ba Bb Bc E Hv.
  rewrite (decode64_digit c0 d0), (decode64_digit c1 d1), (decode64_digit c2 d2) by (assumption || lia).
  rewrite (decode64_last c3 d3) by assumption.
  destruct (acc64 v d0 B0 Hv) as (q0 & E0 & H0). set (v0 := Z.lor (wrap u32 (Z.shiftl v 6)) d0) in *.
  destruct (acc64 v0 d1 B1 H0) as (q1 & E1 & H1). set (v1 := Z.lor (wrap u32 (Z.shiftl v0 6)) d1) in *.
  destruct (acc64 v1 d2 B2 H1) as (q2 & E2 & H2). set (v2 := Z.lor (wrap u32 (Z.shiftl v1 6)) d2) in *.
  destruct (acc64 v2 d3 B3 H2) as (q3 & E3 & H3). set (v3 := Z.lor (wrap u32 (Z.shiftl v2 6)) d3) in *.
  exists v3. split; [exact H3|].
  set (q := v - q0 * 256 * 64 * 64 * 64 - q1 * 256 * 64 * 64 - q2 * 256 * 64 - q3 * 256).
  assert (X : v3 = a * 65536 + b * 256 + c + 16777216 * q).
  { unfold q. change (2 ^ 32) with 4294967296 in *. lia. }
  rewrite !mask8_eq, mask8_0 by lia. change (2 ^ 16) with 65536. change (2 ^ 8) with 256.
  rewrite (div_low v3 65536 (a + 256 * q) (b * 256 + c)) by lia. rewrite (low8 (a + 256 * q) a q) by lia.
  rewrite (div_low v3 256 (a * 256 + b + 65536 * q) c) by lia. rewrite (low8 (a * 256 + b + 65536 * q) b (a + 256 * q)) by lia.
  rewrite (low8 v3 c (a * 256 + b + 65536 * q)) by lia. reflexivity.
Qed.
Lemma decode64_pad1 c0 c1 c2 d0 d1 d2 v out :
  digit64 c0 = Some d0 -> digit64 c1 = Some d1 -> digit64 c2 = Some d2 ->
  0 <= d0 < 64 -> 0 <= d1 < 64 -> 0 <= d2 < 64 -> 0 <= v < 2 ^ 32 ->
  decode64 [c0; c1; c2; pad64] 0 v out = Some (out ++ [d0 * 4 + d1 / 16; d1 mod 16 * 16 + d2 / 4]).
Proof.
  intros D0 D1 D2 B0 B1 B2 Hv.
  rewrite (decode64_digit c0 d0), (decode64_digit c1 d1), (decode64_digit c2 d2) by (assumption || lia).
  destruct (acc64 v d0 B0 Hv) as (q0 & E0 & H0). set (v0 := Z.lor (wrap u32 (Z.shiftl v 6)) d0) in *.
  destruct (acc64 v0 d1 B1 H0) as (q1 & E1 & H1). set (v1 := Z.lor (wrap u32 (Z.shiftl v0 6)) d1) in *.
  destruct (acc64 v1 d2 B2 H1) as (q2 & E2 & H2). set (v2 := Z.lor (wrap u32 (Z.shiftl v1 6)) d2) in *.
  cbn [decode64 length]. rewrite pad64_digit, Z.eqb_refl.
  destruct (acc64_pad v2 H2) as (q3 & E3). set (v3 := wrap u32 (Z.shiftl v2 6)) in *.
  set (q := v - q0 * 256 * 64 * 64 * 64 - q1 * 256 * 64 * 64 - q2 * 256 * 64 - q3 * 256).
  pose proof (Z.div_mod d1 16 ltac:(lia)). pose proof (Z.mod_pos_bound d1 16 ltac:(lia)).
  pose proof (Z.div_mod d2 4 ltac:(lia)). pose proof (Z.mod_pos_bound d2 4 ltac:(lia)).
  set (a := d1 / 16) in *. set (b := d1 mod 16) in *. set (c := d2 / 4) in *. set (e := d2 mod 4) in *.
  assert (X : v3 = (d0 * 4 + a) * 65536 + (b * 16 + c) * 256 + e * 64 + 16777216 * q).
  { unfold q. change (2 ^ 32) with 4294967296 in *. lia. }
  do 2 f_equal. rewrite !mask8_eq by lia. change (2 ^ 16) with 65536. change (2 ^ 8) with 256.
  rewrite (div_low v3 65536 (d0 * 4 + a + 256 * q) ((b * 16 + c) * 256 + e * 64)) by lia.
  rewrite (low8 (d0 * 4 + a + 256 * q) (d0 * 4 + a) q) by lia.
  rewrite (div_low v3 256 ((d0 * 4 + a) * 256 + (b * 16 + c) + 65536 * q) (e * 64)) by lia.
  rewrite (low8 ((d0 * 4 + a) * 256 + (b * 16 + c) + 65536 * q) (b * 16 + c) (d0 * 4 + a + 256 * q)) by lia. reflexivity.
Qed.
Lemma decode64_pad2 c0 c1 x d0 d1 v out :
  digit64 c0 = Some d0 -> digit64 c1 = Some d1 ->
  0 <= d0 < 64 -> 0 <= d1 < 64 -> 0 <= v < 2 ^ 32 ->
  decode64 [c0; c1; pad64; x] 0 v out = Some (out ++ [d0 * 4 + d1 / 16]).
Proof.
  intros D0 D1 B0 B1 Hv.
  rewrite (decode64_digit c0 d0), (decode64_digit c1 d1) by (assumption || lia).
  destruct (acc64 v d0 B0 Hv) as (q0 & E0 & H0). set (v0 := Z.lor (wrap u32 (Z.shiftl v 6)) d0) in *.
  destruct (acc64 v0 d1 B1 H0) as (q1 & E1 & H1). set (v1 := Z.lor (wrap u32 (Z.shiftl v0 6)) d1) in *.
  cbn [decode64 length]. rewrite pad64_digit, Z.eqb_refl.
  destruct (acc64_pad v1 H1) as (q2 & E2). set (v2 := wrap u32 (Z.shiftl v1 6)) in *.
  set (q := v - q0 * 256 * 64 * 64 * 64 - q1 * 256 * 64 * 64 - q2 * 256 * 64).
  pose proof (Z.div_mod d1 16 ltac:(lia)). pose proof (Z.mod_pos_bound d1 16 ltac:(lia)).
  set (a := d1 / 16) in *. set (b := d1 mod 16) in *.
  assert (X : v2 = (d0 * 4 + a) * 1024 + b * 64 + 262144 * q).
  { unfold q. change (2 ^ 32) with 4294967296 in *. lia. }
  do 3 f_equal. rewrite !mask8_eq by lia. change (2 ^ 10) with 1024.
  rewrite (div_low v2 1024 (d0 * 4 + a + 256 * q) (b * 64)) by lia.
  apply (low8 _ _ q); lia.
Qed.

Lemma group_value v : 0 <= v < 16777216 -> 
  v / 262144 * 262144 + (v / 4096) mod 64 * 4096 + (v / 64) mod 64 * 64 + v mod 64 = v /\ 0 <= v / 262144 < 64.
Proof.
  intros H. split; [|split; [apply Z.div_pos; lia|apply Z.div_lt_upper_bound; lia]].
  replace (v / 262144) with (v / 64 / 64 / 64) by (rewrite !Z.div_div by lia; reflexivity).
  replace (v / 4096) with (v / 64 / 64) by (rewrite !Z.div_div by lia; reflexivity).
  pose proof (Z.div_mod v 64 ltac:(lia)). pose proof (Z.div_mod (v / 64) 64 ltac:(lia)). pose proof (Z.div_mod (v / 64 / 64) 64 ltac:(lia)). lia.
Qed.

Lemma triple_ind (P : list Z -> Prop) : P [] -> (forall a, P [a]) -> (forall a b, P [a; b]) ->
  (forall a b c l, P l -> P (a :: b :: c :: l)) -> forall l, P l.
Proof.
  intros H0 H1 H2 H3. assert (G : forall n l, (length l <= n)%nat -> P l).
  { induction n as [|n IH]; intros l L; [destruct l; [exact H0|cbn in L; lia]|].
    destruct l as [|a [|b [|c l]]]; [exact H0|apply H1|apply H2|]. apply H3. apply IH. cbn in L; lia. }
  intros l. apply (G (length l)). lia.
Qed.
Lemma decode64_encode l : bytes_ok l -> forall v out, 0 <= v < 2 ^ 32 -> decode64 (encode_base64 l) 0 v out = Some (out ++ l).
Proof.
  revert l. apply (triple_ind (fun l => bytes_ok l -> forall v out, 0 <= v < 2 ^ 32 -> decode64 (encode_base64 l) 0 v out = Some (out ++ l))).
  - intros _ v out _. cbn. rewrite app_nil_r. reflexivity.
  - intros a B v out Hv. inversion B as [|? ? Ha _]; subst. unfold byte_ok in Ha. cbn [encode_base64].
    pose proof (value24 a 0 0) as E. rewrite Z.shiftl_0_l, !Z.add_0_r in E. rewrite E.
    destruct (group_digits (a * 65536) ltac:(lia)) as (-> & -> & _). destruct (group_value (a * 65536) ltac:(lia)) as [V R].
    assert (0 <= (a * 65536 / 4096) mod 64 < 64) by (apply Z.mod_pos_bound; lia).
    rewrite (decode64_pad2 _ _ _ (a * 65536 / 262144) ((a * 65536 / 4096) mod 64)) by (try apply table64_digit; assumption).
    do 3 f_equal. clear -Ha V R.
    replace (a * 65536 / 262144) with (a / 4) by (change 262144 with (4 * 65536); rewrite Z.div_mul_cancel_r by lia; reflexivity).
    replace (a * 65536 / 4096) with (a * 16) by (replace (a * 65536) with (a * 16 * 4096) by lia; rewrite Z.div_mul by lia; reflexivity).
    change 64 with (4 * 16). rewrite Z.mul_mod_distr_r by lia. rewrite Z.div_mul by lia. pose proof (Z.div_mod a 4 ltac:(lia)). lia.
  - intros a b B v out Hv. inversion B as [|? ? Ha B']; subst. inversion B' as [|? ? Hb _]; subst. unfold byte_ok in Ha, Hb. cbn [encode_base64].
    pose proof (value24 a b 0) as E. rewrite !Z.add_0_r in E. rewrite E. set (w := a * 65536 + b * 256) in *.
    destruct (group_digits w ltac:(unfold w; lia)) as (-> & -> & -> & _). destruct (group_value w ltac:(unfold w; lia)) as [V R].
    assert (0 <= (w / 4096) mod 64 < 64) by (apply Z.mod_pos_bound; lia).
    assert (0 <= (w / 64) mod 64 < 64) by (apply Z.mod_pos_bound; lia).
    rewrite (decode64_pad1 _ _ _ (w / 262144) ((w / 4096) mod 64) ((w / 64) mod 64)) by (try apply table64_digit; assumption).
    assert (M : w mod 64 = 0).
    { unfold w. replace (a * 65536 + b * 256) with ((a * 1024 + b * 4) * 64) by lia. apply Z.mod_mul. lia. }
    set (d0 := w / 262144) in *. set (d1 := (w / 4096) mod 64) in *. set (d2 := (w / 64) mod 64) in *.
    pose proof (Z.div_mod d1 16 ltac:(lia)). pose proof (Z.mod_pos_bound d1 16 ltac:(lia)).
    pose proof (Z.div_mod d2 4 ltac:(lia)). pose proof (Z.mod_pos_bound d2 4 ltac:(lia)).
    set (p := d1 / 16) in *. set (q := d1 mod 16) in *. set (s := d2 / 4) in *. set (t := d2 mod 4) in *.
    do 3 f_equal; [|f_equal]; unfold w in V; lia.
  - intros a b c l IH B v out Hv. inversion B as [|? ? Ha B']; subst. inversion B' as [|? ? Hb B2]; subst. inversion B2 as [|? ? Hc Bl]; subst.
    unfold byte_ok in Ha, Hb, Hc. cbn [encode_base64]. rewrite value24. set (w := a * 65536 + b * 256 + c) in *.
    destruct (group_digits w ltac:(unfold w; lia)) as (-> & -> & -> & ->). destruct (group_value w ltac:(unfold w; lia)) as [V R].
    assert (0 <= (w / 4096) mod 64 < 64) by (apply Z.mod_pos_bound; lia).
    assert (0 <= (w / 64) mod 64 < 64) by (apply Z.mod_pos_bound; lia).
    assert (0 <= w mod 64 < 64) by (apply Z.mod_pos_bound; lia). cbn [app].
    destruct (decode64_group _ _ _ _ _ _ _ _ a b c (encode_base64 l) v out
       (table64_digit _ R) (table64_digit ((w / 4096) mod 64) ltac:(assumption)) (table64_digit ((w / 64) mod 64) ltac:(assumption))
       (table64_digit (w mod 64) ltac:(assumption))) as (v' & Hv' & ->); try assumption; try lia.
    rewrite IH by assumption. rewrite <- app_assoc. reflexivity.
Qed.
Lemma encode64_len l : len (encode_base64 l) mod 4 = 0 /\ len (encode_base64 l) = (len l + 2) / 3 * 4.
Proof.
  assert (G : len (encode_base64 l) = (len l + 2) / 3 * 4).
  { revert l. apply (triple_ind (fun l => len (encode_base64 l) = (len l + 2) / 3 * 4)); try reflexivity.
    intros a b c l IH. cbn [encode_base64 app]. rewrite !len_cons, IH.
    replace (1 + (1 + (1 + len l)) + 2) with (len l + 2 + 1 * 3) by lia. rewrite Z.div_add by lia. lia. }
  split; [|exact G]. rewrite G. apply Z.mod_mul. lia.
Qed.
Lemma decode64_round l : bytes_ok l -> decode_base64 (encode_base64 l) = Some l.
Proof.
  intros B. unfold decode_base64. destruct (encode64_len l) as [-> _]. cbn [Z.eqb negb].
  rewrite decode64_encode by (try assumption; cbn; lia). reflexivity.
Qed.
