(** C18 compact codec, C19 block proof, C20 proof of work check. *)
From Verif Require Import Base Bytes MathModel ChainModel ChainSpec CompactModel CompactSpec CompactProofs.

(** ** C18 *)
(** Decoding: for every 32-bit value the decoded target is that of the Satoshi
    client, zero for negative or overflowed encodings, except that two groups of
    encodings that no encoder produces are also mapped to zero. *)
Theorem C18_expand_is_satoshi c : 0 <= c < 2 ^ 32 -> compact_expand c = target_of c.
Proof.
  intros Hc. destruct (split_bits c Hc) as (e & m & He & Hm & ->). rewrite expand_ok by assumption.
  destruct (spec_parts e m ltac:(lia) Hm) as (S1 & S2 & S3). unfold target_of, beyond_encoder, satoshi_target, c_negative, c_overflow, c_value. rewrite S1, S2.
  destruct (Z.leb_spec (2 ^ 23) m) as [N|N].
  - destruct ((e =? 34) || ((e =? 33) && (c_word (e * 2 ^ 24 + m) <? 32768))); [reflexivity|].
    destruct (Z.eqb_spec (c_word (e * 2 ^ 24 + m)) 0) as [E|E]; [|reflexivity]. rewrite E. cbn [negb andb orb].
    destruct (e <=? 3) eqn:E3; [|lia]. rewrite Z.div_0_l; [reflexivity|]. apply Z.pow_nonzero; lia.
  - rewrite S3 by lia. clear S1 S2 S3. rewrite andb_false_r. cbn [orb]. unfold b256.
    destruct (Z.eqb_spec e 34) as [->|N34]; [reflexivity|]. cbn [orb]. destruct (Z.eqb_spec e 33) as [->|N33]; cbn [andb].
    + destruct (Z.ltb_spec m 32768).
      * destruct (Z.leb_spec 32768 m); [lia|]. reflexivity.
      * destruct (Z.leb_spec 32768 m); [|lia]. destruct (Z.eqb_spec m 0); [lia|]. cbn [andb negb]. change (34 <? 33) with false. change (33 <? 33) with false. change (32 <? 33) with true. change (33 <=? 3) with false. change (33 <=? 32) with false. rewrite andb_false_r, andb_true_r. cbn [orb].
        destruct (Z.leb_spec m 65535); destruct (Z.ltb_spec 65535 m); try lia; reflexivity.
    + destruct (Z.leb_spec e 3).
      * destruct (Z.ltb_spec 34 e); [lia|]. destruct (Z.ltb_spec 33 e); [lia|]. destruct (Z.ltb_spec 32 e); [lia|]. rewrite !andb_false_r. reflexivity.
      * destruct (Z.leb_spec e 32).
        -- destruct (Z.ltb_spec 34 e); [lia|]. destruct (Z.ltb_spec 33 e); [lia|]. destruct (Z.ltb_spec 32 e); [lia|]. rewrite !andb_false_r. reflexivity.
        -- destruct (Z.ltb_spec 34 e); [|lia]. cbn [orb]. rewrite andb_true_r. destruct (Z.eqb_spec m 0) as [->|]; reflexivity.
Qed.
Print Assumptions C18_expand_is_satoshi.
Example C18_expand_sat : target_of 0x1d00ffff = 0xffff * 256 ^ 26 /\ target_of 0x1d80ffff = 0 /\ target_of 0x21008000 = 2 ^ 255 /\ target_of 0x23000001 = 0.
Proof. vm_compute. auto. Qed.

(** Encoding. Full claim: "for every 256-bit number the encoding is the Satoshi
    client's". Proved for every number that is not an exact power of 256 ... *)
Theorem C18_compress_is_satoshi_partial n : 0 <= n < 2 ^ 256 -> ~ power_of_256 n -> compact_compress n = satoshi_compact n.
Proof.
  intros Hn NP. destruct (Z.eq_dec n 0) as [->|N0]; [vm_compute; reflexivity|].
  destruct (log256_cases n ltac:(lia)) as [K [E|(K1 & L)]]; [exfalso; apply NP; eexists; split; [|exact E]; lia|].
  rewrite (compress_ok n (ceilinged_log256_uintx n) ltac:(lia) ltac:(lia) L eq_refl). unfold satoshi_compact. rewrite (byte_length_ok n (ceilinged_log256_uintx n)) by lia.
  cbv zeta. fold (mant (ceilinged_log256_uintx n) n). unfold cexp, cman. generalize (mant (ceilinged_log256_uintx n) n). intros w. destruct (2 ^ 23 <=? w); lia.
Qed.
Print Assumptions C18_compress_is_satoshi_partial.
(** ... and false for every exact power of 256 below 2^256: the encoder takes the
    ceilinged logarithm as the exponent, the mantissa overflows into it, and
    what is stored decodes to zero (an invalid target). *)
Theorem C18_compress_power_of_256_refuted k : 0 <= k < 32 ->
  compact_compress (256 ^ k) <> satoshi_compact (256 ^ k) /\ compact_expand (compact_compress (256 ^ k)) = 0 /\
  compact_expand (satoshi_compact (256 ^ k)) = 256 ^ k.
Proof.
  intros Hk. assert (H : In k (map Z.of_nat (seq 0 32))).
  { apply in_map_iff. exists (Z.to_nat k). split; [lia|]. apply in_seq. lia. }
  revert H. generalize k. apply Forall_forall. repeat (constructor; [vm_compute; split; [discriminate|split; reflexivity]|]). constructor.
Qed.
Print Assumptions C18_compress_power_of_256_refuted.
(** No encoding ever carries the sign bit, powers included. *)
Theorem C18_compress_never_negative n : 0 <= n < 2 ^ 256 -> 0 <= compact_compress n < 2 ^ 32 /\ Z.testbit (compact_compress n) 23 = false.
Proof.
  intros Hn. destruct (Z.eq_dec n 0) as [->|N0]; [vm_compute; repeat split; discriminate|].
  destruct (log256_cases n ltac:(lia)) as [K [E|(K1 & L)]].
  - rewrite E. destruct (Z.eq_dec (ceilinged_log256_uintx n) 32) as [E32|N32]; [rewrite E32 in E; change (256 ^ 32) with (2 ^ 256) in E; lia|].
    rewrite compress_power by lia. rewrite <- (Z.add_0_r (_ * 2 ^ 24)). rewrite testbit23 by lia. split; [|reflexivity].
    assert (0 <= Z.lor (ceilinged_log256_uintx n) 1 < 2 ^ 6); [|lia].
    split; [apply Z.lor_nonneg; lia|]. destruct (Z.eq_dec (ceilinged_log256_uintx n) 0) as [->|]; [reflexivity|].
    apply Z.log2_lt_pow2; [|rewrite Z.log2_lor by lia; apply Z.max_lub_lt; [apply Z.log2_lt_pow2; lia|reflexivity]].
    assert (Z.lor (ceilinged_log256_uintx n) 1 <> 0) by (intros X; apply Z.lor_eq_0_iff in X; lia). assert (0 <= Z.lor (ceilinged_log256_uintx n) 1) by (apply Z.lor_nonneg; lia). lia.
  - rewrite (compress_ok n (ceilinged_log256_uintx n) ltac:(lia) ltac:(lia) L eq_refl). destruct (cman_range (ceilinged_log256_uintx n) n ltac:(lia) L) as [C _].
    assert (0 <= cexp (ceilinged_log256_uintx n) n <= 33) by (unfold cexp; destruct (_ <=? _); lia).
    rewrite testbit23 by lia. split; [lia|]. destruct (Z.leb_spec (2 ^ 23) (cman (ceilinged_log256_uintx n) n)); [lia|reflexivity].
Qed.
Print Assumptions C18_compress_never_negative.
(** Every encoding is one on which the decoder is exactly the Satoshi rule. *)
Theorem C18_expand_agrees_on_encodings n : 0 <= n < 2 ^ 256 -> compact_expand (compact_compress n) = satoshi_target (compact_compress n).
Proof.
  intros Hn. destruct (C18_compress_never_negative n Hn) as [R _]. rewrite (C18_expand_is_satoshi _ R). unfold target_of.
  destruct (beyond_encoder (compact_compress n)) eqn:B; [|reflexivity]. exfalso. revert B.
  destruct (Z.eq_dec n 0) as [->|N0]; [vm_compute; discriminate|].
  destruct (log256_cases n ltac:(lia)) as [K [E|(K1 & L)]].
  - rewrite E. destruct (Z.eq_dec (ceilinged_log256_uintx n) 32) as [E32|N32]; [rewrite E32 in E; change (256 ^ 32) with (2 ^ 256) in E; lia|].
    assert (Hk : 0 <= ceilinged_log256_uintx n < 32) by lia. revert Hk. generalize (ceilinged_log256_uintx n). intros k Hk.
    assert (H : In k (map Z.of_nat (seq 0 32))).
    { apply in_map_iff. exists (Z.to_nat k). split; [lia|]. apply in_seq. lia. }
    revert H. generalize k. apply (proj1 (Forall_forall (fun k => beyond_encoder (compact_compress (256 ^ k)) = true -> False) _)). repeat (constructor; [vm_compute; discriminate|]). constructor.
  - rewrite (compress_ok n (ceilinged_log256_uintx n) ltac:(lia) ltac:(lia) L eq_refl). destruct (cman_range (ceilinged_log256_uintx n) n ltac:(lia) L) as [C _].
    assert (0 <= cexp (ceilinged_log256_uintx n) n <= 33) by (unfold cexp; destruct (_ <=? _); lia).
    destruct (spec_parts (cexp (ceilinged_log256_uintx n) n) (cman (ceilinged_log256_uintx n) n) ltac:(lia) ltac:(lia)) as (S1 & _ & S3).
    unfold beyond_encoder. rewrite S1, S3 by lia. lia.
Qed.
Print Assumptions C18_expand_agrees_on_encodings.
(** Precision: decoding an encoding drops low-order bytes only, keeping at least
    the leading fifteen bits. *)
Theorem C18_truncates_partial n : 0 <= n < 2 ^ 256 -> ~ power_of_256 n ->
  exists e, 0 <= e /\ compact_expand (compact_compress n) = n / 256 ^ e * 256 ^ e /\ (e = 0 \/ 256 ^ e * 2 ^ 15 <= n).
Proof.
  intros Hn NP. destruct (Z.eq_dec n 0) as [->|N0]; [exists 0; vm_compute; repeat split; auto; discriminate|].
  destruct (log256_cases n ltac:(lia)) as [K [E|(K1 & L)]]; [exfalso; apply NP; eexists; split; [|exact E]; lia|].
  rewrite (compress_ok n (ceilinged_log256_uintx n) ltac:(lia) ltac:(lia) L eq_refl). set (k := ceilinged_log256_uintx n) in *.
  destruct (cman_range k n ltac:(lia) L) as [C1 C2]. assert (CE : 0 <= cexp k n <= 33) by (unfold cexp; destruct (_ <=? _); lia).
  rewrite expand_ok by lia. destruct (Z.leb_spec (2 ^ 23) (cman k n)); [lia|]. unfold b256, cexp, cman in *.
  destruct (Z.leb_spec (2 ^ 23) (mant k n)) as [S|S].
  - specialize (C2 S). unfold mant in *. destruct (Z.leb_spec k 3) as [K3|K3].
    + destruct (Z.eqb_spec (k + 1) 33); [lia|]. cbn [andb]. assert (P : 0 < 256 ^ (3 - k)) by (apply Z.pow_pos_nonneg; lia). destruct (Z.leb_spec (k + 1) 3) as [K2|K2].
      * exists 0. change (256 ^ 0) with 1. rewrite Z.div_1_r, Z.mul_1_r. split; [lia|]. split; [|auto].
        replace (3 - k) with (1 + (3 - (k + 1))) by lia. rewrite Z.pow_add_r by lia. assert (Q : 0 < 256 ^ (3 - (k + 1))) by (apply Z.pow_pos_nonneg; lia).
        change (256 ^ 1) with 256. rewrite Z.div_div by lia. replace (n * (256 * 256 ^ (3 - (k + 1)))) with (n * (256 * 256 ^ (3 - (k + 1)))) by lia. apply Z.div_mul. lia.
      * assert (k = 3) by lia. replace k with 3 in * by lia. change (3 + 1 <=? 32) with true. cbv iota. change (256 ^ (3 - 3)) with 1 in *. rewrite Z.mul_1_r in *. exists 1. change (256 ^ 1) with 256. change (256 ^ (3 + 1 - 3)) with 256. split; [lia|]. split; [reflexivity|right; lia].
    + assert (P : 0 < 256 ^ (k - 3)) by (apply Z.pow_pos_nonneg; lia).
      assert (D : n / 256 ^ (k - 3) / 256 = n / 256 ^ (k - 2)).
      { rewrite Z.div_div by lia. replace 256 with (256 ^ 1) at 2 by reflexivity. rewrite <- Z.pow_add_r by lia. f_equal. f_equal. lia. }
      assert (Q : 256 ^ (k - 2) * 2 ^ 15 <= n).
      { assert (A : 2 ^ 23 * 256 ^ (k - 3) <= n) by (pose proof (Z.mul_div_le n (256 ^ (k - 3)) ltac:(lia)); nia).
        replace (k - 2) with (1 + (k - 3)) by lia. rewrite Z.pow_add_r by lia. change (256 ^ 1) with 256. lia. }
      exists (k - 2). split; [lia|]. rewrite D in *. split; [|right; exact Q].
      destruct (Z.eqb_spec (k + 1) 33).
      * destruct (Z.leb_spec 32768 (n / 256 ^ (k - 2))); [|lia]. destruct (Z.leb_spec (n / 256 ^ (k - 2)) 65535); [|lia]. cbn [andb]. f_equal. f_equal. lia.
      * cbn [andb]. destruct (Z.leb_spec (k + 1) 3); [lia|]. destruct (Z.leb_spec (k + 1) 32); [|lia]. f_equal. f_equal. lia.
  - destruct (Z.eqb_spec k 33); [lia|]. cbn [andb]. unfold mant in *. destruct (Z.leb_spec k 3) as [K3|K3].
    + exists 0. change (256 ^ 0) with 1. rewrite Z.div_1_r, Z.mul_1_r. split; [lia|]. split; [|auto]. apply Z.div_mul. apply Z.pow_nonzero; lia.
    + destruct (Z.leb_spec k 32); [|lia]. exists (k - 3). split; [lia|]. split; [reflexivity|]. right.
      replace (k - 1) with (2 + (k - 3)) in L by lia. rewrite Z.pow_add_r in L by lia. assert (P : 0 < 256 ^ (k - 3)) by (apply Z.pow_pos_nonneg; lia). change (256 ^ 2) with (2 ^ 16) in L. lia.
Qed.
Print Assumptions C18_truncates_partial.
(** A larger number never gets a smaller encoding (powers of 256 excepted). *)
Theorem C18_compress_monotone_partial x y : 0 <= x <= y -> y < 2 ^ 256 -> ~ power_of_256 x -> ~ power_of_256 y -> compact_compress x <= compact_compress y.
Proof.
  intros Hx Hy NX NY. destruct (Z.eq_dec x 0) as [->|X0].
  { change (compact_compress 0) with 0. apply (C18_compress_never_negative y). lia. }
  destruct (log256_cases x ltac:(lia)) as [KX [E|(X1 & LX)]]; [exfalso; apply NX; eexists; split; [|exact E]; lia|].
  destruct (log256_cases y ltac:(lia)) as [KY [E|(Y1 & LY)]]; [exfalso; apply NY; eexists; split; [|exact E]; lia|].
  rewrite (compress_ok x (ceilinged_log256_uintx x) ltac:(lia) ltac:(lia) LX eq_refl), (compress_ok y (ceilinged_log256_uintx y) ltac:(lia) ltac:(lia) LY eq_refl).
  set (a := ceilinged_log256_uintx x) in *. set (b := ceilinged_log256_uintx y) in *.
  destruct (cman_range a x ltac:(lia) LX) as [CX1 CX2]. destruct (cman_range b y ltac:(lia) LY) as [CY1 CY2].
  pose proof (mant_range a x ltac:(lia) LX) as MX. pose proof (mant_range b y ltac:(lia) LY) as MY.
  assert (AB : a <= b).
  { destruct (Z.le_gt_cases a b); [assumption|]. assert (256 ^ b <= 256 ^ (a - 1)) by (apply Z.pow_le_mono_r; lia). lia. }
  destruct (Z.eq_dec a b) as [Eab|Nab].
  - assert (M : mant a x <= mant b y).
    { rewrite <- Eab. unfold mant. destruct (a <=? 3) eqn:E3; [apply Z.mul_le_mono_nonneg_r; [apply Z.pow_nonneg; lia|lia]|apply Z.div_le_mono; [apply Z.pow_pos_nonneg; lia|lia]]. }
    unfold cexp, cman in *. destruct (Z.leb_spec (2 ^ 23) (mant a x)); destruct (Z.leb_spec (2 ^ 23) (mant b y)); try lia.
  - unfold cexp, cman in *. destruct (Z.leb_spec (2 ^ 23) (mant a x)); destruct (Z.leb_spec (2 ^ 23) (mant b y)); lia.
Qed.
Print Assumptions C18_compress_monotone_partial.
Example C18_monotone_sat : ~ power_of_256 (2 ^ 255) /\ ~ power_of_256 (3 * 2 ^ 200).
Proof.
  split; intros (k & Hk & E).
  - rewrite pow256 in E by lia. apply (f_equal Z.log2) in E. rewrite !Z.log2_pow2 in E by lia. lia.
  - rewrite pow256 in E by lia. apply (f_equal Z.log2) in E. rewrite Z.log2_pow2 in E by lia. vm_compute in E. destruct k; try discriminate; lia.
Qed.
(** ... and is not monotone at the powers. *)
Theorem C18_compress_monotone_refuted : compact_compress 256 < compact_compress 255.
Proof. vm_compute. reflexivity. Qed.
Print Assumptions C18_compress_monotone_refuted.

(** ** C19 *)
(** The work of a block is floor(2^256 / (target + 1)), zero for invalid bits;
    the division never fails and the result fits. *)
Lemma target_bound c : 0 <= c < 2 ^ 32 -> 0 <= target_of c < 2 ^ 256 - 1.
Proof.
  intros Hc. rewrite <- C18_expand_is_satoshi by exact Hc. destruct (split_bits c Hc) as (e & m & He & Hm & ->). rewrite expand_ok by assumption.
  destruct (Z.leb_spec (2 ^ 23) m); [lia|]. destruct ((e =? 33) && ((32768 <=? m) && (m <=? 65535))) eqn:E.
  - assert (m <= 65535) by lia. assert (0 < 256 ^ 30) by reflexivity. split; [nia|]. apply (Z.le_lt_trans _ (65535 * 256 ^ 30)); [nia|reflexivity].
  - unfold b256. destruct (Z.leb_spec e 3).
    + assert (0 < 256 ^ (3 - e)) by (apply Z.pow_pos_nonneg; lia). split; [apply Z.div_pos; lia|]. apply (Z.le_lt_trans _ m); [|lia].
      apply Z.div_le_upper_bound; nia.
    + destruct (Z.leb_spec e 32); [|lia]. assert (0 < 256 ^ (e - 3)) by (apply Z.pow_pos_nonneg; lia). assert (256 ^ (e - 3) <= 256 ^ 29) by (apply Z.pow_le_mono_r; lia).
      split; [nia|]. apply (Z.le_lt_trans _ (2 ^ 23 * 256 ^ 29)); [nia|reflexivity].
Qed.
Theorem C19_proof_is_expected_work c : 0 <= c < 2 ^ 32 -> proof c = Some (work_of c) /\ 0 <= work_of c < 2 ^ 256.
Proof.
  intros Hc. pose proof (target_bound c Hc) as B. unfold proof, work_of. rewrite C18_expand_is_satoshi by exact Hc. set (t := target_of c) in *. clearbody t.
  destruct (Z.eqb_spec t 0) as [->|N]; [split; [reflexivity|lia]|].
  rewrite (wrap_u256_small (t + 1)) by lia. destruct (Z.eqb_spec (t + 1) 0); [lia|].
  assert (Q : (2 ^ 256 - 1 - t) / (t + 1) + 1 = 2 ^ 256 / (t + 1)).
  { replace (2 ^ 256) with ((2 ^ 256 - 1 - t) + 1 * (t + 1)) at 2 by lia. rewrite Z.div_add by lia. reflexivity. }
  rewrite Q. assert (R : 0 <= 2 ^ 256 / (t + 1) < 2 ^ 256) by (split; [apply Z.div_pos; lia|apply Z.div_lt; lia]).
  rewrite wrap_u256_small by exact R. auto.
Qed.
Print Assumptions C19_proof_is_expected_work.
Example C19_sat : work_of 0x1d00ffff = 4295032833 /\ work_of 0x207fffff = 2 /\ work_of 0x1d80ffff = 0.
Proof. vm_compute. auto. Qed.
(** Lower targets are worth at least as much work. *)
Theorem C19_proof_antitone c d : 0 <= c < 2 ^ 32 -> 0 <= d < 2 ^ 32 -> 0 < target_of c <= target_of d ->
  exists a b, proof c = Some a /\ proof d = Some b /\ b <= a.
Proof.
  intros Hc Hd H. exists (work_of c), (work_of d). split; [apply (C19_proof_is_expected_work c Hc)|]. split; [apply (C19_proof_is_expected_work d Hd)|].
  unfold work_of. destruct (Z.eqb_spec (target_of c) 0); [lia|]. destruct (Z.eqb_spec (target_of d) 0); [lia|]. apply Z.div_le_compat_l; lia.
Qed.
Print Assumptions C19_proof_antitone.

(** ** C20 *)
Section C20.
Variables hash scrypt_hash : list Z -> list Z.
Definition digest_of (scrypt : bool) (h : header) : Z := le_value (if scrypt then scrypt_hash (wire_header h) else hash (wire_header h)).
(** The verdict a header deserves. *)
Definition verdict (tlimit plimit : Z) (scrypt : bool) (now : Z) (h : header) (r : hcode) : Prop :=
  match r with
  | HInvalidPow => pow_bad plimit (h_bits h) (digest_of scrypt h)
  | HFuturistic => ~ pow_bad plimit (h_bits h) (digest_of scrypt h) /\ now + tlimit < h_time h
  | HSuccess => ~ pow_bad plimit (h_bits h) (digest_of scrypt h) /\ h_time h <= now + tlimit
  end.
Fixpoint check_all (st : statics) (tlimit plimit : Z) (calls : list (bool * Z * header)) : list hcode * statics :=
  match calls with
  | [] => ([], st)
  | (s, now, h) :: rest => let (r, st1) := header_check hash scrypt_hash st tlimit plimit s now h in
                           let (l, st2) := check_all st1 tlimit plimit rest in (r :: l, st2)
  end.
Lemma check_one st tlimit plimit s now h : 0 <= plimit < 2 ^ 32 -> 0 <= h_bits h < 2 ^ 32 ->
  (forall l, s_limit st = Some l -> l = target_of plimit) -> (forall t, s_time st = Some t -> t = tlimit) ->
  let (r, st') := header_check hash scrypt_hash st tlimit plimit s now h in
  verdict tlimit plimit s now h r /\ s_limit st' = Some (target_of plimit) /\ (forall t, s_time st' = Some t -> t = tlimit).
Proof.
  intros Hp Hb HL HT. unfold header_check, is_invalid_proof_of_work, is_futuristic_timestamp. change (header_to_data h) with (wire_header h).
  rewrite !C18_expand_is_satoshi by assumption.
  assert (EL : match s_limit st with Some l => l | None => target_of plimit end = target_of plimit) by (destruct (s_limit st) as [l|]; [apply HL; reflexivity|reflexivity]).
  rewrite EL. unfold verdict, pow_bad, digest_of. set (dg := le_value (if s then scrypt_hash (wire_header h) else hash (wire_header h))).
  destruct ((target_of (h_bits h) =? 0) || (target_of plimit <? target_of (h_bits h)) || (target_of (h_bits h) <? dg)) eqn:B; cbn [s_limit s_time].
  - split; [|auto]. lia.
  - assert (ET : match s_time st with Some l => l | None => tlimit end = tlimit) by (destruct (s_time st) as [l|]; [apply HT; reflexivity|reflexivity]).
    rewrite ET. destruct (Z.ltb_spec (now + tlimit) (h_time h)); cbn [s_limit s_time]; (split; [split; lia|split; [reflexivity|congruence]]).
Qed.
(** In a process that checks headers against one set of limits, every header of
    every sequence of calls gets exactly the verdict it deserves. *)
Theorem C20_check_exact tlimit plimit calls : 0 <= plimit < 2 ^ 32 -> Forall (fun c => 0 <= h_bits (snd c) < 2 ^ 32) calls ->
  Forall2 (fun c r => verdict tlimit plimit (fst (fst c)) (snd (fst c)) (snd c) r) calls
          (fst (check_all (mkstatics None None) tlimit plimit calls)).
Proof.
  intros Hp. assert (G : forall st, (forall l, s_limit st = Some l -> l = target_of plimit) -> (forall t, s_time st = Some t -> t = tlimit) ->
    Forall (fun c : bool * Z * header => 0 <= h_bits (snd c) < 2 ^ 32) calls ->
    Forall2 (fun c r => verdict tlimit plimit (fst (fst c)) (snd (fst c)) (snd c) r) calls (fst (check_all st tlimit plimit calls))).
  { induction calls as [|[[s now] h] calls IH]; intros st HL HT F; [constructor|]. inversion F as [|? ? Hb F']; subst. cbn [snd] in Hb. cbn [check_all].
    pose proof (check_one st tlimit plimit s now h Hp Hb HL HT) as C. destruct (header_check hash scrypt_hash st tlimit plimit s now h) as [r st1].
    destruct C as (V & L1 & T1). specialize (IH st1 ltac:(congruence) T1 F'). destruct (check_all st1 tlimit plimit calls) as [l st2]. cbn [fst] in *. constructor; [exact V|exact IH]. }
  apply G; cbn; discriminate.
Qed.
(** The verdicts are mutually exclusive, so the theorem determines the result. *)
Theorem C20_verdict_unique tlimit plimit s now h r1 r2 :
  verdict tlimit plimit s now h r1 -> verdict tlimit plimit s now h r2 -> r1 = r2.
Proof. destruct r1, r2; cbn [verdict]; intros; try reflexivity; exfalso; try tauto; lia. Qed.
End C20.
Print Assumptions C20_check_exact.
Print Assumptions C20_verdict_unique.
Example C20_sat : let h := mkheader 1 [] [] 100 0x207fffff 0 in
  fst (check_all (fun _ => [1]) (fun _ => repeat 255 32) (mkstatics None None) 7200 0x207fffff [(false, 50, h); (true, 50, h)]) = [HSuccess; HInvalidPow].
Proof. vm_compute. reflexivity. Qed.
(** The limit is stored in a function-local static at the first call: a second
    call with another limit is judged by the first one, so a header that is
    above the limit it was checked against is accepted. *)
Theorem C20_second_limit_refuted : ~ (forall (hash scrypt_hash : list Z -> list Z) p1 p2 h1 h2 now,
  0 <= p1 < 2 ^ 32 -> 0 <= p2 < 2 ^ 32 -> 0 <= h_bits h1 < 2 ^ 32 -> 0 <= h_bits h2 < 2 ^ 32 ->
  let (r1, st) := header_check hash scrypt_hash (mkstatics None None) 7200 p1 false now h1 in
  let (r2, _) := header_check hash scrypt_hash st 7200 p2 false now h2 in
  verdict hash scrypt_hash 7200 p2 false now h2 r2).
Proof.
  intros H. specialize (H (fun _ => [1]) (fun _ => [1]) 0x207fffff 0x1d00ffff (mkheader 1 [] [] 100 0x207fffff 0) (mkheader 1 [] [] 100 0x207fffff 0) 100).
  assert (R : 0 <= 0x207fffff < 2 ^ 32) by lia. assert (R2 : 0 <= 0x1d00ffff < 2 ^ 32) by lia.
  specialize (H R R2 R R). vm_compute in H. destruct H as [H _]. apply H. right. left. reflexivity.
Qed.
Print Assumptions C20_second_limit_refuted.
