From Coq Require Import Sorting.Sorted.
From Verif Require Import Base Bytes MathModel ChainModel CompactModel CompactSpec CompactProofs CompactProps StateModel StateSpec StateProofs StateProofs2.

(** ** rolling *)
Lemma between_self hs a : between hs a a = [].
Proof. unfold between. replace (a - a) with 0 by lia. reflexivity. Qed.
Lemma between_snoc hs a b : 0 <= a <= b -> b + 1 < len hs -> between hs a (b + 1) = between hs a b ++ [at_height hs (b + 1)].
Proof.
  intros H L. unfold between, at_height, len in *. replace (Z.to_nat (b + 1 - a)) with (S (Z.to_nat (b - a))) by lia.
  replace (Z.to_nat (b + 1)) with (Z.to_nat (a + 1) + Z.to_nat (b - a))%nat by lia.
  assert (G : (Z.to_nat (a + 1) + Z.to_nat (b - a) < length hs)%nat) by lia. revert G. generalize (Z.to_nat (a + 1)) (Z.to_nat (b - a)). clear. intros m n. revert hs n.
  induction m as [|m IH]; intros hs n G.
  - cbn [skipn plus]. revert n G. induction hs as [|x hs IH]; intros n G; cbn [length] in G; [lia|]. destruct n; [reflexivity|]. cbn [firstn nth app]. f_equal. apply IH. cbn in *. lia.
  - destruct hs as [|x hs]; cbn [length] in G; [lia|]. cbn [skipn plus nth]. apply IH. lia.
Qed.
Lemma roll_snoc hash s d l h : roll hash s d (l ++ [h]) = to_header hash (roll hash s d l) (s_forks s) h s.
Proof. unfold roll. rewrite fold_left_app. reflexivity. Qed.
Lemma roll_ind hash hs s (P : Z -> data -> Prop) a d : 0 <= a -> P a d ->
  (forall b d, a <= b -> b + 1 < len hs -> P b d -> P (b + 1) (to_header hash d (s_forks s) (at_height hs (b + 1)) s)) ->
  forall b, a <= b < len hs -> P b (roll hash s d (between hs a b)).
Proof.
  intros Ha H0 HS b Hb. replace b with (a + Z.of_nat (Z.to_nat (b - a))) by lia. assert (L : a + Z.of_nat (Z.to_nat (b - a)) < len hs) by lia. revert L. generalize (Z.to_nat (b - a)). clear b Hb.
  intros n. induction n as [|n IH]; intros L.
  - replace (a + Z.of_nat 0) with a by lia. rewrite between_self. exact H0.
  - replace (a + Z.of_nat (S n)) with (a + Z.of_nat n + 1) in * by lia. rewrite between_snoc by lia. rewrite roll_snoc. apply HS; [lia|lia|]. apply IH. lia.
Qed.

(** ** work required *)
Definition retarget_calc (limit : Z) (s : settings) (base span : Z) : Z :=
  let target := compact_expand base in
  let timewarp := if patch_timewarp (s_forks s) limit target then 1 else 0 in
  let target := wrap u256 (Z.shiftl (wrap u256 (Z.shiftr target timewarp * span) / s_interval_seconds s) timewarp) in
  if limit <? target then s_pow_limit s else compact_compress target.
Definition required (limit : Z) (hs : list header) (s : settings) (b base : Z) : Z :=
  if b =? 0 then 0
  else if target_of (h_bits (at_height hs (b - 1))) =? 0 then 0
  else if negb (f_retarget (s_forks s)) then h_bits (at_height hs (b - 1))
  else if b mod interval_of s =? 0 then retarget_calc limit s base (span_at hs s b)
  else if f_difficult (s_forks s) then h_bits (at_height hs (b - 1))
  else if h_time (at_height hs (b - 1)) + 2 * s_spacing s <? h_time (at_height hs b) then s_pow_limit s
  else real_bits hs (interval_of s) (s_pow_limit s) (Z.to_nat b).

Section Work.
  Variables (hash : header -> list Z) (hs : list header) (s : settings).
  Hypothesis (Hs : sane s) (Hlen : len hs < 2 ^ 63) (Hh : Forall header_fields_ok hs).
  Hypothesis (Hltc : f_retarget (s_forks s) = true -> f_ltc_time_warp_patch (s_forks s) = false).

  Lemma bitss_back b d : 1 <= b < len hs -> Inv hash hs s b d -> back (d_bitss d) = Some (h_bits (at_height hs (b - 1))).
  Proof.
    intros Hb [_ _ _ _ _ _ _ _ _ (n & I10 & I11 & _)]. assert (E : below hs b = below hs (b - 1) ++ [at_height hs (b - 1)]) by (rewrite <- below_snoc by lia; f_equal; lia).
    rewrite I10, E, map_app. cbn [map]. apply back_last_n. lia.
  Qed.
  Lemma work_required_inv limit b d base : 0 <= b < len hs -> Inv hash hs s b d ->
    (f_retarget (s_forks s) = true -> 1 <= b -> b mod interval_of s = 0 -> work_required_retarget_bits d (s_forks s) (s_pow_limit s) (interval_of s) = Some base) ->
    work_required limit d (s_forks s) s = Some (required limit hs s b base).
  Proof.
    intros Hb I Hbase. pose proof (interval_pos s Hs) as IP. unfold work_required, required. rewrite (i_height _ _ _ _ _ I). destruct (Z.eqb_spec b 0) as [|N]; [reflexivity|].
    rewrite (bitss_back b d ltac:(lia) I). cbn [obind].
    rewrite C18_expand_is_satoshi by (apply (at_height_ok hs Hh (b - 1)); lia). destruct (target_of _ =? 0); [reflexivity|].
    destruct (f_retarget (s_forks s)) eqn:R; cbn [negb]; [|reflexivity].
    unfold is_retarget_height, retarget_distance, retargeting_interval. fold (interval_of s).
    destruct (Z.eqb_spec (b mod interval_of s) 0) as [M|M].
    - unfold work_required_retarget, retargeting_interval. fold (interval_of s). rewrite Hbase by (try reflexivity; lia). cbn [obind].
      rewrite (clamp_span hs s b d Hs ltac:(lia) Hh (i_times _ _ _ _ _ I) M).
      2:{ rewrite (i_retarget _ _ _ _ _ I ltac:(lia) R (Hltc eq_refl)). rewrite M. reflexivity. }
      cbn [obind]. destruct (Z.eqb_spec (s_interval_seconds s) 0); [destruct Hs; lia|]. reflexivity.
    - destruct (f_difficult (s_forks s)) eqn:D; cbn [negb]; [reflexivity|].
      destruct (i_bitss _ _ _ _ _ I) as (n & E1 & E2 & E3). specialize (E3 R D). unfold easy_work_required. rewrite (i_times _ _ _ _ _ I).
      assert (E : below hs b = below hs (b - 1) ++ [at_height hs (b - 1)]) by (rewrite <- below_snoc by lia; f_equal; lia).
      rewrite E, map_app. cbn [map]. rewrite back_last_n by lia. cbn [obind].
      rewrite (i_time _ _ _ _ _ I). destruct Hs as (S1 & S2 & S3 & S4 & S5 & S6).
      rewrite Z.shiftl_mul_pow2 by lia. rewrite wrap_u32_small by lia.
      destruct (at_height_ok hs Hh (b - 1) ltac:(lia)) as (_ & T1 & _). destruct (at_height_ok hs Hh b ltac:(lia)) as (_ & T2 & _).
      assert (Q : (u32_cadd (h_time (at_height hs (b - 1))) (s_spacing s * 2 ^ 1) <? h_time (at_height hs b)) = (h_time (at_height hs (b - 1)) + 2 * s_spacing s <? h_time (at_height hs b))).
      { unfold u32_cadd. destruct (Z.ltb_spec (2 ^ 32 - 1 - s_spacing s * 2 ^ 1) (h_time (at_height hs (b - 1)))); lia. }
      rewrite Q. clear Q. destruct (_ <? _); [reflexivity|]. rewrite E1, (i_height _ _ _ _ _ I).
      rewrite walk_reaches; [reflexivity|exact Hs|exact Hlen|lia|lia|].
      unfold need in E3. destruct (Z.eqb_spec (b mod interval_of s) 0); [lia|].
      destruct (mod_step (b - 1) (interval_of s) IP ltac:(lia)) as [[M1 M2]|[M1 M2]]; replace (b - 1 + 1) with b in M1 by lia; [|lia].
      pose proof (Z.mod_le (b - 1) (interval_of s) ltac:(lia) ltac:(lia)). lia.
  Qed.
  (** the base bits *)
  Lemma base_plain b d : 1 <= b < len hs -> Inv hash hs s b d -> f_block_storm_patch (s_forks s) = false ->
    work_required_retarget_bits d (s_forks s) (s_pow_limit s) (interval_of s) = Some (h_bits (at_height hs (b - 1))).
  Proof. intros Hb I St. unfold work_required_retarget_bits. rewrite St. apply (bitss_back b d Hb I). Qed.
  Lemma base_storm b d n : 1 <= b < len hs -> Inv hash hs s b d -> f_block_storm_patch (s_forks s) = true -> b mod interval_of s = 0 ->
    d_bitss d = last_n n (map h_bits (below hs b)) -> interval_of s <= n <= b ->
    work_required_retarget_bits d (s_forks s) (s_pow_limit s) (interval_of s) = Some (real_bits hs (interval_of s) (s_pow_limit s) (Z.to_nat b)).
  Proof.
    intros Hb I St M E Hn. pose proof (interval_pos s Hs) as IP. unfold work_required_retarget_bits. rewrite St, E, (i_height _ _ _ _ _ I).
    rewrite walk_reaches; [reflexivity|exact Hs|exact Hlen|lia|lia|]. pose proof (Z.mod_pos_bound (b - 1) (interval_of s)). lia.
  Qed.
  (** after rolling at least one header to a retarget height beyond the first interval, the whole interval is present *)
  Lemma storm_full b d : 0 <= b -> b + 1 < len hs -> 2 * interval_of s <= b + 1 -> f_retarget (s_forks s) = true -> f_difficult (s_forks s) = false ->
    (b + 1) mod interval_of s = 0 -> Inv hash hs s b d ->
    exists n, d_bitss (to_header hash d (s_forks s) (at_height hs (b + 1)) s) = last_n n (map h_bits (below hs (b + 1))) /\ interval_of s <= n <= b + 1.
  Proof.
    intros Hb Hb1 H2 R D M I. pose proof (interval_pos s Hs) as IP. destruct (i_bitss _ _ _ _ _ I) as (n & E1 & E2 & E3). specialize (E3 R D).
    assert (LB : len (below hs b) = b) by (apply len_below; lia).
    exists n. unfold to_header, set_header, to_pool. cbn [d_bitss]. rewrite (i_height _ _ _ _ _ I), wrap_u64_small by lia. rewrite E1, (i_bits _ _ _ _ _ I).
    rewrite enqueue_last_n by (rewrite len_map, LB; lia). rewrite below_snoc by lia. rewrite map_app. cbn [map].
    unfold bits_count, is_retarget_height, retarget_distance, retargeting_interval. fold (interval_of s). rewrite R, D, M. cbn [negb Z.eqb].
    destruct (Z.ltb_spec 1 (n + 1)); [|lia]. split; [reflexivity|]. split; [|lia]. unfold need in E3.
    destruct (mod_step b (interval_of s) IP Hb) as [[M1 M2]|[M1 M2]]; [pose proof (Z.mod_pos_bound b (interval_of s)); lia|].
    destruct (Z.eqb_spec (b mod interval_of s) 0); lia.
  Qed.
End Work.

(** ** the retarget arithmetic is exact *)
Lemma log2_mono_lt t l : 0 < t -> 0 < l -> Z.log2 t < Z.log2 l -> t < 2 ^ Z.log2 l.
Proof. intros Ht Hl H. apply Z.log2_lt_pow2; lia. Qed.
Lemma span_range hs s b : sane s -> s_interval_seconds s / s_factor s <= span_at hs s b <= s_interval_seconds s * s_factor s /\ 0 <= span_at hs s b.
Proof.
  intros (S1 & S2 & S3 & S4 & S5 & S6). unfold span_at, clamp3. set (T := s_interval_seconds s) in *. set (F := s_factor s) in *.
  assert (T / F <= T * F). { apply (Z.le_trans _ T); [apply Z.div_le_upper_bound; nia|nia]. } assert (0 <= T / F) by (apply Z.div_pos; lia). lia.
Qed.
Lemma retarget_exact s base span : sane s -> no_overflow s -> 0 <= base < 2 ^ 32 -> 0 < target_of base <= target_of (s_pow_limit s) ->
  0 <= span <= s_interval_seconds s * s_factor s ->
  exists t, t = new_target s base span /\ 0 <= t < 2 ^ 256 /\
  retarget_calc (target_of (s_pow_limit s)) s base span = (if target_of (s_pow_limit s) <? t then s_pow_limit s else compact_compress t).
Proof.
  intros (S1 & S2 & S3 & S4 & S5 & S6) NO Hb Ht Hsp. eexists. split; [reflexivity|]. unfold retarget_calc, new_target, no_overflow, patch_timewarp in *. rewrite C18_expand_is_satoshi by exact Hb.
  set (L := target_of (s_pow_limit s)) in *. set (t := target_of base) in *. set (T := s_interval_seconds s) in *. set (F := s_factor s) in *.
  rewrite !log2_uintx by lia. cbv zeta in NO. destruct (f_ltc_retarget_overflow_patch (s_forks s)) eqn:P; cbn [andb].
  - destruct NO as [NO1 NO2]. assert (LL : 2 ^ Z.log2 L <= L < 2 ^ (Z.log2 L + 1)) by (apply Z.log2_spec; lia). rewrite Z.pow_add_r in LL by (try lia; apply Z.log2_nonneg). change (2 ^ 1) with 2 in LL.
    destruct (Z.leb_spec (Z.log2 L) (Z.log2 t)) as [G|G].
    + rewrite Z.shiftr_div_pow2, Z.shiftl_mul_pow2 by lia. change (2 ^ 1) with 2.
      assert (HT : 0 <= t / 2 < 2 ^ Z.log2 L) by (split; [apply Z.div_pos; lia|apply Z.div_lt_upper_bound; lia]).
      assert (M : 0 <= t / 2 * span < 2 ^ 256).
      { split; [nia|]. apply (Z.lt_le_trans _ (2 ^ Z.log2 L * (T * F))); [|exact NO1]. destruct (Z.eq_dec (T * F) 0); [nia|]. nia. }
      rewrite (wrap_u256_small (t / 2 * span)) by exact M.
      assert (Q : 0 <= t / 2 * span / T /\ 2 * (t / 2 * span / T) <= L * F).
      { split; [apply Z.div_pos; lia|]. assert (t / 2 * span / T <= t / 2 * F) by (apply Z.div_le_upper_bound; nia). pose proof (Z.mul_div_le t 2 ltac:(lia)). nia. }
      rewrite wrap_u256_small by lia. split; [lia|]. rewrite (Z.mul_comm _ 2). reflexivity.
    + pose proof (log2_mono_lt t L ltac:(lia) ltac:(lia) G) as TL. rewrite Z.shiftr_0_r, Z.shiftl_0_r.
      assert (M : 0 <= t * span < 2 ^ 256) by (split; [nia|]; apply (Z.lt_le_trans _ (2 ^ Z.log2 L * (T * F))); [nia|exact NO1]).
      rewrite (wrap_u256_small (t * span)) by exact M.
      assert (0 <= t * span / T <= t * span) by (split; [apply Z.div_pos; lia|apply Z.div_le_upper_bound; nia]).
      rewrite wrap_u256_small by lia. split; [lia|]. reflexivity.
  - rewrite Z.shiftr_0_r, Z.shiftl_0_r.
    assert (M : 0 <= t * span < 2 ^ 256) by (split; nia). rewrite (wrap_u256_small (t * span)) by exact M.
    assert (0 <= t * span / T <= t * span) by (split; [apply Z.div_pos; lia|apply Z.div_le_upper_bound; nia]).
    rewrite wrap_u256_small by lia. split; [lia|]. reflexivity.
Qed.
Lemma real_bits_in hs interval limit n : (0 < n <= length hs)%nat -> exists k, 0 <= k < Z.of_nat n /\ real_bits hs interval limit n = h_bits (at_height hs k).
Proof.
  induction n as [|n IH]; intros H; [lia|]. cbn [real_bits]. destruct (negb _ || _) eqn:E; [exists (Z.of_nat n); split; [lia|reflexivity]|].
  destruct n as [|n].
  - exfalso. change (Z.of_nat 0) with 0 in E. destruct (Z.eq_dec interval 0) as [->|N]; [rewrite Zmod_0_r in E|rewrite Z.mod_0_l in E by exact N];
    change (0 =? 0) with true in E; rewrite orb_true_r in E; discriminate.
  - destruct (IH ltac:(lia)) as (k & Hk & Ek). exists k. split; [lia|exact Ek].
Qed.
