(** C21 - C25: chain state. *)
From Coq Require Import Sorting.Sorted.
From Verif Require Import Base Bytes MathModel ChainModel CompactModel CompactSpec CompactProofs CompactProps StateModel StateSpec StateProofs StateProofs2 StateProofs3.

(** ** C21 *)
(** The median time past is the middle (index n/2) of the ascending order of the
    preceding timestamps, whatever order they are given in. *)
Theorem C21_median d : is_median (d_times d) (median_time_past d).
Proof.
  unfold is_median, median_time_past. destruct (d_times d) as [|t l] eqn:E; [left; split; reflexivity|]. right. rewrite <- E.
  exists (sort (d_times d)). split; [apply sort_perm|]. split; [apply sort_sorted|]. split; [rewrite E; discriminate|].
  assert (L : len (sort (d_times d)) = len (d_times d)) by (unfold len; rewrite (Permutation_length (sort_perm (d_times d))); reflexivity).
  destruct (sort (d_times d)) eqn:S; [|rewrite L; reflexivity]. rewrite E in L. rewrite len_cons in L. change (len (@nil Z)) with 0 in L. pose proof (len_nonneg l). lia.
Qed.
Print Assumptions C21_median.
Theorem C21_permutation d1 d2 : Permutation (d_times d1) (d_times d2) -> median_time_past d1 = median_time_past d2.
Proof. intros P. unfold median_time_past. rewrite (sort_unique _ _ P). reflexivity. Qed.
Print Assumptions C21_permutation.
(** More than half of the timestamps are not above it, at least half are not
    below it, and it is one of them. *)
Theorem C21_half d : d_times d <> [] -> let m := median_time_past d in
  In m (d_times d) /\ len (d_times d) < 2 * len (filter (fun t => t <=? m) (d_times d)) /\
  len (d_times d) <= 2 * len (filter (fun t => m <=? t) (d_times d)).
Proof.
  intros N m. destruct (C21_median d) as [[E _]|(st & P & S & _ & E)]; [contradiction|]. fold m in E.
  assert (L : len st = len (d_times d)) by (unfold len; rewrite (Permutation_length P); reflexivity).
  assert (L0 : 0 < len (d_times d)) by (destruct (d_times d); [contradiction|rewrite len_cons; pose proof (len_nonneg l); lia]).
  set (i := Z.to_nat (len (d_times d) / 2)) in *. assert (I : Z.of_nat i = len (d_times d) / 2) by (subst i; rewrite Z2Nat.id; [reflexivity|apply Z.div_pos; lia]).
  assert (IL : (i < length st)%nat) by (unfold len in *; pose proof (Z.div_lt (Z.of_nat (length (d_times d))) 2); lia).
  destruct (nth_split_sorted st i S IL) as [A B]. rewrite (filter_perm _ _ _ P), (filter_perm (fun t => m <=? t) _ _ P).
  pose proof (Z.div_mod (len (d_times d)) 2 ltac:(lia)) as DM. pose proof (Z.mod_pos_bound (len (d_times d)) 2 ltac:(lia)) as MB.
  split; [|split].
  - rewrite P, E. apply nth_In, IL.
  - pose proof (count_prefix (fun t => t <=? m) st (i + 1)%nat). cbv beta in H. specialize (H ltac:(intros k Hk _; apply Z.leb_le; rewrite E; apply A; lia) ltac:(lia)). lia.
  - pose proof (count_suffix (fun t => m <=? t) st i). cbv beta in H. specialize (H ltac:(intros k Hk; apply Z.leb_le; rewrite E; apply B; lia) ltac:(lia)). lia.
Qed.
Print Assumptions C21_half.
(** A state of the chain at height b takes the median of the last (up to) eleven
    blocks below b, and a header is accepted only with a later timestamp. *)
Theorem C21_of_chain hash hs s a b : sane s -> len hs < 2 ^ 63 -> Forall header_fields_ok hs -> 0 <= a <= b /\ b < len hs ->
  is_median (last_n (Z.min b 11) (map h_time (below hs b))) (median_time_past (roll hash s (from_history hash hs a s) (between hs a b))).
Proof.
  intros Hs Hl Hh H. assert (I : Inv hash hs s b (roll hash s (from_history hash hs a s) (between hs a b))).
  { apply (roll_ind hash hs s (Inv hash hs s) a); [lia|apply inv_history; try assumption; lia| |lia]. intros c d Hc Hc1. apply inv_step; try assumption; lia. }
  rewrite <- (i_times _ _ _ _ _ I). apply C21_median.
Qed.
Print Assumptions C21_of_chain.
Theorem C21_accept c interval h : header_accept c interval h = ASuccess <->
  (c_minimum c = 0 \/ wrap i32 (c_minimum c) <= wrap i32 (h_version h)) /\ c_mtp c < h_time h /\ h_bits h = c_work c /\
  (is_enabled c fl_time_warp = true -> c_height c mod interval = 0 -> Z.max 0 (c_previous c - 600) <= c_timestamp c).
Proof.
  unfold header_accept, is_insufficient_version, is_anachronistic_timestamp, is_invalid_work, is_early_timestamp, u32_fsub.
  destruct (Z.eqb_spec (c_minimum c) 0), (Z.ltb_spec (wrap i32 (h_version h)) (wrap i32 (c_minimum c))); cbn [negb andb].
  3: { split; [discriminate|]. intros ([|] & _); lia. }
  all: destruct (Z.leb_spec (h_time h) (c_mtp c)); [split; [discriminate|intros (_ & ? & _); lia]|];
    destruct (Z.eqb_spec (h_bits h) (c_work c)); cbn [negb]; [|split; [discriminate|intros (_ & _ & ? & _); contradiction]];
    destruct (is_enabled c fl_time_warp); cbn [andb]; [|split; [intros _; repeat split; try lia; intros; discriminate|reflexivity]];
    destruct (Z.eqb_spec (c_height c mod interval) 0); cbn [andb]; [|split; [intros _; repeat split; try lia; intros; contradiction|reflexivity]];
    match goal with |- context [c_timestamp ?y <? ?x] => destruct (Z.ltb_spec (c_timestamp y) x) as [Q|Q] end;
    destruct (Z.ltb_spec (c_previous c) 600); split; try discriminate; try reflexivity; intros X; try (repeat split; lia);
    destruct X as (_ & _ & _ & X); specialize (X eq_refl ltac:(assumption)); lia.
Qed.
Print Assumptions C21_accept.
Example C21_sat : median_time_past (mkdata 5 [] [] [] [] [] 0 0 [] 0 [] 0 0 [9;3;7;1]) = 7.
Proof. reflexivity. Qed.

(** ** C22 *)
(** Whatever the data, a retarget never yields a target above the limit. *)
Theorem C22_target_within_limit d s r : 0 <= s_pow_limit s < 2 ^ 32 ->
  work_required_retarget (target_of (s_pow_limit s)) d (s_forks s) s = Some r -> 0 <= r < 2 ^ 32 /\ target_of r <= target_of (s_pow_limit s).
Proof.
  intros HL. unfold work_required_retarget. destruct (work_required_retarget_bits _ _ _ _); cbn [obind]; [|discriminate].
  destruct (retarget_timespan _ _ _); cbn [obind]; [|discriminate]. destruct (_ =? 0); [discriminate|]. intros E. injection E as <-.
  match goal with |- context [_ <? ?x] => set (t := x) end. assert (Ht : 0 <= t < 2 ^ 256) by (apply Z.mod_pos_bound; reflexivity). clearbody t.
  destruct (Z.ltb_spec (target_of (s_pow_limit s)) t); [split; [exact HL|lia]|].
  destruct (C18_compress_never_negative t Ht) as [R _]. split; [exact R|].
  rewrite <- C18_expand_is_satoshi by exact R. pose proof (expand_compress_le t Ht). lia.
Qed.
Print Assumptions C22_target_within_limit.

Section C22.
  Variables (hash : header -> list Z) (hs : list header) (s : settings) (a b : Z).
  (** the state at height b rolled forward from one constructed at height a *)
  Let state := roll hash s (from_history hash hs a s) (between hs a b).
  Hypothesis (Hs : sane s) (Hlen : len hs < 2 ^ 63) (Hh : Forall header_fields_ok hs) (Hab : 0 <= a <= b /\ b < len hs).
  Hypothesis (Hltc : f_retarget (s_forks s) = true -> f_ltc_time_warp_patch (s_forks s) = false).
  Let state_inv : Inv hash hs s b state.
  Proof. apply (roll_ind hash hs s (Inv hash hs s) a); [lia|apply inv_history; try assumption; lia| |lia]. intros c d Hc Hc1. apply inv_step; try assumption; lia. Qed.
  (** the timespan is that of the last interval, clamped *)
  Theorem C22_timespan_clamped : 1 <= b -> f_retarget (s_forks s) = true -> b mod (s_interval_seconds s / s_spacing s) = 0 ->
    retarget_timespan state (minimum_timespan s) (maximum_timespan s) = Some (span_at hs s b) /\
    s_interval_seconds s / s_factor s <= span_at hs s b <= s_interval_seconds s * s_factor s.
  Proof.
    intros Hb R M. split; [|apply span_range; exact Hs]. apply (clamp_span hs s b state Hs ltac:(lia) Hh (i_times _ _ _ _ _ state_inv) M).
    rewrite (i_retarget _ _ _ _ _ state_inv Hb R (Hltc R)). unfold interval_of. rewrite M. reflexivity.
  Qed.
  (** The bits required at height b are those of the Satoshi client's rule on
      exact integers (no overflow), except that an exact power of 256 is encoded
      as an invalid value (C18).  With the block-storm patch the whole interval
      must have been rolled over (see C23). *)
  Theorem C22_required_partial : 1 <= b -> bits_valid s hs -> no_overflow s ->
    (f_block_storm_patch (s_forks s) && f_retarget (s_forks s) = true -> b mod (s_interval_seconds s / s_spacing s) = 0 ->
       f_difficult (s_forks s) = false /\ a < b /\ 2 * (s_interval_seconds s / s_spacing s) <= b) ->
    let t := new_target s (base_bits hs s b) (span_at hs s b) in
    (f_retarget (s_forks s) = true -> b mod (s_interval_seconds s / s_spacing s) = 0 -> ~ power_of_256 t) ->
    work_required (target_of (s_pow_limit s)) state (s_forks s) s = Some (next_work hs s b).
  Proof.
    intros Hb HV NO Storm t NP. fold (interval_of s) in *.
    assert (VB : forall h, 0 <= h < len hs -> 0 < target_of (h_bits (at_height hs h)) <= target_of (s_pow_limit s)).
    { intros h X. unfold bits_valid in HV. rewrite Forall_forall in HV. apply HV. apply nth_In. unfold len in X. lia. }
    pose proof (interval_pos s Hs) as IP.
    assert (RB : exists k, 0 <= k < len hs /\ base_bits hs s b = h_bits (at_height hs k)).
    { unfold base_bits. fold (interval_of s). destruct (f_block_storm_patch (s_forks s)).
      - destruct (real_bits_in hs (interval_of s) (s_pow_limit s) (Z.to_nat b)) as (k & K1 & K2); [unfold len in *; lia|]. exists k. split; [lia|exact K2].
      - exists (b - 1). split; [lia|reflexivity]. }
    rewrite (work_required_inv hash hs s Hs Hlen Hh Hltc _ b state (base_bits hs s b) ltac:(lia) state_inv).
    - f_equal. unfold required, next_work. fold (interval_of s). destruct (Z.eqb_spec b 0); [lia|].
      pose proof (VB (b - 1) ltac:(lia)) as V1. destruct (Z.eqb_spec (target_of (h_bits (at_height hs (b - 1)))) 0); [lia|].
      destruct (f_retarget (s_forks s)) eqn:R; cbn [negb]; [|reflexivity]. destruct (Z.eqb_spec (b mod interval_of s) 0) as [M|M]; [|reflexivity].
      destruct RB as (k & K1 & K2). destruct (span_range hs s b Hs) as [[_ SR] SR0].
      destruct (retarget_exact s (base_bits hs s b) (span_at hs s b) Hs NO) as (t' & T1 & T2 & T3).
      + rewrite K2. apply (at_height_ok hs Hh k K1).
      + rewrite K2. apply VB, K1.
      + lia.
      + rewrite T3. unfold retargeted. rewrite <- T1. destruct (_ <? t'); [reflexivity|]. apply C18_compress_is_satoshi_partial; [exact T2|]. rewrite T1. apply NP; [reflexivity|exact M].
    - intros R _ M. unfold base_bits. fold (interval_of s). destruct (f_block_storm_patch (s_forks s)) eqn:St; [|apply (base_plain hash hs s Hltc b state ltac:(lia) state_inv St)].
      destruct (Storm ltac:(rewrite R; reflexivity) M) as (D & AB & B2).
      assert (Ib : Inv hash hs s (b - 1) (roll hash s (from_history hash hs a s) (between hs a (b - 1)))).
      { apply (roll_ind hash hs s (Inv hash hs s) a); [lia|apply inv_history; try assumption; lia| |lia]. intros c d Hc Hc1. apply inv_step; try assumption; lia. }
      destruct (storm_full hash hs s Hs Hlen Hltc (b - 1) _ ltac:(lia) ltac:(lia) ltac:(lia) R D ltac:(replace (b - 1 + 1) with b by lia; exact M) Ib) as (n & N1 & N2).
      rewrite <- roll_snoc, <- between_snoc in N1 by lia. replace (b - 1 + 1) with b in * by lia.
      exact (base_storm hash hs s Hs Hlen Hltc b state n ltac:(lia) state_inv St M N1 N2).
  Qed.
End C22.
Print Assumptions C22_timespan_clamped.
Print Assumptions C22_required_partial.
(** The block-storm base is that of BIP94 (the first block of the interval), in
    any chain whose blocks below h obey the testnet rule. *)
Theorem C22_bip94_base hs s h : sane s -> s_interval_seconds s / s_spacing s <= h <= len hs -> h mod (s_interval_seconds s / s_spacing s) = 0 ->
  (forall k, h - s_interval_seconds s / s_spacing s < k < h ->
     h_bits (at_height hs k) = s_pow_limit s \/ h_bits (at_height hs k) = real_bits hs (s_interval_seconds s / s_spacing s) (s_pow_limit s) (Z.to_nat k)) ->
  real_bits hs (s_interval_seconds s / s_spacing s) (s_pow_limit s) (Z.to_nat h) = h_bits (at_height hs (h - s_interval_seconds s / s_spacing s)).
Proof.
  intros Hs Hh M H. pose proof (interval_pos s Hs) as IP. fold (interval_of s) in *. set (I := interval_of s) in *.
  assert (G : forall j, (Z.of_nat j < I) -> real_bits hs I (s_pow_limit s) (Z.to_nat (h - I) + 1 + j) = h_bits (at_height hs (h - I))).
  { induction j as [|j IH]; intros J.
    - replace (Z.to_nat (h - I) + 1 + 0)%nat with (S (Z.to_nat (h - I))) by lia. cbn [real_bits]. rewrite Z2Nat.id by lia.
      assert (E : (h - I) mod I = 0) by (replace (h - I) with (h + (-1) * I) by lia; rewrite Z.mod_add by lia; exact M).
      rewrite E. change (0 =? 0) with true. rewrite orb_true_r. reflexivity.
    - replace (Z.to_nat (h - I) + 1 + S j)%nat with (S (Z.to_nat (h - I) + 1 + j)) by lia. cbn [real_bits].
      specialize (IH ltac:(lia)). specialize (H (Z.of_nat (Z.to_nat (h - I) + 1 + j)) ltac:(lia)). rewrite Nat2Z.id in H.
      assert (N : Z.of_nat (Z.to_nat (h - I) + 1 + j) mod I <> 0).
      { replace (Z.of_nat (Z.to_nat (h - I) + 1 + j)) with (1 + Z.of_nat j + (h - I)) by lia. rewrite Z.add_mod by lia.
        assert (E : (h - I) mod I = 0) by (replace (h - I) with (h + (-1) * I) by lia; rewrite Z.mod_add by lia; exact M).
        rewrite E, Z.add_0_r, Z.mod_mod by lia. rewrite Z.mod_small by lia. lia. }
      destruct (Z.eqb_spec (Z.of_nat (Z.to_nat (h - I) + 1 + j) mod I) 0); [contradiction|].
      destruct (Z.eqb_spec (h_bits (at_height hs (Z.of_nat (Z.to_nat (h - I) + 1 + j)))) (s_pow_limit s)) as [E|E]; cbn [negb orb]; [exact IH|].
      destruct H as [H|H]; [contradiction|]. congruence. }
  specialize (G (Z.to_nat (I - 1)) ltac:(lia)). replace (Z.to_nat (h - I) + 1 + Z.to_nat (I - 1))%nat with (Z.to_nat h) in G by lia. exact G.
Qed.
Print Assumptions C22_bip94_base.

(** Concrete settings: interval of two blocks. *)
Definition no_forks : forks := mkforks false false false false false false false false false false false false false false false false false false false false false false false false.
Definition retarget_forks : forks := mkforks false false false false false false false false false false false false false false false false false true true false false false false false.
Definition storm_forks : forks := mkforks false false false false false false false false false false false false false false false false false true false false true false false false.
Definition cp_none : checkpoint := mkcheckpoint [1] 1000.
Definition set_of (f : forks) (limit : Z) : settings :=
  mksettings f 4 20 10 limit 1 2 3 4 1 2 4 536870912 0 3 4 5 0 0 0 0 cp_none cp_none cp_none cp_none.
Definition chain_of (l : list (Z * Z)) : list header := map (fun p => mkheader 1 [] [] (fst p) (snd p) 0) l.
Definition hash1 (h : header) : list Z := [h_time h].
Example C22_sat : let s := set_of retarget_forks 0x1d00ffff in
  let hs := chain_of [(100, 0x1c123456); (110, 0x1c123456); (120, 0x1c123456); (135, 0x1c123456); (145, 0x1c123456)] in
  sane s /\ bits_valid s hs /\ no_overflow s /\ Forall header_fields_ok hs /\
  work_required (target_of 0x1d00ffff) (roll hash1 s (from_history hash1 hs 0 s) (between hs 0 4)) (s_forks s) s = Some 0x1c0da740 /\
  next_work hs s 4 = 0x1c0da740.
Proof.
  split; [unfold sane; cbn; lia|]. split; [repeat (constructor; [vm_compute; split; [reflexivity|discriminate]|]); constructor|]. split; [vm_compute; reflexivity|].
  split; [repeat (constructor; [unfold header_fields_ok; cbn; lia|]); constructor|]. split; vm_compute; reflexivity.
Qed.
(** When the exact new target is a power of 256 the required bits decode to
    zero: no header can satisfy them. *)
Theorem C22_power_of_256_refuted : let s := set_of retarget_forks 0x1d00ffff in
  let hs := chain_of [(100, 0x1c010000); (120, 0x1c010000); (130, 0x1c010000)] in
  sane s /\ bits_valid s hs /\ no_overflow s /\
  exists r, work_required (target_of 0x1d00ffff) (from_history hash1 hs 2 s) (s_forks s) s = Some r /\ target_of r = 0 /\
            target_of (next_work hs s 2) = target_of 0x1c010000 /\ r <> next_work hs s 2.
Proof.
  split; [unfold sane; cbn; lia|]. split; [repeat (constructor; [vm_compute; split; [reflexivity|discriminate]|]); constructor|]. split; [vm_compute; reflexivity|].
  eexists. split; [vm_compute; reflexivity|]. vm_compute. split; [reflexivity|split; [reflexivity|discriminate]].
Qed.
Print Assumptions C22_power_of_256_refuted.
(** The limit is a function-local static: after a first retarget under another
    (easier) configuration, the required target exceeds the configured limit. *)
Theorem C22_second_limit_refuted : ~ (forall p1 s d r, 0 <= p1 < 2 ^ 32 -> sane s ->
  work_required_retarget (target_of p1) d (s_forks s) s = Some r -> target_of r <= target_of (s_pow_limit s)).
Proof.
  intros H. set (s := set_of retarget_forks 0x1d00ffff).
  specialize (H 0x1e00ffff s (from_history hash1 (chain_of [(100, 0x1d00ffff); (200, 0x1d00ffff); (130, 0x1d00ffff)]) 2 s) 0x1d03fffc ltac:(lia) ltac:(unfold sane; cbn; lia) ltac:(vm_compute; reflexivity)).
  vm_compute in H. apply H. reflexivity.
Qed.
Print Assumptions C22_second_limit_refuted.

(** ** C23 *)
Definition same_groups (s : settings) (a : Z) : Prop :=
  Forall (fun g => fst g = true /\ (0 < a \/ 0 < cp_height (snd g)) /\ 0 <= cp_height (snd g) < 2 ^ 64 - 1) (groups s).
Record HInv (hash : header -> list Z) (hs : list header) (s : settings) (b : Z) (d : data) : Prop := mkHInv {
  hi_bip30 : d_bip30 d = activated_by hash hs b (s_cp30 s); hi_bit0 : d_bit0 d = activated_by hash hs b (s_cp0 s);
  hi_bit1 : d_bit1 d = activated_by hash hs b (s_cp1 s); hi_bit2 : d_bit2 d = activated_by hash hs b (s_cp2 s) }.
Lemma hash_history hash hs a c (en : bool) : en = true -> 0 < a \/ 0 < cp_height c -> 0 <= cp_height c < 2 ^ 64 - 1 -> 0 <= a ->
  requested (if a =? 0 then unrequested else if en then checkpoint_height a c else unrequested)
    (hash (at_height hs (if a =? 0 then unrequested else if en then checkpoint_height a c else unrequested))) null_hash = activated_by hash hs a c.
Proof.
  intros -> A C H0. unfold activated_by, checkpoint_height, unrequested. destruct (Z.eqb_spec a 0).
  - rewrite Z.eqb_refl. destruct (Z.leb_spec (cp_height c) a); [lia|reflexivity].
  - destruct (Z.ltb_spec a (cp_height c)); [rewrite Z.eqb_refl; destruct (Z.leb_spec (cp_height c) a); [lia|reflexivity]|].
    destruct (Z.eqb_spec (cp_height c) (2 ^ 64 - 1)); [lia|]. destruct (Z.leb_spec (cp_height c) a); [reflexivity|lia].
Qed.
Lemma hinv_history hash hs s a : 0 <= a -> same_groups s a -> HInv hash hs s a (from_history hash hs a s).
Proof.
  intros Ha G. unfold same_groups, groups in G. inversion G as [|? ? (G1 & G2 & G3) GA]; subst. inversion GA as [|? ? (H1 & H2 & H3) GB]; subst.
  inversion GB as [|? ? (I1 & I2 & I3) GC]; subst. inversion GC as [|? ? (J1 & J2 & J3) _]; subst. cbn [fst snd] in *.
  assert (E30 : m_bip30 (get_map a s) = if a =? 0 then unrequested else if f_bip30 (s_forks s) && f_bip30_deactivate (s_forks s) then checkpoint_height a (s_cp30 s) else unrequested) by (unfold get_map; destruct (a =? 0); reflexivity).
  assert (E0 : m_bit0 (get_map a s) = if a =? 0 then unrequested else if f_bip68 (s_forks s) || f_bip112 (s_forks s) || f_bip113 (s_forks s) then checkpoint_height a (s_cp0 s) else unrequested) by (unfold get_map; destruct (a =? 0); reflexivity).
  assert (E1 : m_bit1 (get_map a s) = if a =? 0 then unrequested else if f_bip141 (s_forks s) || f_bip143 (s_forks s) || f_bip147 (s_forks s) then checkpoint_height a (s_cp1 s) else unrequested) by (unfold get_map; destruct (a =? 0); reflexivity).
  assert (E2 : m_bit2 (get_map a s) = if a =? 0 then unrequested else if f_bip341 (s_forks s) || f_bip342 (s_forks s) then checkpoint_height a (s_cp2 s) else unrequested) by (unfold get_map; destruct (a =? 0); reflexivity).
  constructor; unfold from_history; cbn [d_bip30 d_bit0 d_bit1 d_bit2]; rewrite ?E30, ?E0, ?E1, ?E2; apply hash_history; assumption.
Qed.
Lemma at_checkpoint_step hash hs b c : at_checkpoint (b + 1) c (hash (at_height hs (b + 1))) (activated_by hash hs b c) = activated_by hash hs (b + 1) c.
Proof.
  unfold at_checkpoint, activated_by. destruct (Z.eqb_spec (b + 1) (cp_height c)) as [<-|N]; [rewrite Z.leb_refl; reflexivity|].
  destruct (Z.leb_spec (cp_height c) b), (Z.leb_spec (cp_height c) (b + 1)); try lia; reflexivity.
Qed.
Lemma hinv_step hash hs s b d : 0 <= b < 2 ^ 63 -> d_height d = b -> HInv hash hs s b d -> HInv hash hs s (b + 1) (to_header hash d (s_forks s) (at_height hs (b + 1)) s).
Proof.
  intros Hb Hd [H1 H2 H3 H4]. unfold to_header, set_header, to_pool. constructor; cbn [d_bip30 d_bit0 d_bit1 d_bit2 d_height]; rewrite Hd, wrap_u64_small by lia;
  rewrite ?H1, ?H2, ?H3, ?H4; apply at_checkpoint_step.
Qed.
Lemma activation_ext d1 d2 f s : d_height d1 = d_height d2 -> d_version d1 = d_version d2 -> d_versions d1 = d_versions d2 -> d_time d1 = d_time d2 ->
  d_bip30 d1 = d_bip30 d2 -> d_bit0 d1 = d_bit0 d2 -> d_bit1 d1 = d_bit1 d2 -> d_bit2 d1 = d_bit2 d2 -> d_hash d1 = d_hash d2 -> activation d1 f s = activation d2 f s.
Proof. intros H1 H2 H3 H4 H5 H6 H7 H8 H9. unfold activation. rewrite H1, H2, H3, H4, H5, H6, H7, H8, H9. reflexivity. Qed.

Section C23.
  Variables (hash : header -> list Z) (hs : list header) (s : settings) (a b limit : Z).
  Let rolled := roll hash s (from_history hash hs a s) (between hs a b).
  Let stored := from_history hash hs b s.
  Hypothesis (Hs : sane s) (Hlen : len hs < 2 ^ 63) (Hh : Forall header_fields_ok hs) (Hab : 0 <= a <= b /\ b < len hs).
  Let rolled_inv : Inv hash hs s b rolled.
  Proof. apply (roll_ind hash hs s (Inv hash hs s) a); [lia|apply inv_history; try assumption; lia| |lia]. intros c d Hc Hc1. apply inv_step; try assumption; lia. Qed.
  Let stored_inv : Inv hash hs s b stored.
  Proof. apply inv_history; try assumption; lia. Qed.
  (** Every value a rolled state exposes is that of the state built from the
      stored history at the same height. *)
  Theorem C23_values : d_height rolled = b /\ d_hash rolled = d_hash stored /\ median_time_past rolled = median_time_past stored /\
    d_versions rolled = d_versions stored /\ d_times rolled = d_times stored /\ d_work rolled = d_work stored /\
    d_version rolled = d_version stored /\ d_bits rolled = d_bits stored /\ d_time rolled = d_time stored.
  Proof.
    destruct rolled_inv as [I1 I2 I3 I4 I5 I6 I7 I8 _ _], stored_inv as [J1 J2 J3 J4 J5 J6 J7 J8 _ _]. unfold median_time_past.
    rewrite I2, I3, I4, I5, I6, I7, I8, J2, J3, J4, J5, J6, J7, J8. repeat split; try reflexivity. exact I1.
  Qed.
  Theorem C23_retarget_time : 1 <= b -> f_retarget (s_forks s) = true -> f_ltc_time_warp_patch (s_forks s) = false -> d_retarget rolled = d_retarget stored.
  Proof. intros Hb R T. rewrite (i_retarget _ _ _ _ _ rolled_inv Hb R T), (i_retarget _ _ _ _ _ stored_inv Hb R T). reflexivity. Qed.
  Hypothesis (Hltc : f_retarget (s_forks s) = true -> f_ltc_time_warp_patch (s_forks s) = false).
  (** Required work, except at a retarget under the block-storm patch (below). *)
  Theorem C23_work_partial : (f_block_storm_patch (s_forks s) = true -> f_retarget (s_forks s) = true -> b mod (s_interval_seconds s / s_spacing s) <> 0) ->
    work_required limit rolled (s_forks s) s = work_required limit stored (s_forks s) s /\ work_required limit stored (s_forks s) s <> None.
  Proof.
    intros St. fold (interval_of s) in St.
    assert (B : forall d, Inv hash hs s b d -> f_retarget (s_forks s) = true -> 1 <= b -> b mod interval_of s = 0 -> work_required_retarget_bits d (s_forks s) (s_pow_limit s) (interval_of s) = Some (h_bits (at_height hs (b - 1)))).
    { intros d I R Hb M. apply (base_plain hash hs s Hltc b d ltac:(lia) I). destruct (f_block_storm_patch (s_forks s)); [|reflexivity]. destruct (St eq_refl R M). }
    rewrite (work_required_inv hash hs s Hs Hlen Hh Hltc limit b rolled (h_bits (at_height hs (b - 1))) ltac:(lia) rolled_inv (B _ rolled_inv)).
    rewrite (work_required_inv hash hs s Hs Hlen Hh Hltc limit b stored (h_bits (at_height hs (b - 1))) ltac:(lia) stored_inv (B _ stored_inv)). split; [reflexivity|discriminate].
  Qed.
  (** Hence the whole validation context is the same, if every deployment group
      is configured and no activation block is the genesis block being rolled from. *)
  Theorem C23_context_partial : (f_block_storm_patch (s_forks s) = true -> f_retarget (s_forks s) = true -> b mod (s_interval_seconds s / s_spacing s) <> 0) ->
    same_groups s a -> to_context limit rolled (s_forks s) s = to_context limit stored (s_forks s) s.
  Proof.
    intros St G. unfold to_context. destruct (C23_work_partial St) as [-> _]. destruct C23_values as (V1 & V2 & V3 & V4 & V5 & V6 & V7 & V8 & V9).
    assert (G2 : same_groups s b). { unfold same_groups in *. rewrite Forall_forall in *. intros g Hg. destruct (G g Hg) as (X & Y & W). split; [exact X|]. split; [lia|exact W]. }
    pose proof (hinv_history hash hs s b ltac:(lia) G2) as H2. fold stored in H2.
    assert (H1 : HInv hash hs s b rolled /\ d_height rolled = b).
    { apply (roll_ind hash hs s (fun b d => HInv hash hs s b d /\ d_height d = b) a); [lia| | |lia].
      - split; [apply hinv_history; [lia|exact G]|reflexivity].
      - intros c d Hc Hc1 (X & Y). split; [apply hinv_step; try assumption; lia|]. unfold to_header, set_header, to_pool. cbn [d_height]. rewrite Y. apply wrap_u64_small. lia. }
    destruct H1 as [[A1 A2 A3 A4] _], H2 as [B1 B2 B3 B4].
    pose proof (i_height _ _ _ _ _ stored_inv) as V0. rewrite (activation_ext rolled stored (s_forks s) s) by congruence. destruct (work_required limit stored (s_forks s) s); cbn [obind]; [|reflexivity].
    rewrite V0, V1, V3, V5, V9. reflexivity.
  Qed.
End C23.
Print Assumptions C23_values.
Print Assumptions C23_retarget_time.
Print Assumptions C23_work_partial.
Print Assumptions C23_context_partial.
(** Block-storm patch: a state built from the store at a retarget height holds
    only one bits value, so its required work differs from the rolled state's
    (which follows BIP94). *)
Theorem C23_storm_refuted : let s := set_of storm_forks 0x1d00ffff in
  let hs := chain_of [(100, 0x1d00ffff); (110, 0x1d00ffff); (120, 0x1c123456); (200, 0x1d00ffff); (220, 0x1c091a2b)] in
  sane s /\ bits_valid s hs /\
  work_required (target_of 0x1d00ffff) (roll hash1 s (from_history hash1 hs 3 s) (between hs 3 4)) (s_forks s) s = Some (next_work hs s 4) /\
  work_required (target_of 0x1d00ffff) (from_history hash1 hs 4 s) (s_forks s) s <> Some (next_work hs s 4).
Proof.
  split; [unfold sane; cbn; lia|]. split; [repeat (constructor; [vm_compute; split; [reflexivity|discriminate]|]); constructor|].
  vm_compute. split; [reflexivity|discriminate].
Qed.
Print Assumptions C23_storm_refuted.
(** Litecoin time-warp patch: the rolled retarget timestamp is that of the block
    before the interval, the stored one that of its first block. *)
Definition ltc_forks : forks := mkforks false false false false false false false false false false false false false false false false false true true false false true false false.
Theorem C23_ltc_time_warp_refuted : let s := set_of ltc_forks 0x1d00ffff in
  let hs := chain_of [(100, 0x1c123456); (110, 0x1c123456); (120, 0x1c123456); (135, 0x1c123456); (145, 0x1c123456)] in
  sane s /\ bits_valid s hs /\
  d_retarget (roll hash1 s (from_history hash1 hs 0 s) (between hs 0 4)) = 110 /\ d_retarget (from_history hash1 hs 4 s) = 120 /\
  work_required (target_of 0x1d00ffff) (roll hash1 s (from_history hash1 hs 0 s) (between hs 0 4)) (s_forks s) s <>
  work_required (target_of 0x1d00ffff) (from_history hash1 hs 4 s) (s_forks s) s.
Proof.
  split; [unfold sane; cbn; lia|]. split; [repeat (constructor; [vm_compute; split; [reflexivity|discriminate]|]); constructor|].
  vm_compute. repeat split; discriminate.
Qed.
Print Assumptions C23_ltc_time_warp_refuted.
Example C23_sat : let s := set_of retarget_forks 0x1d00ffff in let hs := chain_of [(100, 0x1c123456); (110, 0x1c123456); (120, 0x1c123456); (135, 0x1c123456); (145, 0x1c123456)] in
  median_time_past (roll hash1 s (from_history hash1 hs 1 s) (between hs 1 4)) = 120 /\ d_retarget (from_history hash1 hs 4 s) = 120.
Proof. split; vm_compute; reflexivity. Qed.
