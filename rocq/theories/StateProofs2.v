From Coq Require Import Sorting.Sorted.
From Verif Require Import Base Bytes MathModel ChainModel CompactModel CompactSpec CompactProofs CompactProps StateModel StateSpec StateProofs.

(** ** median *)
Lemma insert_perm x l : Permutation (x :: l) (insert x l).
Proof.
  induction l as [|y l IH]; cbn [insert]; [reflexivity|]. destruct (x <=? y); [reflexivity|].
  rewrite perm_swap. constructor. exact IH.
Qed.
Lemma sort_perm l : Permutation l (sort l).
Proof. induction l as [|x l IH]; cbn [sort fold_right]; [reflexivity|]. rewrite <- insert_perm. constructor. exact IH. Qed.
Lemma insert_sorted x l : Sorted Z.le l -> Sorted Z.le (insert x l).
Proof.
  induction l as [|y l IH]; intros S; cbn [insert]; [repeat constructor|].
  destruct (Z.leb_spec x y) as [L|L].
  - constructor; [exact S|]. constructor. exact L.
  - inversion S as [|? ? S1 H1]; subst. constructor; [apply IH, S1|]. destruct l as [|z l]; cbn [insert]; [constructor; lia|].
    inversion H1; subst. destruct (x <=? z); constructor; lia.
Qed.
Lemma sort_sorted l : Sorted Z.le (sort l).
Proof. induction l as [|x l IH]; cbn [sort fold_right]; [constructor|]. apply insert_sorted, IH. Qed.
Lemma sorted_strong l : Sorted Z.le l -> StronglySorted Z.le l.
Proof. apply Sorted_StronglySorted. intros x y z; lia. Qed.
Lemma sorted_unique a b : Sorted Z.le a -> Sorted Z.le b -> Permutation a b -> a = b.
Proof.
  intros Sa Sb. apply sorted_strong in Sa, Sb. revert b Sb. induction Sa as [|x a Sa IH F]; intros b Sb P.
  - apply Permutation_nil in P. now subst.
  - destruct b as [|y b]; [symmetry in P; apply Permutation_nil_cons in P; contradiction|]. inversion Sb as [|? ? Sb' Fb]; subst.
    assert (x = y).
    { assert (In x (y :: b)) as [->|X] by (rewrite <- P; left; reflexivity); [reflexivity|]. assert (In y (x :: a)) as [->|Y] by (rewrite P; left; reflexivity); [reflexivity|].
      rewrite Forall_forall in F, Fb. specialize (F _ Y). specialize (Fb _ X). lia. }
    subst y. f_equal. apply IH; [exact Sb'|]. apply Permutation_cons_inv in P. exact P.
Qed.
Lemma sort_unique a b : Permutation a b -> sort a = sort b.
Proof. intros P. apply sorted_unique; try apply sort_sorted. rewrite <- !sort_perm. exact P. Qed.
Lemma filter_perm {A} (f : A -> bool) a b : Permutation a b -> len (filter f a) = len (filter f b).
Proof.
  intros P. unfold len. f_equal. induction P; cbn [filter]; [reflexivity| | |congruence].
  - destruct (f x); cbn [length]; congruence.
  - destruct (f x), (f y); cbn [length]; congruence.
Qed.
Lemma nth_split_sorted l i : Sorted Z.le l -> (i < length l)%nat ->
  (forall k, (k <= i)%nat -> nth k l 0 <= nth i l 0) /\ (forall k, (i <= k < length l)%nat -> nth i l 0 <= nth k l 0).
Proof.
  intros S. apply sorted_strong in S. assert (G : forall a b, (a <= b < length l)%nat -> nth a l 0 <= nth b l 0).
  { induction S as [|x l S IH F]; intros a b H; cbn [length] in H; [lia|]. destruct a, b; cbn [nth]; try lia.
    - rewrite Forall_forall in F. apply F, nth_In. lia.
    - apply IH. lia. }
  intros H. split; intros; apply G; lia.
Qed.
Lemma filter_all {A} (f : A -> bool) l : Forall (fun x => f x = true) l -> filter f l = l.
Proof. induction 1 as [|x l H _ IH]; cbn [filter]; [reflexivity|]. rewrite H, IH. reflexivity. Qed.
Lemma count_prefix (f : Z -> bool) l k : (forall i, (i < k)%nat -> (i < length l)%nat -> f (nth i l 0) = true) -> (k <= length l)%nat -> Z.of_nat k <= len (filter f l).
Proof.
  intros H K. rewrite <- (firstn_skipn k l). rewrite filter_app, len_app. rewrite (filter_all f (firstn k l)).
  - pose proof (len_nonneg (filter f (skipn k l))). unfold len at 1. rewrite firstn_length. lia.
  - apply Forall_forall. intros x X. destruct (In_nth _ _ 0 X) as (i & I & <-). rewrite firstn_length in I.
    rewrite <- (firstn_skipn k l) in H. specialize (H i ltac:(lia)). rewrite app_nth1 in H by (rewrite firstn_length; lia). apply H. rewrite firstn_skipn. lia.
Qed.
Lemma count_suffix (f : Z -> bool) l k : (forall i, (k <= i < length l)%nat -> f (nth i l 0) = true) -> (k <= length l)%nat -> len l - Z.of_nat k <= len (filter f l).
Proof.
  intros H K. rewrite <- (firstn_skipn k l) at 2. rewrite filter_app, len_app. rewrite (filter_all f (skipn k l)).
  - pose proof (len_nonneg (filter f (firstn k l))). unfold len at 3. rewrite skipn_length. unfold len in *. lia.
  - apply Forall_forall. intros x X. destruct (In_nth _ _ 0 X) as (i & I & <-). rewrite skipn_length in I.
    specialize (H (k + i)%nat ltac:(lia)). rewrite <- (firstn_skipn k l) in H at 1. rewrite app_nth2 in H by (rewrite firstn_length; lia).
    rewrite firstn_length in H. replace (k + i - Nat.min k (length l))%nat with i in H by lia. exact H.
Qed.

(** ** walking back *)
Lemma walk_real hs s n : sane s -> len hs < 2 ^ 63 -> forall b k, 0 <= b <= len hs -> Z.of_nat n <= b -> k = Z.to_nat b ->
  walk_back (rev (last_n (Z.of_nat n) (map h_bits (below hs b)))) b (interval_of s) (s_pow_limit s) =
    (if Z.of_nat n =? 0 then None else
     if b - Z.of_nat n <=? b - 1 - (b - 1) mod interval_of s then Some (real_bits hs (interval_of s) (s_pow_limit s) k)
     else walk_back (rev (last_n (Z.of_nat n) (map h_bits (below hs b)))) b (interval_of s) (s_pow_limit s)).
Proof.
  intros Hs Hlen. induction n as [|n IH]; intros b k Hb Hn ->; [rewrite last_n_0 by lia; reflexivity|]. destruct (Z.eqb_spec (Z.of_nat (S n)) 0); [lia|].
  destruct (Z.leb_spec (b - Z.of_nat (S n)) (b - 1 - (b - 1) mod interval_of s)) as [L|L]; [|reflexivity].
  pose proof (interval_pos s Hs) as IP.
  assert (E : below hs b = below hs (b - 1) ++ [at_height hs (b - 1)]) by (rewrite <- below_snoc by lia; f_equal; lia).
  rewrite E, map_app. cbn [map]. rewrite last_n_pos_snoc by lia. replace (Z.of_nat (S n) - 1) with (Z.of_nat n) by lia. rewrite rev_app_distr. cbn [rev app walk_back].
  rewrite wrap_u64_small by lia. replace (Z.to_nat b) with (S (Z.to_nat (b - 1))) by lia. cbn [real_bits]. rewrite Z2Nat.id by lia.
  unfold is_retarget_or_non_limit, is_retarget_height, retarget_distance.
  destruct (Z.eqb_spec (h_bits (at_height hs (b - 1))) (s_pow_limit s)) as [EL|NL]; cbn [negb orb]; [|reflexivity].
  destruct (Z.eqb_spec ((b - 1) mod interval_of s) 0) as [EM|NM]; [reflexivity|].
  pose proof (Z.mod_pos_bound (b - 1) (interval_of s) ltac:(lia)) as MB.
  rewrite (IH (b - 1) _ ltac:(lia) ltac:(lia) eq_refl). destruct (Z.eqb_spec (Z.of_nat n) 0); [lia|].
  assert (1 <= b - 1). { destruct (Z.eq_dec (b - 1) 0) as [Z0|]; [|lia]. rewrite Z0, Z.mod_0_l in NM by lia. lia. }
  destruct (mod_step (b - 1 - 1) (interval_of s) IP ltac:(lia)) as [[M1 M2]|[M1 M2]]; replace (b - 1 - 1 + 1) with (b - 1) in M1 by lia; [|lia].
  destruct (Z.leb_spec (b - 1 - Z.of_nat n) (b - 1 - 1 - (b - 1 - 1) mod interval_of s)); [reflexivity|lia].
Qed.
Lemma walk_reaches hs s n b : sane s -> len hs < 2 ^ 63 -> 1 <= b <= len hs -> n <= b -> (b - 1) mod interval_of s + 1 <= n ->
  walk_back (rev (last_n n (map h_bits (below hs b)))) b (interval_of s) (s_pow_limit s) = Some (real_bits hs (interval_of s) (s_pow_limit s) (Z.to_nat b)).
Proof.
  intros Hs Hl Hb Hn R. pose proof (interval_pos s Hs) as IP. pose proof (Z.mod_pos_bound (b - 1) (interval_of s) ltac:(lia)) as MB.
  rewrite <- (Z2Nat.id n) by lia. rewrite (walk_real hs s (Z.to_nat n) Hs Hl b (Z.to_nat b)) by (try lia; reflexivity).
  rewrite (Z2Nat.id n) by lia. destruct (Z.eqb_spec n 0); [lia|]. destruct (Z.leb_spec (b - n) (b - 1 - (b - 1) mod interval_of s)); [reflexivity|lia].
Qed.

(** ** the retarget computation *)
Lemma clamp_span hs s b d : sane s -> 1 <= b <= len hs -> Forall header_fields_ok hs ->
  d_times d = last_n (Z.min b 11) (map h_time (below hs b)) -> b mod interval_of s = 0 -> d_retarget d = h_time (at_height hs (b - interval_of s)) ->
  retarget_timespan d (minimum_timespan s) (maximum_timespan s) = Some (span_at hs s b).
Proof.
  intros Hs Hb Hf Ht Hm Hr. unfold retarget_timespan. assert (E : below hs b = below hs (b - 1) ++ [at_height hs (b - 1)]) by (rewrite <- below_snoc by lia; f_equal; lia).
  rewrite Ht, E, map_app. cbn [map]. rewrite back_last_n by lia. rewrite Hr. f_equal. unfold span_at, clamp3, u32_fsub, minimum_timespan, maximum_timespan. fold (interval_of s).
  destruct Hs as (S1 & S2 & S3 & S4 & S5 & S6). rewrite wrap_u32_small by nia.
  set (hi := h_time (at_height hs (b - 1))). set (lo := h_time (at_height hs (b - interval_of s))). set (T := s_interval_seconds s) in *. set (F := s_factor s) in *.
  assert (T / F <= T * F). { apply (Z.le_trans _ T); [apply Z.div_le_upper_bound; nia|nia]. }
  assert (0 <= T / F) by (apply Z.div_pos; lia).
  destruct (Z.ltb_spec hi lo).
  - destruct (Z.ltb_spec 0 (T / F)); [lia|]. destruct (Z.ltb_spec (T * F) 0); lia.
  - destruct (Z.ltb_spec (hi - lo) (T / F)); [lia|]. destruct (Z.ltb_spec (T * F) (hi - lo)); lia.
Qed.

Lemma log2_uintx v : 0 < v -> floored_log2_uintx v = Z.log2 v.
Proof. intros H. unfold floored_log2_uintx. destruct (Z.ltb_spec v 1); [lia|reflexivity]. Qed.
(** Expanding a compressed target never increases it. *)
Lemma expand_compress_le t : 0 <= t < 2 ^ 256 -> compact_expand (compact_compress t) <= t.
Proof.
  intros Ht. destruct (Z.eq_dec t 0) as [->|N0]; [vm_compute; discriminate|].
  destruct (log256_cases t ltac:(lia)) as [K [E|(K1 & L)]].
  - rewrite E. destruct (Z.eq_dec (ceilinged_log256_uintx t) 32) as [E32|N32]; [rewrite E32 in E; change (256 ^ 32) with (2 ^ 256) in E; lia|].
    destruct (C18_compress_power_of_256_refuted (ceilinged_log256_uintx t) ltac:(lia)) as (_ & X & _). rewrite X. apply Z.pow_nonneg. lia.
  - destruct (C18_truncates_partial t Ht) as (e & He & E & _).
    { intros (k & Hk & P). destruct (Z.le_gt_cases k (ceilinged_log256_uintx t - 1)).
      - assert (256 ^ k <= 256 ^ (ceilinged_log256_uintx t - 1)) by (apply Z.pow_le_mono_r; lia). lia.
      - assert (256 ^ ceilinged_log256_uintx t <= 256 ^ k) by (apply Z.pow_le_mono_r; lia). lia. }
    rewrite E. assert (0 < 256 ^ e) by (apply Z.pow_pos_nonneg; lia). pose proof (Z.mul_div_le t (256 ^ e) ltac:(lia)). lia.
Qed.
