(** Proofs for the bloom filter and the table of the sieve. *)
From Verif Require Import Base MathModel MathSpec MathProofs MathProofs2 BitProofs FilterModel.

Lemma filter_type_facts n : 0 <= n <= 64 -> 0 < bits (filter_type n) /\ sg (filter_type n) = false /\
  n <= bits (filter_type n) /\ bits (filter_type n) <= 64.
Proof.
  intros H. unfold filter_type. cbv zeta.
  assert (A : (n + 7) / 8 * 8 <= n + 7 < ((n + 7) / 8 + 1) * 8).
  { pose proof (Z.div_mod (n + 7) 8 ltac:(lia)). pose proof (Z.mod_pos_bound (n + 7) 8 ltac:(lia)). lia. }
  set (b := (n + 7) / 8) in *. clearbody b.
  destruct (Z.eqb_spec b 0); [cbn; lia|]. destruct (Z.eqb_spec b 1); [cbn; lia|].
  destruct (Z.eqb_spec b 2); [cbn; lia|]. destruct (Z.leb_spec b 4); cbn; lia.
Qed.

(** * bloom *)
Section Bloom.
Variables M K : Z.
Hypothesis HK : 1 <= K <= M.
Hypothesis HM : M <= 64.
Let T := filter_type M.

Lemma bt : 0 < bits T /\ sg T = false /\ M <= bits T /\ bits T <= 64.
Proof. apply filter_type_facts. lia. Qed.

Lemma bloom_enabled : bloom_disabled M K = false.
Proof. unfold bloom_disabled. lia. Qed.

Lemma unmask_value n : 0 <= n <= bits T -> unmask_right T n = 2 ^ n - 1.
Proof.
  intros Hn. destruct bt as (B & S & C & D).
  assert (2 ^ n <= 2 ^ bits T) by (apply Z.pow_le_mono_r; lia).
  assert (0 < 2 ^ n) by (apply pow2_pos; lia).
  apply (bit_ext T); [exact B|apply fits_wrap; exact B| |].
  - unfold fits, imin, imax. rewrite S. lia.
  - intros i Hi. rewrite unmask_right_bit by lia. unfold bit. symmetry.
    replace (2 ^ n - 1) with (Z.ones n) by (rewrite Z.ones_equiv; lia).
    destruct (Z.ltb_spec i n).
    + apply Z.ones_spec_low. lia.
    + apply Z.ones_spec_high. lia.
Qed.

Lemma select_facts : 0 <= ceilinged_log2 M /\ M <= 2 ^ ceilinged_log2 M /\ ceilinged_log2 M <= bits T.
Proof.
  destruct bt as (B & S & C & D).
  pose proof (ceilinged_log2_ok M ltac:(lia)) as H. unfold is_ceil_log in H.
  destruct H as (H0 & H1 & H2). split; [exact H0|]. split; [exact H1|].
  destruct (Z.le_gt_cases (ceilinged_log2 M) (bits T)); [assumption|].
  exfalso. specialize (H2 ltac:(lia)).
  assert (2 ^ bits T <= 2 ^ (ceilinged_log2 M - 1)) by (apply Z.pow_le_mono_r; lia).
  assert (bits T < 2 ^ bits T) by (apply Z.pow_gt_lin_r; lia). lia.
Qed.

Lemma get_bit_range k e : 0 <= bloom_get_bit M k e < M.
Proof.
  destruct bt as (B & S & C & D). destruct select_facts as (P & Q & R).
  unfold bloom_get_bit. fold T. unfold bloom_select. cbv zeta.
  rewrite unmask_value by lia.
  set (b := bit_and T _ _).
  destruct (Z.geb_spec (2 ^ ceilinged_log2 M - 1) M).
  - apply Z.mod_pos_bound. lia.
  - assert (0 <= b < 2 ^ ceilinged_log2 M); [|lia].
    subst b. unfold bit_and.
    set (x := wrap T (shift_right _ _ _ _)).
    assert (Hx : 0 <= x).
    { subst x. unfold wrap. rewrite S. apply Z.mod_pos_bound. apply pow2_pos. lia. }
    pose proof (land_range x (2 ^ ceilinged_log2 M - 1) (ceilinged_log2 M) P Hx) as L.
    assert (0 < 2 ^ ceilinged_log2 M) by (apply pow2_pos; lia).
    specialize (L ltac:(lia)).
    rewrite wrap_fits; [exact L|exact B|].
    unfold fits, imin, imax. rewrite S.
    assert (2 ^ ceilinged_log2 M <= 2 ^ bits T) by (apply Z.pow_le_mono_r; lia). lia.
Qed.

Lemma clear_fold ks v e i : 0 <= i < bits T ->
  bit (fold_left (fun v k => set_right T v (bloom_get_bit M k e) false) ks v) i =
  bit v i && negb (existsb (fun k => bloom_get_bit M k e =? i) ks).
Proof.
  intros Hi. destruct bt as (B & S & C & D). revert v.
  induction ks as [|k ks IH]; intros v; cbn [fold_left existsb].
  - rewrite andb_true_r. reflexivity.
  - rewrite IH. pose proof (get_bit_range k e).
    rewrite set_right_bit by lia. rewrite (Z.eqb_sym i).
    destruct (Z.eqb_spec (bloom_get_bit M k e) i); cbn [orb negb].
    + rewrite andb_false_r. reflexivity.
    + reflexivity.
Qed.

Lemma clear_fits ks v e : fits T v ->
  fits T (fold_left (fun v k => set_right T v (bloom_get_bit M k e) false) ks v).
Proof.
  destruct bt as (B & S & C & D). revert v.
  induction ks as [|k ks IH]; intros v H; cbn [fold_left]; [exact H|].
  apply IH. unfold set_right. apply fits_wrap. exact B.
Qed.

(** The state after a history: a bit below M is clear exactly when some
    element of the history selected it. *)
Definition selects (e i : Z) : bool :=
  existsb (fun k => bloom_get_bit M k e =? i) (bloom_ks K).

Definition bstate (es : list Z) (v : Z) : Prop :=
  fits T v /\ forall i, 0 <= i < bits T ->
    bit v i = (i <? M) && negb (existsb (fun e => selects e i) es).

Lemma bstate_empty : bstate [] (bloom_empty M).
Proof.
  destruct bt as (B & S & C & D). split.
  - unfold bloom_empty. fold T. apply fits_wrap. exact B.
  - intros i Hi. unfold bloom_empty. fold T. rewrite unmask_right_bit by lia.
    cbn. rewrite andb_true_r. reflexivity.
Qed.

Lemma bstate_screen es v e : bstate es v -> bstate (es ++ [e]) (bloom_screen M K v e).
Proof.
  intros [F H]. destruct bt as (B & S & C & D).
  unfold bloom_screen. rewrite bloom_enabled. fold T. destruct (Z.eqb_spec v bloom_saturated) as [E|E].
  - split; [exact F|]. intros i Hi. specialize (H i Hi).
    rewrite existsb_app. subst v. unfold bloom_saturated in *.
    unfold bit in H at 1. rewrite Z.testbit_0_l in H. unfold bit. rewrite Z.testbit_0_l.
    destruct (i <? M); [|reflexivity]. cbn [andb] in H |- *.
    destruct (existsb (fun e => selects e i) es); [reflexivity|discriminate].
  - split; [apply clear_fits; exact F|]. intros i Hi.
    rewrite clear_fold by exact Hi. rewrite H by exact Hi. rewrite existsb_app.
    cbn [existsb]. rewrite orb_false_r. fold (selects e i).
    rewrite negb_orb, andb_assoc. reflexivity.
Qed.

Lemma bstate_run es : bstate es (fold_left (bloom_screen M K) es (bloom_empty M)).
Proof.
  rewrite <- (rev_involutive es). induction (rev es) as [|e l IH]; cbn [rev].
  - apply bstate_empty.
  - rewrite fold_left_app. cbn [fold_left]. apply bstate_screen. exact IH.
Qed.

Lemma ks_0 : In 0 (bloom_ks K).
Proof. unfold bloom_ks. apply in_map_iff. exists O. split; [reflexivity|]. apply in_seq. lia. Qed.
Lemma ks_in k : In k (bloom_ks K) <-> 0 <= k < K.
Proof.
  unfold bloom_ks. rewrite in_map_iff. split.
  - intros (n & <- & H). apply in_seq in H. lia.
  - intros H. exists (Z.to_nat k). split; [lia|]. apply in_seq. lia.
Qed.

Lemma selects_in e i : selects e i = true <-> exists k, 0 <= k < K /\ bloom_get_bit M k e = i.
Proof.
  unfold selects. rewrite existsb_exists. split; intros (k & A & H); exists k.
  - apply ks_in in A. lia.
  - split; [apply ks_in; exact A|lia].
Qed.

Lemma nonempty_state es v : bstate es v -> (v = bloom_empty M <-> es = []).
Proof.
  intros [F H]. destruct bt as (B & S & C & D). split.
  - intros ->. destruct es as [|e es]; [reflexivity|]. exfalso.
    pose proof (get_bit_range 0 e) as R.
    specialize (H (bloom_get_bit M 0 e) ltac:(lia)).
    unfold bloom_empty in H. fold T in H. rewrite unmask_right_bit in H by lia.
    cbn [existsb] in H.
    replace (selects e (bloom_get_bit M 0 e)) with true in H.
    + cbn [orb negb] in H. rewrite andb_false_r in H. lia.
    + symmetry. apply selects_in. exists 0. split; [lia|reflexivity].
  - intros ->. destruct bstate_empty as [F' H'].
    apply (bit_ext T); try assumption. intros i Hi. rewrite H, H' by exact Hi. reflexivity.
Qed.

Lemma bloom_screened_iff es v e : bstate es v ->
  (bloom_is_screened M K v e = true <->
   es <> [] /\ forall k, 0 <= k < K -> exists e' k', In e' es /\ 0 <= k' < K /\
      bloom_get_bit M k' e' = bloom_get_bit M k e).
Proof.
  intros St. pose proof (nonempty_state es v St) as NE. destruct St as [F H].
  destruct bt as (B & S & C & D).
  unfold bloom_is_screened. rewrite bloom_enabled. fold T.
  destruct (Z.eqb_spec v (bloom_empty M)) as [E|E].
  - split; [discriminate|]. intros [A _]. exfalso. apply A. apply NE. exact E.
  - rewrite forallb_forall. split.
    + intros A. split; [intros ->; apply E, NE; reflexivity|].
      intros k Hk. pose proof (get_bit_range k e) as R.
      specialize (A k ltac:(apply ks_in; exact Hk)). cbv beta in A.
      rewrite get_right_ok in A by lia. rewrite H in A by lia.
      replace (bloom_get_bit M k e <? M) with true in A by lia. cbn [andb] in A.
      rewrite negb_involutive in A. apply existsb_exists in A. destruct A as (e' & I & A).
      apply selects_in in A. destruct A as (k' & Hk' & A). exists e', k'. auto.
    + intros [_ A] k Hk. apply ks_in in Hk. pose proof (get_bit_range k e) as R.
      rewrite get_right_ok by lia. rewrite H by lia.
      replace (bloom_get_bit M k e <? M) with true by lia. cbn [andb].
      rewrite negb_involutive. apply existsb_exists.
      destruct (A k Hk) as (e' & k' & I & Hk' & G). exists e'. split; [exact I|].
      apply selects_in. exists k'. auto.
Qed.

Lemma bloom_collision es v e : bstate es v ->
  bloom_is_collision v (bloom_screen M K v e) = bloom_is_screened M K v e.
Proof.
  intros St. pose proof (bstate_screen es v e St) as St'.
  destruct bt as (B & S & C & D).
  unfold bloom_is_collision. apply eq_true_iff_eq. rewrite Z.eqb_eq.
  rewrite (bloom_screened_iff es v e St). destruct St as [F H], St' as [F' H']. split.
  - intros E. rewrite E in H'. split.
    + intros ->. pose proof (get_bit_range 0 e) as R.
      specialize (H (bloom_get_bit M 0 e) ltac:(lia)). specialize (H' (bloom_get_bit M 0 e) ltac:(lia)).
      rewrite H in H'. cbn [app existsb] in H'.
      replace (selects e (bloom_get_bit M 0 e)) with true in H'.
      * cbn [orb negb] in H'. rewrite andb_false_r in H'. cbn [negb] in H'. lia.
      * symmetry. apply selects_in. exists 0. split; [lia|reflexivity].
    + intros k Hk. pose proof (get_bit_range k e) as R.
      specialize (H (bloom_get_bit M k e) ltac:(lia)). specialize (H' (bloom_get_bit M k e) ltac:(lia)).
      rewrite H in H'. replace (bloom_get_bit M k e <? M) with true in H' by lia.
      rewrite existsb_app in H'. cbn [existsb andb] in H'.
      replace (selects e (bloom_get_bit M k e)) with true in H'.
      * cbn [orb] in H'. rewrite orb_true_r in H'. cbn [negb] in H'.
        apply negb_false_iff in H'. apply existsb_exists in H'. destruct H' as (e' & I & A).
        apply selects_in in A. destruct A as (k' & Hk' & A). exists e', k'. auto.
      * symmetry. apply selects_in. exists k. split; [lia|reflexivity].
  - intros [NEm A]. apply (bit_ext T); try assumption. intros i Hi.
    rewrite H, H' by exact Hi. rewrite existsb_app. cbn [existsb]. rewrite orb_false_r.
    destruct (selects e i) eqn:X; [|rewrite orb_false_r; reflexivity].
    rewrite orb_true_r. apply selects_in in X. destruct X as (k & Hk & <-).
    destruct (A k Hk) as (e' & k' & I & Hk' & G).
    replace (existsb (fun e0 => selects e0 (bloom_get_bit M k e)) es) with true; [reflexivity|].
    symmetry. apply existsb_exists. exists e'. split; [exact I|]. apply selects_in. exists k'. auto.
Qed.
End Bloom.
