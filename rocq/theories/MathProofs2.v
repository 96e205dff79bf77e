From Verif Require Import Base MathModel MathSpec MathProofs.

Lemma ceilinged_modulo_unsigned_eq T a b :
  1 < bits T -> sg T = false -> fits T a -> fits T b -> b <> 0 ->
  b <= 2 ^ (bits T - 1) ->
  ceilinged_modulo T a b = Some (a - b * (- Z.div (- a) b)).
Proof.
  intros HB1 S Ha Hb Hb0 Hsm. assert (HB : 0 < bits T) by lia.
  assert (Hex : ~ (sg T = true /\ a = imin T /\ b = -1)) by (intros [C _]; congruence).
  unfold ceilinged_modulo. rewrite truncated_modulo_eq, is_ceilinged__eq by assumption.
  cbn [obind]. ity_facts T.
  pose proof (quot_ceil T a b Hb0 Hex) as QC. unfits.
  assert (Hbp : 0 < b) by lia.
  set (w := Z.rem a b - _).
  assert (Ew : w = a - b * - (- a / b)).
  { unfold w. rewrite QC.
    pose proof (Z.quot_rem a b Hb0) as E.
    destruct (xorb (a <? 0) (b <? 0)), (Z.rem a b =? 0); cbn [negb orb andb]; lia. }
  assert (Bw : - b < w <= 0).
  { replace w with (- ((- a) mod b)) by (rewrite Ew, Z.mod_eq by lia; lia).
    pose proof (Z.mod_pos_bound (- a) b Hbp). lia. }
  assert (Fw : fits (signed_of T) w).
  { rewrite fits_signed by reflexivity. cbn [signed_of bits]. lia. }
  unfold arith, promote. destruct (Z.ltb_spec (bits T) 32).
  - cbn [sg i32]. assert (Fi : fitsb i32 w = true).
    { apply fitsb_spec. unfold fits, imin, imax. cbn [sg bits i32].
      assert (2 ^ (bits T - 1) <= 2 ^ 31) by (apply Z.pow_le_mono_r; lia).
      change (2 ^ (32 - 1)) with (2 ^ 31). lia. }
    rewrite Fi. cbn [omap]. rewrite wrap_fits; [rewrite Ew; reflexivity|exact HB|exact Fw].
  - rewrite S. cbn [omap]. f_equal. rewrite <- Ew.
    destruct (wrap_cong T w HB) as [k Hk].
    apply (wrap_unique (signed_of T) _ _ (- k)); [exact HB|exact Fw|].
    rewrite Hk. cbn [signed_of bits]. lia.
Qed.

(** ** Power. *)
Lemma power_loop_eq T f n p :
  sg T = false -> 0 < bits T -> power_loop T f n p mod 2 ^ bits T = (p * f ^ Z.of_nat n) mod 2 ^ bits T.
Proof.
  intros S HB. revert p. induction n as [|n IH]; intros p; cbn [power_loop].
  - rewrite Z.pow_0_r, Z.mul_1_r. reflexivity.
  - rewrite IH. unfold wrap. rewrite S.
    rewrite Zmult_mod_idemp_l. f_equal.
    rewrite Nat2Z.inj_succ, Z.pow_succ_r by lia. lia.
Qed.
Lemma power_loop_fits T f n p :
  0 < bits T -> fits T p -> fits T (power_loop T f n p).
Proof.
  intros HB. revert p. induction n as [|n IH]; intros p Hp; cbn [power_loop]; [assumption|].
  apply IH, fits_wrap, HB.
Qed.
Lemma power_eq T b n :
  sg T = false -> 0 < bits T -> ~ (b = 0 /\ n = O) ->
  power_ T b n = (b ^ Z.of_nat n) mod 2 ^ bits T.
Proof.
  intros S HB Hz. unfold power_.
  destruct ((b =? 0) && Nat.eqb n 0) eqn:C.
  { exfalso. apply Hz. apply andb_true_iff in C as [C1 C2].
    apply Z.eqb_eq in C1. apply Nat.eqb_eq in C2. auto. }
  assert (F : fits T (power_loop T (wrap T b) n 1)).
  { apply power_loop_fits; [assumption|]. ity_facts T. rewrite fits_unsigned by assumption. lia. }
  rewrite fits_unsigned in F by assumption.
  rewrite <- (Z.mod_small _ _ F). rewrite power_loop_eq by assumption.
  rewrite Z.mul_1_l. unfold wrap. rewrite S.
  clear. induction n as [|n IH]; [reflexivity|].
  rewrite Nat2Z.inj_succ, !Z.pow_succ_r by lia.
  rewrite Zmult_mod, IH, Zmod_mod, <- Zmult_mod. reflexivity.
Qed.

(** ** Logarithms. *)
Lemma log2_bracket v : 0 < v -> 2 ^ Z.log2 v <= v < 2 ^ (Z.log2 v + 1).
Proof. intros H. apply Z.log2_spec in H. rewrite <- Z.add_1_r in H. exact H. Qed.

Lemma floored_log2_ok v : 1 <= v -> is_floor_log 2 v (floored_log2 v).
Proof.
  intros H. unfold floored_log2, std_bit_width, is_floor_log.
  destruct (Z.ltb_spec v 1); [lia|]. destruct (Z.eqb_spec v 0); [lia|].
  replace (Z.log2 v + 1 - 1) with (Z.log2 v) by lia.
  split; [apply Z.log2_nonneg|apply log2_bracket; lia].
Qed.
Lemma floored_log2_uintx_ok v : 1 <= v -> is_floor_log 2 v (floored_log2_uintx v).
Proof.
  intros H. unfold floored_log2_uintx, is_floor_log.
  destruct (Z.ltb_spec v 1); [lia|].
  split; [apply Z.log2_nonneg|apply log2_bracket; lia].
Qed.
Lemma ceilinged_log2_ok v : 1 <= v -> is_ceil_log 2 v (ceilinged_log2 v).
Proof.
  intros H. unfold ceilinged_log2, std_bit_width, is_ceil_log.
  destruct (Z.ltb_spec v 1); [lia|]. destruct (Z.eqb_spec (v - 1) 0).
  - split; [lia|]. split; [change (2 ^ 0) with 1; lia|lia].
  - pose proof (log2_bracket (v - 1) ltac:(lia)). pose proof (Z.log2_nonneg (v - 1)).
    repeat split; try lia. replace (Z.log2 (v - 1) + 1 - 1) with (Z.log2 (v - 1)) by lia. lia.
Qed.
Lemma ceilinged_log2_uintx_ok v : 1 <= v -> is_ceil_log 2 v (ceilinged_log2_uintx v).
Proof.
  intros H. unfold ceilinged_log2_uintx, is_ceil_log.
  destruct (Z.ltb_spec v 1); [lia|]. cbn [orb]. destruct (Z.eqb_spec v 1).
  - split; [lia|]. split; [change (2 ^ 0) with 1; lia|lia].
  - pose proof (log2_bracket (v - 1) ltac:(lia)). pose proof (Z.log2_nonneg (v - 1)).
    repeat split; try lia. replace (Z.log2 (v - 1) + 1 - 1) with (Z.log2 (v - 1)) by lia. lia.
Qed.

Definition std_width (T : ity) : Prop :=
  bits T = 8 \/ bits T = 16 \/ bits T = 32 \/ bits T = 64.

Lemma fits_pos_lt T v : std_width T -> fits T v -> v < 2 ^ bits T.
Proof.
  intros HW Hv. assert (HB : 0 < bits T) by (unfold std_width in HW; lia). ity_facts T.
  destruct (sg T) eqn:S; unfits; lia.
Qed.

Lemma floored_log256_ok T v :
  std_width T -> fits T v -> 1 <= v -> is_floor_log 256 v (floored_log256 T v).
Proof.
  intros HW Hf Hv. pose proof (fits_pos_lt T v HW Hf) as HL.
  unfold floored_log256. destruct (Z.ltb_spec v 1); [lia|].
  unfold is_floor_log.
  assert (forall k, 0 <= k <= 7 -> 256 ^ k <= v < 256 ^ (k + 1) -> 0 <= k /\ 256 ^ k <= v < 256 ^ (k + 1)) as G
      by (intros; split; lia).
  destruct HW as [W|[W|[W|W]]]; rewrite W in *; cbn [Z.eqb Z.leb Pos.eqb Z.compare Pos.compare Pos.compare_cont andb];
    repeat match goal with |- context [if (?x <? ?y) then _ else _] => destruct (Z.ltb_spec x y) end;
    apply G; try lia.
Qed.
Lemma ceilinged_log256_ok T v :
  std_width T -> fits T v -> 1 <= v -> is_ceil_log 256 v (ceilinged_log256 T v).
Proof.
  intros HW Hf Hv. pose proof (fits_pos_lt T v HW Hf) as HL.
  unfold ceilinged_log256. destruct (Z.ltb_spec v 1); [lia|].
  unfold is_ceil_log.
  destruct HW as [W|[W|[W|W]]]; rewrite W in *; cbn [Z.eqb Z.leb Pos.eqb Z.compare Pos.compare Pos.compare_cont andb];
    repeat match goal with |- context [if (?x <? ?y) then _ else _] => destruct (Z.ltb_spec x y) end;
    (split; [lia|split; [|intros; cbn [Z.sub Z.opp Z.add Z.pos_sub Pos.pred_double]]; cbn; lia]).
Qed.

Lemma floor_log_div8 v k : is_floor_log 2 v k -> is_floor_log 256 v (k / 8).
Proof.
  intros (H0 & H1 & H2).
  pose proof (Z.div_mod k 8 ltac:(lia)) as E. pose proof (Z.mod_pos_bound k 8 ltac:(lia)).
  assert (0 <= k / 8) by (apply Z.div_pos; lia).
  split; [assumption|]. change 256 with (2 ^ 8).
  rewrite <- !Z.pow_mul_r by lia. split.
  - eapply Z.le_trans; [|exact H1]. apply Z.pow_le_mono_r; lia.
  - eapply Z.lt_le_trans; [exact H2|]. apply Z.pow_le_mono_r; lia.
Qed.
Lemma ceil_log_div8 v k :
  is_ceil_log 2 v k -> is_ceil_log 256 v (k / 8 + (if k mod 8 =? 0 then 0 else 1)).
Proof.
  intros (H0 & H1 & H2).
  pose proof (Z.div_mod k 8 ltac:(lia)) as E. pose proof (Z.mod_pos_bound k 8 ltac:(lia)).
  assert (0 <= k / 8) by (apply Z.div_pos; lia).
  set (j := if k mod 8 =? 0 then 0 else 1).
  assert (Hj : k <= 8 * (k / 8 + j) < k + 8) by (unfold j; destruct (Z.eqb_spec (k mod 8) 0); lia).
  split; [unfold j; destruct (_ =? _); lia|]. change 256 with (2 ^ 8).
  assert (0 <= j) by (unfold j; destruct (_ =? _); lia).
  split.
  - rewrite <- Z.pow_mul_r by lia. eapply Z.le_trans; [exact H1|]. apply Z.pow_le_mono_r; lia.
  - intros Hp. rewrite <- Z.pow_mul_r by lia.
    eapply Z.le_lt_trans; [|apply H2; lia]. apply Z.pow_le_mono_r; lia.
Qed.
Lemma floored_log256_uintx_ok v : 1 <= v -> is_floor_log 256 v (floored_log256_uintx v).
Proof.
  intros H. unfold floored_log256_uintx. destruct (Z.ltb_spec v 1); [lia|].
  apply floor_log_div8, floored_log2_uintx_ok; assumption.
Qed.
Lemma ceilinged_log256_uintx_ok v : 1 <= v -> is_ceil_log 256 v (ceilinged_log256_uintx v).
Proof.
  intros H. unfold ceilinged_log256_uintx. destruct (Z.ltb_spec v 1); [lia|].
  apply ceil_log_div8, ceilinged_log2_uintx_ok; assumption.
Qed.

Lemma floored_log_loop_ok b v : 2 <= b -> forall fuel x e,
  1 <= x -> 0 <= e -> (Z.to_nat (Z.log2 x) < fuel)%nat ->
  b ^ e * x <= v < b ^ e * (x + 1) ->
  exists k, floored_log_loop fuel b x e = Some k /\ is_floor_log b v k.
Proof.
  intros Hb. induction fuel as [|n IH]; intros x e Hx He Hfu Hinv; [lia|].
  cbn [floored_log_loop].
  pose proof (Z.div_mod x b ltac:(lia)) as E. pose proof (Z.mod_pos_bound x b ltac:(lia)).
  assert (0 < b ^ e) by (apply Z.pow_pos_nonneg; lia).
  assert (Eb : b ^ (e + 1) = b ^ e * b) by (rewrite Z.pow_add_r, Z.pow_1_r by lia; reflexivity).
  destruct (Z.ltb_spec 0 (x / b)) as [C|C].
  - apply IH; [lia|lia| |].
    + assert (Z.log2 (x / b) < Z.log2 x); [|pose proof (Z.log2_nonneg (x / b)); lia].
      assert (Hle : x / b <= x / 2) by (apply Z.div_le_compat_l; lia).
      assert (2 <= x).
      { destruct (Z.le_gt_cases 2 x); [assumption|]. assert (x = 1) by lia. subst x.
        rewrite Z.div_small in C by lia. lia. }
      assert (Z.log2 (x / b) <= Z.log2 (x / 2)) by (apply Z.log2_le_mono; assumption).
      assert (Z.log2 (x / 2) = Z.log2 x - 1); [|lia].
      rewrite <- Z.div2_div. rewrite Z.div2_spec. rewrite Z.log2_shiftr by lia. 
      assert (1 <= Z.log2 x) by (apply (Z.log2_le_mono 2); lia). lia.
    + rewrite Eb. split; nia.
  - exists e. split; [reflexivity|]. split; [lia|]. rewrite Eb.
    assert (x / b = 0) by (pose proof (Z.div_pos x b); lia). split; nia.
Qed.
Lemma floored_log_ok b v : 2 <= b -> 1 <= v ->
  exists k, floored_log_ b v = Some k /\ is_floor_log b v k.
Proof.
  intros Hb Hv. unfold floored_log_.
  destruct (Z.ltb_spec b 2); [lia|]. destruct (Z.ltb_spec v 1); [lia|]. cbn [orb].
  apply floored_log_loop_ok; try lia. unfold log_fuel. lia.
Qed.
Lemma ceilinged_log_refuted :
  exists b v k, 2 <= b /\ 1 <= v /\ ceilinged_log_ b v = Some k /\ ~ is_ceil_log b v k.
Proof.
  exists 10, 11, 1. repeat split; try lia; try reflexivity.
  intros (_ & H & _). change (10 ^ 1) with 10 in H. lia.
Qed.
(** What the general-base loop does compute: one more than the floor of the
    base-b logarithm whenever the leading digit exceeds one. *)

Lemma bit_width_ok T v : std_width T -> fits T v -> 0 < v ->
  2 ^ (bit_width T v - 1) <= v < 2 ^ bit_width T v.
Proof.
  intros HW Hf Hv. unfold bit_width.
  destruct (Z.ltb_spec v 0); [lia|]. rewrite andb_false_r.
  destruct (Z.eqb_spec v 0); [lia|].
  destruct (floored_log2_ok v ltac:(lia)) as (H1 & H2).
  replace (floored_log2 v + 1 - 1) with (floored_log2 v) by lia. exact H2.
Qed.
