From Verif Require Import Base MathModel MathSpec.

Ltac ity_facts T :=
  let HB := fresh in
  assert (HB : 0 < bits T) by assumption;
  pose proof (pow2_split (bits T) HB);
  assert (0 < 2 ^ (bits T - 1)) by (apply pow2_pos; lia).

Lemma arith_signed_fits T z : fits T z -> 0 < bits T -> arith T z = Some z.
Proof.
  intros HF HB. unfold arith. destruct (sg T).
  - apply fitsb_spec in HF. rewrite HF. reflexivity.
  - rewrite wrap_fits by assumption. reflexivity.
Qed.

Lemma arith_promote_fits T z :
  0 < bits T -> fits T z -> arith (promote T) z = Some z.
Proof.
  intros. apply arith_signed_fits; [apply fits_promote|apply promote_bits]; assumption.
Qed.

Lemma fits_unsigned T z : sg T = false -> (fits T z <-> 0 <= z < 2 ^ bits T).
Proof. intros H. unfold fits, imin, imax. rewrite H. lia. Qed.
Lemma fits_signed T z :
  sg T = true -> (fits T z <-> - 2 ^ (bits T - 1) <= z < 2 ^ (bits T - 1)).
Proof. intros H. unfold fits, imin, imax. rewrite H. lia. Qed.

Ltac unfits :=
  repeat match goal with
  | H : fits ?T ?z, S : sg ?T = true |- _ => rewrite (fits_signed T z S) in H
  | H : fits ?T ?z, S : sg ?T = false |- _ => rewrite (fits_unsigned T z S) in H
  end.

Lemma is_add_overflow_exact T l r :
  0 < bits T -> fits T l -> fits T r ->
  is_add_overflow T l r = Some (negb (fitsb T (l + r))).
Proof.
  intros HB Hl Hr. ity_facts T. unfold is_add_overflow.
  destruct (sg T) eqn:S.
  - destruct (Z.eqb_spec r 0) as [->|Hr0].
    { rewrite Z.add_0_r. apply fitsb_spec in Hl. rewrite Hl. reflexivity. }
    destruct (Z.ltb_spec r 0) as [Hneg|Hpos]; cbn [obind].
    + rewrite arith_promote_fits; [|assumption|].
      2:{ unfits. rewrite fits_signed by assumption. unfold imin. rewrite S. lia. }
      cbn [omap obind]. unfits. unfold fitsb, imin, imax. rewrite S.
      destruct (Z.ltb_spec l (- 2 ^ (bits T - 1) - r));
        f_equal; lia.
    + rewrite arith_promote_fits; [|assumption|].
      2:{ unfits. rewrite fits_signed by assumption. unfold imax. rewrite S. lia. }
      cbn [omap]. unfits. unfold fitsb, imin, imax. rewrite S. f_equal. lia.
  - rewrite arith_promote_fits; [|assumption|].
    2:{ unfits. rewrite fits_unsigned by assumption. unfold imax. rewrite S. lia. }
    cbn [omap]. unfits. unfold fitsb, imin, imax. rewrite S. f_equal. lia.
Qed.

Lemma is_subtract_overflow_exact T l r :
  0 < bits T -> fits T l -> fits T r ->
  is_subtract_overflow T l r = Some (negb (fitsb T (l - r))).
Proof.
  intros HB Hl Hr. ity_facts T. unfold is_subtract_overflow.
  destruct (sg T) eqn:S.
  - destruct (Z.eqb_spec r 0) as [->|Hr0].
    { rewrite Z.sub_0_r. apply fitsb_spec in Hl. rewrite Hl. reflexivity. }
    destruct (Z.ltb_spec r 0) as [Hneg|Hpos]; cbn [obind].
    + rewrite arith_promote_fits; [|assumption|].
      2:{ unfits. rewrite fits_signed by assumption. unfold imax. rewrite S. lia. }
      cbn [omap obind]. unfits. unfold fitsb, imin, imax. rewrite S.
      destruct (Z.ltb_spec (2 ^ (bits T - 1) - 1 + r) l); f_equal; lia.
    + rewrite arith_promote_fits; [|assumption|].
      2:{ unfits. rewrite fits_signed by assumption. unfold imin. rewrite S. lia. }
      cbn [omap]. unfits. unfold fitsb, imin, imax. rewrite S. f_equal. lia.
  - unfits. unfold fitsb, imin, imax. rewrite S. f_equal. lia.
Qed.

Lemma is_multiply_overflow_exact T l r :
  0 < bits T -> sg T = false -> fits T l -> fits T r ->
  is_multiply_overflow T l r = negb (fitsb T (l * r)).
Proof.
  intros HB S Hl Hr. unfits. unfold is_multiply_overflow, fitsb, imin, imax. rewrite S.
  destruct (Z.eqb_spec r 0) as [->|Hr0].
  { rewrite Z.mul_0_r. cbn [negb andb]. assert (0 < 2 ^ bits T) by (apply pow2_pos; lia). lia. }
  cbn [negb andb].
  assert (Hpos : 0 < r) by lia.
  destruct (Z.ltb_spec ((2 ^ bits T - 1) / r) l) as [H|H].
  - symmetry. apply negb_true_iff, andb_false_iff. right. apply Z.leb_gt.
    apply Z.div_lt_upper_bound in H || idtac.
    destruct (Z.le_gt_cases (l * r) (2 ^ bits T - 1)) as [C|C]; [|lia].
    assert (l <= (2 ^ bits T - 1) / r) by (apply Z.div_le_lower_bound; lia). lia.
  - symmetry. apply negb_false_iff, andb_true_iff. split; [apply Z.leb_le; nia|].
    apply Z.leb_le. 
    pose proof (Z.mul_div_le (2 ^ bits T - 1) r Hpos). nia.
Qed.

Lemma add_fits T l r : 0 < bits T -> fits T (l + r) -> add T l r = Some (l + r).
Proof.
  intros. unfold add. rewrite arith_promote_fits by assumption. cbn.
  rewrite wrap_fits by assumption. reflexivity.
Qed.
Lemma subtract_fits T l r : 0 < bits T -> fits T (l - r) -> subtract T l r = Some (l - r).
Proof.
  intros. unfold subtract. rewrite arith_promote_fits by assumption. cbn.
  rewrite wrap_fits by assumption. reflexivity.
Qed.
Lemma clamp_fits T z : fits T z -> clamp T z = z.
Proof. unfold fits, clamp. lia. Qed.

Lemma ceilinged_add_clamps T l r :
  0 < bits T -> fits T l -> fits T r ->
  ceilinged_add T l r = Some (clamp T (l + r)).
Proof.
  intros HB Hl Hr. unfold ceilinged_add. rewrite is_add_overflow_exact by assumption.
  cbn [obind]. destruct (fitsb T (l + r)) eqn:E; cbn [negb].
  - apply fitsb_spec in E. rewrite add_fits, clamp_fits by assumption. reflexivity.
  - apply fitsb_false in E. ity_facts T. f_equal. unfold clamp.
    unfold fits, imin, imax in *. destruct (sg T); [destruct (Z.ltb_spec r 0)|]; lia.
Qed.

Lemma floored_subtract_clamps T l r :
  0 < bits T -> fits T l -> fits T r ->
  floored_subtract T l r = Some (clamp T (l - r)).
Proof.
  intros HB Hl Hr. unfold floored_subtract.
  rewrite is_subtract_overflow_exact by assumption.
  cbn [obind]. destruct (fitsb T (l - r)) eqn:E; cbn [negb].
  - apply fitsb_spec in E. rewrite subtract_fits, clamp_fits by assumption. reflexivity.
  - apply fitsb_false in E. ity_facts T. f_equal. unfold clamp.
    unfold fits, imin, imax in *. destruct (sg T); [destruct (Z.ltb_spec r 0)|]; lia.
Qed.

Lemma ceilinged_multiply_clamps T l r :
  0 < bits T -> sg T = false -> fits T l -> fits T r ->
  ceilinged_multiply T l r = Some (clamp T (l * r)).
Proof.
  intros HB S Hl Hr. unfold ceilinged_multiply.
  rewrite is_multiply_overflow_exact by assumption.
  destruct (fitsb T (l * r)) eqn:E; cbn [negb].
  - apply fitsb_spec in E. rewrite arith_promote_fits by assumption. cbn.
    rewrite wrap_fits, clamp_fits by assumption. reflexivity.
  - apply fitsb_false in E. f_equal. unfits. unfold fits, clamp, imin, imax in *. rewrite S in *. nia.
Qed.

Lemma safe_add_exact T l r :
  0 < bits T -> fits T l -> fits T r ->
  safe_add T l r = if fitsb T (l + r) then Val (l + r) else Throws.
Proof.
  intros. unfold safe_add, safe. rewrite is_add_overflow_exact by assumption.
  destruct (fitsb T (l + r)) eqn:E; cbn [negb]; [|reflexivity].
  apply fitsb_spec in E. rewrite add_fits by assumption. reflexivity.
Qed.
Lemma safe_subtract_exact T l r :
  0 < bits T -> fits T l -> fits T r ->
  safe_subtract T l r = if fitsb T (l - r) then Val (l - r) else Throws.
Proof.
  intros. unfold safe_subtract, safe. rewrite is_subtract_overflow_exact by assumption.
  destruct (fitsb T (l - r)) eqn:E; cbn [negb]; [|reflexivity].
  apply fitsb_spec in E. rewrite subtract_fits by assumption. reflexivity.
Qed.
Lemma safe_multiply_exact T l r :
  0 < bits T -> sg T = false -> fits T l -> fits T r ->
  safe_multiply T l r = if fitsb T (l * r) then Val (l * r) else Throws.
Proof.
  intros. unfold safe_multiply, safe. rewrite is_multiply_overflow_exact by assumption.
  destruct (fitsb T (l * r)) eqn:E; cbn [negb]; [|reflexivity].
  apply fitsb_spec in E. rewrite arith_promote_fits by assumption. cbn.
  rewrite wrap_fits by assumption. reflexivity.
Qed.
Lemma safe_negate_exact T v :
  0 < bits T -> sg T = true -> fits T v ->
  safe_negate T v = if fitsb T (- v) then Val (- v) else Throws.
Proof.
  intros HB S Hv. ity_facts T. unfold safe_negate, safe, is_negate_overflow.
  assert (Hf : fitsb T (- v) = negb (v =? imin T)).
  { unfits. unfold fitsb, imin, imax. rewrite S. lia. }
  rewrite Hf. destruct (v =? imin T); cbn [negb] in *; [reflexivity|].
  apply fitsb_spec in Hf. rewrite arith_promote_fits by assumption. cbn.
  rewrite wrap_fits by assumption. reflexivity.
Qed.

Lemma wrap_u_nonneg R v : 0 < bits R -> sg R = true -> fits R v -> 0 <= v ->
  wrap (unsigned_of R) v = v.
Proof.
  intros HB S Hv H0. ity_facts R. unfits. apply wrap_fits; [exact HB|].
  rewrite fits_unsigned by reflexivity. cbn [unsigned_of bits]. lia.
Qed.

Lemma is_greater_exact L R l r :
  0 < bits L -> 0 < bits R -> fits L l -> fits R r ->
  is_greater L R l r = (r <? l).
Proof.
  intros HL HR Fl Fr. unfold is_greater.
  destruct (sg L) eqn:SL, (sg R) eqn:SR; try reflexivity.
  - destruct (Z.ltb_spec l 0); cbn [negb andb].
    + unfits. lia.
    + rewrite wrap_u_nonneg by assumption. reflexivity.
  - destruct (Z.ltb_spec r 0); cbn [orb].
    + unfits. lia.
    + rewrite wrap_u_nonneg by assumption. reflexivity.
Qed.
Lemma is_lesser_exact L R l r :
  0 < bits L -> 0 < bits R -> fits L l -> fits R r ->
  is_lesser L R l r = (l <? r).
Proof.
  intros HL HR Fl Fr. unfold is_lesser.
  destruct (sg L) eqn:SL, (sg R) eqn:SR; try reflexivity.
  - destruct (Z.ltb_spec l 0); cbn [orb].
    + unfits. lia.
    + rewrite wrap_u_nonneg by assumption. reflexivity.
  - destruct (Z.ltb_spec r 0); cbn [negb andb].
    + unfits. lia.
    + rewrite wrap_u_nonneg by assumption. reflexivity.
Qed.

Lemma fits_imin T : 0 < bits T -> fits T (imin T).
Proof. intros. ity_facts T. unfold fits, imin, imax. destruct (sg T); lia. Qed.
Lemma fits_imax T : 0 < bits T -> fits T (imax T).
Proof. intros. ity_facts T. unfold fits, imin, imax. destruct (sg T); lia. Qed.

Lemma limit3_exact R I v lo hi :
  0 < bits R -> 0 < bits I -> fits I v -> fits R lo -> fits R hi -> lo <= hi ->
  limit3 R I v lo hi = clamp_between lo hi v.
Proof.
  intros. unfold limit3. rewrite is_lesser_exact, is_greater_exact by assumption.
  unfold clamp_between.
  destruct (Z.ltb_spec v lo); [lia|]. destruct (Z.ltb_spec hi v); [lia|].
  rewrite wrap_fits; [lia|assumption|]. unfold fits in *. lia.
Qed.
Lemma limit_exact R I v :
  0 < bits R -> 0 < bits I -> fits I v -> limit R I v = clamp R v.
Proof.
  intros HR HI Hv. unfold limit. rewrite limit3_exact; try assumption.
  - reflexivity.
  - apply fits_imin; assumption.
  - apply fits_imax; assumption.
  - pose proof (fits_imin R HR) as [_ H]. exact H.
Qed.
Lemma is_limited_exact R I v :
  0 < bits R -> 0 < bits I -> fits I v -> is_limited R I v = negb (fitsb R v).
Proof.
  intros HR HI Hv. unfold is_limited, is_limited3.
  rewrite is_lesser_exact, is_greater_exact;
    auto using fits_imin, fits_imax. unfold fitsb. lia.
Qed.

Lemma delta_unsigned_exact E U l r :
  0 < bits E -> 0 < bits U -> sg E = true -> sg U = false ->
  fits U l -> fits U r -> delta_unsigned E U l r = Some (clamp E (l - r)).
Proof.
  intros HE HU SE SU Hl Hr. unfold delta_unsigned. ity_facts E.
  destruct (Z.ltb_spec l r).
  - rewrite subtract_fits; [|assumption|unfits; rewrite fits_unsigned by assumption; lia].
    cbn [obind]. unfold floored_negate.
    destruct (Z.ltb_spec (imax E) (r - l)) as [H'|H'].
    + f_equal. unfold clamp, imin, imax in *. rewrite SE in *. lia.
    + assert (F : fits E (r - l)).
      { rewrite fits_signed by assumption. unfold imax in H'. rewrite SE in H'. lia. }
      rewrite wrap_fits by assumption. unfold negate. rewrite SE.
      assert (F' : fits E (- (r - l))).
      { rewrite fits_signed in * by assumption. lia. }
      rewrite arith_promote_fits by assumption. cbn [omap].
      rewrite wrap_fits by assumption. f_equal.
      replace (l - r) with (- (r - l)) by lia. rewrite clamp_fits by assumption. reflexivity.
  - rewrite subtract_fits; [|assumption|unfits; rewrite fits_unsigned by assumption; lia].
    cbn [obind]. rewrite limit_exact; [reflexivity|assumption|assumption|].
    unfits. rewrite fits_unsigned by assumption. lia.
Qed.

Lemma absolute_exact T v :
  32 <= bits T -> sg T = true -> fits T v -> v <> imin T ->
  absolute T v = Some (Z.abs v).
Proof.
  intros HB S Hv Hne. assert (0 < bits T) by lia. ity_facts T.
  unfold absolute. rewrite S. unfold imin in Hne. rewrite S in Hne. unfits.
  destruct (Z.ltb_spec v 0).
  - unfold negate. rewrite S.
    assert (F : fits T (- v)) by (rewrite fits_signed by assumption; lia).
    rewrite arith_promote_fits by assumption. cbn [omap].
    rewrite (wrap_fits T) by assumption.
    rewrite wrap_u_nonneg; try assumption; [f_equal; lia|lia].
  - cbn [omap]. rewrite wrap_u_nonneg; try assumption; [f_equal; lia|].
    rewrite fits_signed by assumption; lia.
Qed.

(** Products. *)
Lemma is_multiple_exact p v : is_multiple p v = true <-> exists k, p = k * v.
Proof.
  unfold is_multiple. destruct (Z.eqb_spec v 0) as [->|Hv].
  - rewrite Z.eqb_eq. split; [intros ->; exists 0; lia|intros [k ->]; lia].
  - rewrite Z.eqb_eq. rewrite Z.rem_divide by assumption. reflexivity.
Qed.
Lemma is_product_exact p l r : is_product p l r = true <-> p = l * r.
Proof.
  unfold is_product. destruct (Z.eqb_spec l 0) as [->|Hl]; cbn [orb].
  { rewrite Z.eqb_eq. lia. }
  destruct (Z.eqb_spec r 0) as [->|Hr]; cbn [orb].
  { rewrite Z.eqb_eq. lia. }
  rewrite andb_true_iff, !Z.eqb_eq. split.
  - intros [H1 H2]. pose proof (Z.quot_rem p l Hl). subst r. lia.
  - intros ->. rewrite Z.mul_comm. rewrite Z.rem_mul, Z.quot_mul by assumption. auto.
Qed.

(** ** Division family. *)
Lemma quot_bounds T a b :
  0 < bits T -> fits T a -> fits T b -> b <> 0 ->
  ~ (sg T = true /\ a = imin T /\ b = -1) -> fits T (Z.quot a b).
Proof.
  intros HB Ha Hb Hb0 Hex. ity_facts T.
  assert (Habs : Z.abs (Z.quot a b) <= Z.abs a).
  { rewrite <- Z.quot_abs by assumption.
    apply Z.quot_le_upper_bound; [lia|].
    assert (1 <= Z.abs b) by lia. nia. }
  destruct (sg T) eqn:S.
  - unfits. rewrite fits_signed by assumption. unfold imin in Hex. rewrite S in Hex.
    destruct (Z.eq_dec a (- 2 ^ (bits T - 1))) as [Ea|Ea]; [|lia].
    destruct (Z.eq_dec b (-1)) as [Eb|Eb]; [exfalso; apply Hex; auto|].
    destruct (Z.lt_trichotomy b 0) as [Hb'|[Hb'|Hb']]; [|lia|].
    + assert (0 <= Z.quot a b).
      { rewrite <- (Z.opp_involutive a), <- (Z.opp_involutive b), Z.quot_opp_opp by lia.
        apply Z.quot_pos; lia. }
      assert (Z.quot a b <= 2 ^ (bits T - 1) - 1); [|lia].
      rewrite <- (Z.opp_involutive a), <- (Z.opp_involutive b), Z.quot_opp_opp by lia.
      destruct (Z.eq_dec (2 ^ (bits T - 1)) 1).
      * rewrite Ea, e. rewrite Z.quot_small by lia. lia.
      * apply Z.quot_le_upper_bound; [lia|]. nia.
    + assert (Z.quot a b <= 0).
      { rewrite <- (Z.opp_involutive a), Z.quot_opp_l by lia.
        assert (0 <= Z.quot (- a) b) by (apply Z.quot_pos; lia). lia. }
      lia.
  - unfits. rewrite fits_unsigned by assumption.
    assert (0 <= Z.quot a b) by (apply Z.quot_pos; lia). lia.
Qed.

Section Div.
Variables (T : ity) (a b : Z).
Hypothesis HB : 0 < bits T.
Hypothesis Ha : fits T a.
Hypothesis Hb : fits T b.
Hypothesis Hb0 : b <> 0.
Hypothesis Hex : ~ (sg T = true /\ a = imin T /\ b = -1).

Lemma rem_fits : fits T (Z.rem a b).
Proof.
  pose proof (Z.rem_bound_abs a b Hb0) as H1.
  assert (Z.abs (Z.rem a b) <= Z.abs a).
  { destruct (Z.le_gt_cases (Z.abs a) (Z.abs b)) as [C|C]; [|lia].
    destruct (Z.eq_dec (Z.abs a) (Z.abs b)) as [E|E].
    - rewrite Z.rem_abs_l || idtac.
      assert (Z.abs (Z.rem a b) = Z.rem (Z.abs a) (Z.abs b)) as -> by (symmetry; apply Z.rem_abs; assumption).
      rewrite E, Z.rem_same by lia. lia.
    - rewrite <- Z.rem_abs by assumption. rewrite Z.rem_small by lia. lia. }
  destruct (sg T) eqn:S; unfits.
  - rewrite fits_signed by assumption.
    pose proof (Z.rem_sign_nz a b Hb0).
    destruct (Z.eq_dec (Z.rem a b) 0) as [->|Hnz]; [lia|].
    specialize (H0 Hnz). 
    destruct (Z.lt_trichotomy a 0) as [C|[C|C]].
    + rewrite (Z.sgn_neg a) in H0 by assumption. apply Z.sgn_neg_iff in H0. lia.
    + subst a. rewrite Z.rem_0_l in Hnz by assumption. lia.
    + lia.
  - rewrite fits_unsigned by assumption. pose proof (Z.rem_nonneg a b Hb0). lia.
Qed.

Lemma native_div_eq : native_div T a b = Some (Z.quot a b).
Proof.
  unfold native_div. destruct (Z.eqb_spec b 0); [contradiction|].
  apply arith_promote_fits; [assumption|]. apply quot_bounds; assumption.
Qed.
Lemma native_mod_eq : native_mod T a b = Some (Z.rem a b).
Proof.
  unfold native_mod. destruct (Z.eqb_spec b 0); [contradiction|].
  assert (F : fits (promote T) (Z.quot a b)) by (apply fits_promote; [|apply quot_bounds]; assumption).
  apply fitsb_spec in F. rewrite F. reflexivity.
Qed.
Lemma truncated_divide_eq : truncated_divide T a b = Some (Z.quot a b).
Proof.
  unfold truncated_divide. rewrite native_div_eq. cbn.
  rewrite wrap_fits; [reflexivity|assumption|apply quot_bounds; assumption].
Qed.
Lemma truncated_modulo_eq : truncated_modulo T a b = Some (Z.rem a b).
Proof.
  unfold truncated_modulo. rewrite native_mod_eq. cbn.
  rewrite wrap_fits; [reflexivity|assumption|apply rem_fits].
Qed.

Lemma is_negative__eq : is_negative_ T a b = xorb (a <? 0) (b <? 0).
Proof.
  unfold is_negative_, is_negative. destruct (sg T) eqn:S; [reflexivity|].
  unfits. destruct (Z.ltb_spec a 0), (Z.ltb_spec b 0); try lia; reflexivity.
Qed.

(** Relation of truncation with floor and ceiling. *)
Lemma quot_floor :
  Z.div a b = Z.quot a b - (if xorb (a <? 0) (b <? 0) && negb (Z.rem a b =? 0) then 1 else 0).
Proof.
  pose proof (Z.quot_rem a b Hb0) as E.
  pose proof (Z.rem_bound_abs a b Hb0) as Bd.
  assert (P : 0 <= a -> 0 <= Z.rem a b) by (apply Z.rem_nonneg; assumption).
  assert (N : a <= 0 -> Z.rem a b <= 0) by (apply Z.rem_nonpos; assumption).
  set (q := Z.quot a b) in *. set (r := Z.rem a b) in *.
  symmetry.
  destruct (Z.ltb_spec a 0), (Z.ltb_spec b 0); destruct (Z.eqb_spec r 0); cbn [xorb andb negb];
    first [apply Z.div_unique with (r := r); lia | apply Z.div_unique with (r := r + b); lia].
Qed.
Lemma quot_ceil :
  - Z.div (- a) b = Z.quot a b + (if negb (xorb (a <? 0) (b <? 0)) && negb (Z.rem a b =? 0) then 1 else 0).
Proof.
  pose proof (Z.quot_rem a b Hb0) as E.
  pose proof (Z.rem_bound_abs a b Hb0) as Bd.
  assert (P : 0 <= a -> 0 <= Z.rem a b) by (apply Z.rem_nonneg; assumption).
  assert (N : a <= 0 -> Z.rem a b <= 0) by (apply Z.rem_nonpos; assumption).
  set (q := Z.quot a b) in *. set (r := Z.rem a b) in *.
  enough (Hx : Z.div (- a) b = - (q + (if negb (xorb (a <? 0) (b <? 0)) && negb (r =? 0) then 1 else 0))) by lia.
  symmetry.
  destruct (Z.ltb_spec a 0), (Z.ltb_spec b 0); destruct (Z.eqb_spec r 0); cbn [xorb andb negb];
    first [apply Z.div_unique with (r := - r); lia | apply Z.div_unique with (r := b - r); lia].
Qed.

Lemma div_fits : fits T (Z.div a b).
Proof.
  assert (Fq : fits T (Z.quot a b)) by (apply quot_bounds; assumption).
  rewrite quot_floor.
  destruct (xorb (a <? 0) (b <? 0) && negb (Z.rem a b =? 0)) eqn:C;
    [|rewrite Z.sub_0_r; assumption].
  apply andb_true_iff in C as [C1 C2]. rewrite negb_true_iff, Z.eqb_neq in C2.
  pose proof (Z.quot_rem a b Hb0) as E.
  pose proof (Z.rem_bound_abs a b Hb0) as Bd.
  assert (P : 0 <= a -> 0 <= Z.rem a b) by (apply Z.rem_nonneg; assumption).
  assert (N : a <= 0 -> Z.rem a b <= 0) by (apply Z.rem_nonpos; assumption).
  set (q := Z.quot a b) in *. set (r := Z.rem a b) in *.
  assert (q <= 0) by nia.
  assert (Hq : Z.abs q * Z.abs b < Z.abs a) by nia.
  ity_facts T. unfold fits, imin, imax in *. destruct (sg T); nia.
Qed.
Lemma ceil_fits : fits T (- Z.div (- a) b).
Proof.
  assert (Fq : fits T (Z.quot a b)) by (apply quot_bounds; assumption).
  rewrite quot_ceil.
  destruct (negb (xorb (a <? 0) (b <? 0)) && negb (Z.rem a b =? 0)) eqn:C;
    [|rewrite Z.add_0_r; assumption].
  apply andb_true_iff in C as [C1 C2]. rewrite negb_true_iff, Z.eqb_neq in C2.
  apply negb_true_iff in C1.
  pose proof (Z.quot_rem a b Hb0) as E.
  pose proof (Z.rem_bound_abs a b Hb0) as Bd.
  assert (P : 0 <= a -> 0 <= Z.rem a b) by (apply Z.rem_nonneg; assumption).
  assert (N : a <= 0 -> Z.rem a b <= 0) by (apply Z.rem_nonpos; assumption).
  set (q := Z.quot a b) in *. set (r := Z.rem a b) in *.
  assert (0 <= q) by nia.
  assert (Hq : q * Z.abs b < Z.abs a) by nia.
  assert (2 <= Z.abs b) by (destruct (Z.eq_dec (Z.abs b) 1); [lia|lia]).
  ity_facts T. unfold fits, imin, imax in *. destruct (sg T); nia.
Qed.

Lemma is_ceilinged__eq :
  is_ceilinged_ T a b = Some (xorb (a <? 0) (b <? 0) || (Z.rem a b =? 0)).
Proof.
  unfold is_ceilinged_, no_remainder_. rewrite is_negative__eq, native_mod_eq.
  destruct (xorb (a <? 0) (b <? 0)); reflexivity.
Qed.
Lemma is_floored__eq :
  is_floored_ T a b = Some (negb (xorb (a <? 0) (b <? 0)) || (Z.rem a b =? 0)).
Proof.
  unfold is_floored_, no_remainder_. rewrite is_negative__eq, native_mod_eq.
  destruct (xorb (a <? 0) (b <? 0)); reflexivity.
Qed.

Lemma floored_divide_eq : floored_divide T a b = Some (Z.div a b).
Proof.
  unfold floored_divide. rewrite truncated_divide_eq, is_floored__eq. cbn [obind].
  replace (Z.quot a b - _) with (Z.div a b).
  - rewrite arith_promote_fits by (try assumption; apply div_fits). cbn [omap].
    rewrite wrap_fits by (try assumption; apply div_fits). reflexivity.
  - rewrite quot_floor. destruct (xorb (a <? 0) (b <? 0)), (Z.rem a b =? 0); reflexivity.
Qed.
Lemma ceilinged_divide_eq : ceilinged_divide T a b = Some (- Z.div (- a) b).
Proof.
  unfold ceilinged_divide. rewrite truncated_divide_eq, is_ceilinged__eq. cbn [obind].
  replace (Z.quot a b + _) with (- Z.div (- a) b).
  - rewrite arith_promote_fits by (try assumption; apply ceil_fits). cbn [omap].
    rewrite wrap_fits by (try assumption; apply ceil_fits). reflexivity.
  - rewrite quot_ceil. destruct (xorb (a <? 0) (b <? 0)), (Z.rem a b =? 0); reflexivity.
Qed.

Lemma mod_fits : fits T (Z.modulo a b).
Proof.
  ity_facts T.
  destruct (Z.lt_trichotomy b 0) as [C|[C|C]]; [|lia|].
  - pose proof (Z.mod_neg_bound a b C). destruct (sg T) eqn:S; unfits; [|lia].
    rewrite fits_signed by assumption. lia.
  - pose proof (Z.mod_pos_bound a b C). destruct (sg T) eqn:S; unfits.
    + rewrite fits_signed by assumption. lia.
    + rewrite fits_unsigned by assumption. lia.
Qed.
Lemma floored_modulo_eq : floored_modulo T a b = Some (Z.modulo a b).
Proof.
  unfold floored_modulo. rewrite truncated_modulo_eq, is_floored__eq. cbn [obind].
  replace (Z.rem a b + _) with (Z.modulo a b).
  - rewrite arith_promote_fits by (try assumption; apply mod_fits). cbn [omap].
    rewrite wrap_fits by (try assumption; apply mod_fits). reflexivity.
  - rewrite Z.mod_eq by assumption. rewrite quot_floor.
    pose proof (Z.quot_rem a b Hb0) as E.
    destruct (xorb (a <? 0) (b <? 0)), (Z.rem a b =? 0); cbn [negb orb andb]; lia.
Qed.
Lemma ceilinged_modulo_eq :
  sg T = true -> ceilinged_modulo T a b = Some (a - b * (- Z.div (- a) b)).
Proof.
  intros S. unfold ceilinged_modulo. rewrite truncated_modulo_eq, is_ceilinged__eq. cbn [obind].
  assert (ET : signed_of T = T) by (destruct T; cbn in *; rewrite S; reflexivity).
  rewrite ET.
  assert (F : fits T (a - b * - (- a / b))).
  { replace (a - b * - (- a / b)) with (- ((- a) mod b)).
    2:{ rewrite Z.mod_eq by assumption. lia. }
    ity_facts T. unfits. rewrite fits_signed by assumption.
    destruct (Z.lt_trichotomy b 0) as [C|[C|C]]; [|lia|].
    - pose proof (Z.mod_neg_bound (- a) b C). lia.
    - pose proof (Z.mod_pos_bound (- a) b C). lia. }
  replace (Z.rem a b - _) with (a - b * - (- a / b)).
  - rewrite arith_promote_fits by assumption. cbn [omap]. rewrite wrap_fits by assumption.
    reflexivity.
  - rewrite quot_ceil. pose proof (Z.quot_rem a b Hb0) as E.
    destruct (xorb (a <? 0) (b <? 0)), (Z.rem a b =? 0); cbn [negb orb andb]; lia.
Qed.
End Div.
