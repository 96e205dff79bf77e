(** The bech32 checksum as linear algebra over the 32 element field. *)
From Verif Require Import Base AddressModel BitProofs BechField RadixProofs3.

(** * Six symbol states *)
Record vec := V { v5 : gf; v4 : gf; v3 : gf; v2 : gf; v1 : gf; v0 : gf }.
Definition coord (j c : Z) : gf := zg ((c / 2 ^ (5 * j)) mod 32).
Definition zv (c : Z) : vec := V (coord 5 c) (coord 4 c) (coord 3 c) (coord 2 c) (coord 1 c) (coord 0 c).
Definition vadd (a b : vec) : vec :=
  V (gadd (v5 a) (v5 b)) (gadd (v4 a) (v4 b)) (gadd (v3 a) (v3 b)) (gadd (v2 a) (v2 b)) (gadd (v1 a) (v1 b)) (gadd (v0 a) (v0 b)).
Definition vscale (e : gf) (a : vec) : vec :=
  V (gmul e (v5 a)) (gmul e (v4 a)) (gmul e (v3 a)) (gmul e (v2 a)) (gmul e (v1 a)) (gmul e (v0 a)).
Definition vzero : vec := V G0 G0 G0 G0 G0 G0.
(** The generator polynomial, below its leading term. *)
Definition gen : vec := Eval vm_compute in zv 0x3b6a57b2.
Definition vshift (a : vec) : vec := V (v4 a) (v3 a) (v2 a) (v1 a) (v0 a) G0.
Definition vF (a : vec) : vec := vadd (vshift a) (vscale (v5 a) gen).
Definition vsym (e : gf) : vec := V G0 G0 G0 G0 G0 e.
Definition vstep (a : vec) (e : gf) : vec := vadd (vF a) (vsym e).

Lemma coord_lxor j a b : 0 <= j -> coord j (Z.lxor a b) = gadd (coord j a) (coord j b).
Proof.
  intros Hj. unfold coord. rewrite <- zg_lxor by (apply Z.mod_pos_bound; lia). f_equal.
  apply Z.bits_inj'. intros i Hi. rewrite Z.lxor_spec, <- !Z.shiftr_div_pow2 by lia. change 32 with (2 ^ 5).
  destruct (Z.lt_ge_cases i 5).
  - rewrite !Z.mod_pow2_bits_low, !Z.shiftr_spec, Z.lxor_spec by lia. reflexivity.
  - rewrite !Z.mod_pow2_bits_high by lia. reflexivity.
Qed.
Lemma zv_lxor a b : zv (Z.lxor a b) = vadd (zv a) (zv b).
Proof. unfold zv, vadd. cbn [v5 v4 v3 v2 v1 v0]. rewrite !coord_lxor by lia. reflexivity. Qed.

Lemma coord_shift j c : 1 <= j <= 5 -> coord j (Z.shiftl (Z.land c 33554431) 5) = coord (j - 1) c.
Proof.
  intros Hj. unfold coord. f_equal. apply Z.bits_inj'. intros i Hi. change 32 with (2 ^ 5).
  destruct (Z.lt_ge_cases i 5).
  - rewrite !Z.mod_pow2_bits_low, <- !Z.shiftr_div_pow2, !Z.shiftr_spec, Z.shiftl_spec, Z.land_spec by lia.
    replace (i + 5 * j - 5) with (i + 5 * (j - 1)) by lia. change 33554431 with (Z.ones 25).
    rewrite Z.ones_spec_low by lia. apply andb_true_r.
  - rewrite !Z.mod_pow2_bits_high by lia. reflexivity.
Qed.
Lemma coord_shift0 c : coord 0 (Z.shiftl (Z.land c 33554431) 5) = G0.
Proof.
  unfold coord. rewrite Z.shiftl_mul_pow2 by lia. change (2 ^ (5 * 0)) with 1. rewrite Z.div_1_r.
  change (2 ^ 5) with 32. rewrite Z.mod_mul by lia. reflexivity.
Qed.
Definition taps (t : Z) : Z :=
  Z.lxor (if Z.testbit t 0 then 0x3b6a57b2 else 0) (Z.lxor (if Z.testbit t 1 then 0x26508e6d else 0)
  (Z.lxor (if Z.testbit t 2 then 0x1ea119fa else 0) (Z.lxor (if Z.testbit t 3 then 0x3d4233dd else 0)
  (if Z.testbit t 4 then 0x2a1462b3 else 0)))).
Lemma step_taps c v : bech32_step c v = Z.lxor (Z.lxor (Z.shiftl (Z.land c 33554431) 5) (taps (Z.shiftr c 25))) v.
Proof.
  unfold bech32_step, taps. cbv zeta. set (x := Z.shiftl (Z.land c 33554431) 5). set (t := Z.shiftr c 25).
  destruct (Z.testbit t 0), (Z.testbit t 1), (Z.testbit t 2), (Z.testbit t 3), (Z.testbit t 4);
    apply Z.bits_inj'; intros i Hi; rewrite ?Z.lxor_spec, ?Z.bits_0, ?xorb_false_r, ?xorb_false_l;
    repeat match goal with |- context [Z.testbit ?a i] => generalize (Z.testbit a i); intros [] end; reflexivity.
Qed.
Definition veqb (a b : vec) : bool :=
  geqb (v5 a) (v5 b) && geqb (v4 a) (v4 b) && geqb (v3 a) (v3 b) && geqb (v2 a) (v2 b) && geqb (v1 a) (v1 b) && geqb (v0 a) (v0 b).
Lemma veqb_eq a b : veqb a b = true <-> a = b.
Proof.
  unfold veqb. rewrite !andb_true_iff, !geqb_eq. destruct a, b; cbn [v5 v4 v3 v2 v1 v0]. split.
  - intros (((((-> & ->) & ->) & ->) & ->) & ->). reflexivity.
  - intros H. injection H as -> -> -> -> -> ->. auto 10.
Qed.
Lemma taps_zv t : 0 <= t < 32 -> zv (taps t) = vscale (zg t) gen /\ 0 <= taps t < 2 ^ 30.
Proof.
  intros H. assert (C : forallb (fun t => veqb (zv (taps t)) (vscale (zg t) gen) && (0 <=? taps t) && (taps t <? 2 ^ 30)) (range 32) = true)
    by (vm_compute; reflexivity).
  pose proof (forall_range _ 32 C t H) as C'. cbv beta in C'. rewrite !andb_true_iff, veqb_eq in C'. destruct C' as ((A & B) & D). split; [exact A|lia].
Qed.
Lemma zv_small v : 0 <= v < 32 -> zv v = vsym (zg v).
Proof.
  intros H. assert (C : forallb (fun v => veqb (zv v) (vsym (zg v))) (range 32) = true) by (vm_compute; reflexivity).
  pose proof (forall_range _ 32 C v H) as C'. cbv beta in C'. apply veqb_eq, C'.
Qed.
Lemma lxor_range a b n : 0 <= n -> 0 <= a < 2 ^ n -> 0 <= b < 2 ^ n -> 0 <= Z.lxor a b < 2 ^ n.
Proof.
  intros Hn Ha Hb. assert (0 <= Z.lxor a b) by (apply Z.lxor_nonneg; lia). split; [assumption|].
  assert (E : Z.lxor a b = Z.lxor a b mod 2 ^ n).
  { apply Z.bits_inj'. intros i Hi. destruct (Z.lt_ge_cases i n).
    - rewrite Z.mod_pow2_bits_low by lia. reflexivity.
    - rewrite Z.mod_pow2_bits_high, Z.lxor_spec, !(testbit_small _ n) by lia. reflexivity. }
  rewrite E. apply Z.mod_pos_bound. lia.
Qed.
Lemma step_zv c v : 0 <= c < 2 ^ 30 -> 0 <= v < 32 ->
  zv (bech32_step c v) = vstep (zv c) (zg v) /\ 0 <= bech32_step c v < 2 ^ 30.
Proof.
  intros Hc Hv. rewrite step_taps.
  assert (Ht : 0 <= Z.shiftr c 25 < 32).
  { rewrite Z.shiftr_div_pow2 by lia. split; [apply Z.div_pos; lia|apply Z.div_lt_upper_bound; lia]. }
  destruct (taps_zv _ Ht) as [T R]. split.
  - rewrite !zv_lxor, T, (zv_small v) by assumption. unfold vstep, vF. f_equal. f_equal.
    + unfold zv at 1. rewrite !coord_shift, coord_shift0 by lia. reflexivity.
    + f_equal. cbn [v5 zv]. unfold coord. rewrite Z.shiftr_div_pow2 in Ht |- * by lia. f_equal. symmetry. apply Z.mod_small. exact Ht.
  - apply lxor_range; [lia| |lia]. apply lxor_range; [lia| |exact R]. rewrite Z.shiftl_mul_pow2 by lia.
    change 33554431 with (Z.ones 25). rewrite Z.land_ones by lia. pose proof (Z.mod_pos_bound c (2 ^ 25) ltac:(lia)).
    change (2 ^ 30) with (2 ^ 25 * 2 ^ 5). nia.
Qed.

(** * The checksum as a fold over the field *)
Definition symbols (l : list Z) : Prop := Forall (fun d => 0 <= d < 32) l.
Definition vfold (a : vec) (l : list gf) : vec := fold_left vstep l a.
Lemma fold_zv l : symbols l -> forall c, 0 <= c < 2 ^ 30 ->
  zv (fold_left bech32_step l c) = vfold (zv c) (map zg l) /\ 0 <= fold_left bech32_step l c < 2 ^ 30.
Proof.
  induction 1 as [|d l Hd _ IH]; intros c Hc; [split; [reflexivity|exact Hc]|]. cbn [fold_left map vfold].
  destruct (step_zv c d Hc Hd) as [E R]. destruct (IH _ R) as [E' R']. split; [|exact R']. rewrite E', E. reflexivity.
Qed.
Lemma checksum_zv l : symbols l -> zv (bech32_checksum l) = vfold (zv 1) (map zg l) /\ 0 <= bech32_checksum l < 2 ^ 30.
Proof. intros H. apply fold_zv; [exact H|lia]. Qed.
(** The state is determined by its coordinates. *)
Definition vz (a : vec) : Z :=
  ((((gz (v5 a) * 32 + gz (v4 a)) * 32 + gz (v3 a)) * 32 + gz (v2 a)) * 32 + gz (v1 a)) * 32 + gz (v0 a).
Lemma vz_zv c : 0 <= c < 2 ^ 30 -> vz (zv c) = c.
Proof.
  intros H. unfold vz, zv. cbn [v5 v4 v3 v2 v1 v0]. unfold coord. rewrite !gz_zg by (apply Z.mod_pos_bound; lia).
  change (2 ^ (5 * 0)) with 1. change (2 ^ (5 * 1)) with 32. change (2 ^ (5 * 2)) with (32 * 32). change (2 ^ (5 * 3)) with (32 * 32 * 32).
  change (2 ^ (5 * 4)) with (32 * 32 * 32 * 32). change (2 ^ (5 * 5)) with (32 * 32 * 32 * 32 * 32). rewrite Z.div_1_r, <- !Z.div_div by lia.
  set (a := c / 32). set (b := a / 32). set (d := b / 32). set (e := d / 32). set (f := e / 32).
  pose proof (Z.div_mod c 32 ltac:(lia)). pose proof (Z.div_mod a 32 ltac:(lia)). pose proof (Z.div_mod b 32 ltac:(lia)).
  pose proof (Z.div_mod d 32 ltac:(lia)). pose proof (Z.div_mod e 32 ltac:(lia)).
  assert (f mod 32 = f). { apply Z.mod_small. unfold f, e, d, b, a. rewrite !Z.div_div by lia. split; [apply Z.div_pos; lia|apply Z.div_lt_upper_bound; lia]. }
  fold a in H0. fold b in H1. fold d in H2. fold e in H3. fold f in H4. lia.
Qed.
Lemma zv_inj a b : 0 <= a < 2 ^ 30 -> 0 <= b < 2 ^ 30 -> zv a = zv b -> a = b.
Proof. intros Ha Hb H. rewrite <- (vz_zv a Ha), <- (vz_zv b Hb), H. reflexivity. Qed.

(** * Linear algebra *)
Ltac vec_ring := repeat match goal with a : vec |- _ => destruct a end;
  unfold vstep, vF, vsym, vshift, vadd, vscale, vzero, gen; cbn [v5 v4 v3 v2 v1 v0]; f_equal; ring.
Lemma vadd_comm a b : vadd a b = vadd b a. Proof. vec_ring. Qed.
Lemma vadd_assoc a b c : vadd a (vadd b c) = vadd (vadd a b) c. Proof. vec_ring. Qed.
Lemma vadd_zero_l a : vadd vzero a = a. Proof. destruct a; reflexivity. Qed.
Lemma vadd_zero_r a : vadd a vzero = a. Proof. rewrite vadd_comm. apply vadd_zero_l. Qed.
Lemma vadd_self a : vadd a a = vzero.
Proof. destruct a. unfold vadd, vzero. cbn [v5 v4 v3 v2 v1 v0]. rewrite !gadd_self. reflexivity. Qed.
Lemma vadd_eq a b : vadd a b = vzero -> a = b.
Proof.
  intros H. rewrite <- (vadd_zero_r a), <- (vadd_self b), vadd_assoc, H. apply vadd_zero_l.
Qed.
Lemma vF_add a b : vF (vadd a b) = vadd (vF a) (vF b). Proof. vec_ring. Qed.
Lemma vF_scale e a : vF (vscale e a) = vscale e (vF a). Proof. vec_ring. Qed.
Lemma vF_zero : vF vzero = vzero. Proof. reflexivity. Qed.
Lemma vscale_add e a b : vscale e (vadd a b) = vadd (vscale e a) (vscale e b). Proof. vec_ring. Qed.
Lemma vscale_0 a : vscale G0 a = vzero. Proof. reflexivity. Qed.
Lemma vF_inj0 a : vF a = vzero -> a = vzero.
Proof.
  destruct a as [x5 x4 x3 x2 x1 x0]. unfold vF, vadd, vshift, vscale, vzero. cbn [v5 v4 v3 v2 v1 v0]. intros H.
  pose proof (f_equal v5 H) as H5. pose proof (f_equal v4 H) as H4. pose proof (f_equal v3 H) as H3. pose proof (f_equal v2 H) as H2.
  pose proof (f_equal v1 H) as H1. pose proof (f_equal v0 H) as H0. clear H. cbn [v5 v4 v3 v2 v1 v0] in *. change (gmul x5 (v0 gen) = G0) in H0. apply gmul_zero in H0. destruct H0 as [H0|H0]; [|discriminate H0]. subst x5.
  assert (E : forall x k, gadd x (gmul G0 k) = G0 -> x = G0) by (intros x k; change (gmul G0 k) with G0; rewrite gadd_comm; exact (fun h => h)).
  apply E in H5, H4, H3, H2, H1. rewrite H5, H4, H3, H2, H1. reflexivity.
Qed.
Fixpoint vpow (n : nat) (a : vec) : vec := match n with O => a | S n => vF (vpow n a) end.
Lemma vpow_add n a b : vpow n (vadd a b) = vadd (vpow n a) (vpow n b).
Proof. induction n; cbn [vpow]; [reflexivity|]. rewrite IHn. apply vF_add. Qed.
Lemma vpow_scale n e a : vpow n (vscale e a) = vscale e (vpow n a).
Proof. induction n; cbn [vpow]; [reflexivity|]. rewrite IHn. apply vF_scale. Qed.
Lemma vpow_zero n : vpow n vzero = vzero.
Proof. induction n; cbn [vpow]; [reflexivity|]. rewrite IHn. reflexivity. Qed.
Lemma vpow_inj0 n a : vpow n a = vzero -> a = vzero.
Proof. induction n; cbn [vpow]; [exact (fun h => h)|]. intros H. apply IHn, vF_inj0, H. Qed.
Lemma vpow_plus n m a : vpow (n + m) a = vpow n (vpow m a).
Proof. induction n; cbn [vpow Nat.add]; [reflexivity|]. rewrite IHn. reflexivity. Qed.
(** A unit symbol error d places before the end. *)
Definition unit (d : nat) : vec := vpow d (vsym G1).
Lemma vsym_scale e : vsym e = vscale e (vsym G1).
Proof. unfold vsym, vscale. cbn [v5 v4 v3 v2 v1 v0]. destruct e; reflexivity. Qed.
Lemma fold_linear l : forall a, vfold a l = vadd (vpow (length l) a) (vfold vzero l).
Proof.
  induction l as [|e l IH]; intros a; [unfold vfold; cbn [fold_left length vpow]; rewrite vadd_zero_r; reflexivity|].
  change (vfold a (e :: l)) with (vfold (vstep a e) l). change (vfold vzero (e :: l)) with (vfold (vstep vzero e) l).
  rewrite (IH (vstep a e)), (IH (vstep vzero e)). cbn [length]. unfold vstep. rewrite vF_zero, vadd_zero_l, vpow_add.
  replace (vpow (S (length l)) a) with (vpow (length l) (vF a)); [rewrite <- vadd_assoc; reflexivity|].
  change (vF a) with (vpow 1 a). rewrite <- vpow_plus. f_equal. lia.
Qed.
(** Difference of two folds. *)
Definition diff (a b : list gf) : list gf := map (fun p => gadd (fst p) (snd p)) (combine a b).
Lemma fold_diff a : forall b x y, length a = length b -> vadd (vfold x a) (vfold y b) = vfold (vadd x y) (diff a b).
Proof.
  induction a as [|d a IH]; intros [|e b] x y L; try discriminate; [reflexivity|]. cbn in L.
  change (vfold x (d :: a)) with (vfold (vstep x d) a). change (vfold y (e :: b)) with (vfold (vstep y e) b).
  rewrite IH by lia. change (diff (d :: a) (e :: b)) with (gadd d e :: diff a b). change (vfold (vadd x y) (gadd d e :: diff a b)) with (vfold (vstep (vadd x y) (gadd d e)) (diff a b)).
  f_equal. clear. vec_ring.
Qed.
Lemma fold_cons e l : vfold vzero (e :: l) = vadd (vscale e (unit (length l))) (vfold vzero l).
Proof.
  change (vfold vzero (e :: l)) with (vfold (vstep vzero e) l). rewrite fold_linear. f_equal. unfold vstep. rewrite vF_zero, vadd_zero_l, vsym_scale, vpow_scale. reflexivity.
Qed.
