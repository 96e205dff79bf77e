From Verif Require Import Base Bytes MathModel MathSpec MathProofs BitProofs StreamModel StateModel OpModel ChainModel ChainSpec ChainProofs4 BlockModel BlockSpec BlockProofs3 ValidModel ValidSpec.

Lemma total_app a b : total (a ++ b) = total a + total b.
Proof. unfold total. induction a as [|x a IH]; cbn [app fold_right]; [lia|]. rewrite IH. lia. Qed.
Lemma total_nonneg l : Forall (fun v => 0 <= v) l -> 0 <= total l.
Proof. induction 1; cbn [total fold_right]; [lia|]. unfold total in IHForall. lia. Qed.
Lemma sat_fold {A} (f : A -> Z) l : Forall (fun a => 0 <= f a < 2 ^ 64) l -> forall x, 0 <= x < 2 ^ 64 ->
  fold_left (fun n a => cadd n (f a)) l x = Z.min (2 ^ 64 - 1) (x + total (map f l)).
Proof.
  induction 1 as [|a l Ha Hl IH]; intros x Hx; cbn [fold_left map]; [cbn; lia|].
  assert (0 <= total (map f l)).
  { apply total_nonneg, Forall_map. eapply Forall_impl; [|exact Hl]. intros b Hb. cbv beta in Hb. lia. }
  rewrite IH by (rewrite cadd_min by lia; lia). rewrite cadd_min by lia. change (total (f a :: map f l)) with (f a + total (map f l)). lia.
Qed.
Lemma fsub_clamp x y : 0 <= x < 2 ^ 64 -> 0 <= y < 2 ^ 64 -> fsub x y = Z.max 0 (x - y).
Proof.
  intros Hx Hy. unfold fsub. rewrite floored_subtract_clamps; [|cbn; lia|apply fits64; lia|apply fits64; lia].
  unfold clamp. cbn [imin imax u64 sg bits]. lia.
Qed.
Definition in_value (p : input * meta) : Z := match prevout (snd p) with Some o => out_value o | None => 0 end.
Definition ins_ok (t : ptx) : Prop := Forall (fun p => 0 <= in_value p < 2 ^ 64) (pins t).
Lemma value_min t : ins_ok t -> value t = Z.min (2 ^ 64 - 1) (total (map in_value (pins t))).
Proof. intros H. apply (sat_fold in_value (pins t) H 0). lia. Qed.
Lemma sum_nonneg l : amounts l -> 0 <= sum_outputs l.
Proof. intros H. apply total_nonneg, Forall_map. eapply Forall_impl; [|exact H]. intros o Ho. cbv beta in Ho. lia. Qed.
Lemma spend_min t : amounts (poutputs t) -> spend t = Z.min (2 ^ 64 - 1) (sum_outputs (poutputs t)).
Proof. intros H. apply (sat_fold out_value (poutputs t) H 0). lia. Qed.
Lemma prev_values t os : previous_outputs t os -> map in_value (pins t) = map out_value os.
Proof.
  unfold previous_outputs. revert os. induction (pins t) as [|p l IH]; intros [|o os] H; cbn in *; try discriminate; [reflexivity|].
  injection H as H1 H2. rewrite (IH os H2). f_equal. unfold in_value. rewrite H1. reflexivity.
Qed.
Lemma prev_ins t os : previous_outputs t os -> amounts os -> ins_ok t.
Proof.
  intros H A. unfold ins_ok. assert (E := prev_values t os H). apply Forall_forall. intros p Hp.
  assert (X : In (in_value p) (map out_value os)) by (rewrite <- E; apply in_map, Hp). apply in_map_iff in X as (o & <- & Ho).
  unfold amounts in A. rewrite Forall_forall in A. apply A, Ho.
Qed.
Lemma missing_spec t : is_missing_prevouts t = false <-> exists os, previous_outputs t os.
Proof.
  unfold is_missing_prevouts, previous_outputs. induction (pins t) as [|p l IH]; cbn [existsb map].
  - split; [intros _; exists []; reflexivity|reflexivity].
  - destruct (prevout (snd p)) as [o|]; cbn [orb].
    + rewrite IH. split; intros [os E]; [exists (o :: os); cbn; congruence|]. destruct os as [|o' os]; [discriminate|]. injection E as _ E. exists os. exact E.
    + split; [discriminate|]. intros [[|o os] E]; discriminate.
Qed.
Lemma low16 s : 0 <= s -> bit_and u32 s (mask_left u32 16) = s mod 2 ^ 16.
Proof.
  intros H. change (mask_left u32 16) with (Z.ones 16). unfold bit_and. rewrite Z.land_ones by lia.
  apply wrap_fits; [reflexivity|]. unfold fits. cbn [imin imax u32 sg bits]. pose proof (Z.mod_pos_bound s (2 ^ 16)). lia.
Qed.
Lemma relative_spec s h m ph pm : 0 <= s < 2 ^ 32 -> 0 <= ph <= h -> h < 2 ^ 64 -> 0 <= pm <= m ->
  is_relative_locked_seq s h m ph pm = false <-> bip68_expired s h m ph pm.
Proof.
  intros Hs Hh Hh2 Hm. unfold is_relative_locked_seq, bip68_expired. rewrite !get_right_ok by (cbn; lia). unfold bit. rewrite low16 by lia.
  pose proof (Z.mod_pos_bound s (2 ^ 16) ltac:(lia)) as B. destruct (Z.testbit s 31); [tauto|]. destruct (Z.testbit s 22).
  - assert (E : shift_left u32 (s mod 2 ^ 16) 9 false = 512 * (s mod 2 ^ 16)).
    { unfold shift_left. cbn [andb]. change (unsigned_of u32) with u32. change (9 mod bits u32) with 9. rewrite Z.shiftl_mul_pow2 by lia.
      rewrite (wrap_fits u32 (s mod 2 ^ 16)); [|reflexivity|unfold fits; cbn [imin imax u32 sg bits]; lia].
      rewrite wrap_fits; [lia|reflexivity|]. unfold fits. cbn [imin imax u32 sg bits]. lia. }
    rewrite E. unfold u32_fsub. destruct (Z.ltb_spec m pm); [lia|]. rewrite Z.ltb_ge. split; [intros; right; left; split; [reflexivity|lia]|].
    intros [X|[[_ X]|[X _]]]; try discriminate. lia.
  - rewrite fsub_exact by lia. rewrite Z.ltb_ge. split; [intros; right; right; split; [reflexivity|lia]|].
    intros [X|[[X _]|[_ X]]]; try discriminate. lia.
Qed.
Lemma existsb_false {A} (f : A -> bool) l : existsb f l = false <-> forall a, In a l -> f a = false.
Proof.
  induction l as [|a l IH]; cbn; [split; [intros _ x []|reflexivity]|]. rewrite orb_false_iff, IH. split.
  - intros [H1 H2] x [<-|Hx]; auto.
  - intros H. split; auto.
Qed.
(** ** Subsidy *)
Lemma subsidy_42 h i n : 0 <= h -> 0 < i -> 0 <= n < 2 ^ 64 -> subsidy h i n true = n / 2 ^ (h / i).
Proof.
  intros Hh Hi Hn. unfold subsidy, shift_right. change (bits u64) with 64. change (unsigned_of u64) with u64. pose proof (Z.div_pos h i Hh Hi) as P.
  cbn [andb]. destruct (Z.leb_spec 64 (h / i)).
  - symmetry. apply Z.div_small. split; [lia|]. apply Z.lt_le_trans with (2 ^ 64); [lia|]. apply Z.pow_le_mono_r; lia.
  - rewrite Z.mod_small by lia. rewrite (wrap_fits u64 n); [|reflexivity|apply fits64; lia]. rewrite Z.shiftr_div_pow2 by lia. apply wrap_fits; [reflexivity|].
    apply fits64. pose proof (Z.pow_pos_nonneg 2 (h / i) ltac:(lia) P) as Q. pose proof (Z.div_pos n _ ltac:(lia) Q). pose proof (Z.div_le_upper_bound n (2 ^ (h / i)) n Q ltac:(nia)). lia.
Qed.
Lemma subsidy_pre h i n : 0 <= h -> 0 < i -> 0 <= n < 2 ^ 64 -> subsidy h i n false = n / 2 ^ ((h / i) mod 64).
Proof.
  intros Hh Hi Hn. unfold subsidy, shift_right. change (bits u64) with 64. change (unsigned_of u64) with u64.
  cbn [andb]. set (k := (h / i) mod 64). assert (P : 0 <= k) by (apply Z.mod_pos_bound; lia).
  rewrite (wrap_fits u64 n); [|reflexivity|apply fits64; lia]. rewrite Z.shiftr_div_pow2 by lia. apply wrap_fits; [reflexivity|].
  apply fits64. pose proof (Z.pow_pos_nonneg 2 k ltac:(lia) P) as Q. pose proof (Z.div_pos n _ ltac:(lia) Q). pose proof (Z.div_le_upper_bound n (2 ^ k) n Q ltac:(nia)). lia.
Qed.
Lemma subsidy_bounds h i n b : 0 <= h -> 0 < i -> 0 <= n < 2 ^ 64 -> 0 <= subsidy h i n b <= n.
Proof.
  intros Hh Hi Hn.
  assert (G : forall k, 0 <= k -> 0 <= n / 2 ^ k <= n).
  { intros k P. pose proof (Z.pow_pos_nonneg 2 k ltac:(lia) P) as Q. split; [apply Z.div_pos; lia|]. apply Z.div_le_upper_bound; [lia|nia]. }
  destruct b; [rewrite subsidy_42 by assumption; apply G, Z.div_pos; lia|rewrite subsidy_pre by assumption; apply G, Z.mod_pos_bound; lia].
Qed.
(** The sum of the subsidies of the heights below [n]. *)
Fixpoint issued_below (interval initial : Z) (n : nat) : Z :=
  match n with O => 0 | S m => issued_below interval initial m + subsidy (Z.of_nat m) interval initial true end.
(** Potential: issued + 2 * remaining of the current halving is non-increasing. *)
Lemma issued_bound i n : 0 < i -> 0 <= n < 2 ^ 64 -> forall h : nat,
  issued_below i n h + 2 * (i - Z.of_nat h mod i) * (n / 2 ^ (Z.of_nat h / i)) + Z.of_nat h mod i * (n / 2 ^ (Z.of_nat h / i)) <= 2 * i * n.
Proof.
  intros Hi Hn. induction h as [|h IH].
  - cbn [issued_below]. change (Z.of_nat 0) with 0. rewrite Z.mod_0_l, Z.div_0_l by lia. change (2 ^ 0) with 1. rewrite Z.div_1_r. lia.
  - cbn [issued_below]. rewrite subsidy_42 by lia. set (k := Z.of_nat h) in *. replace (Z.of_nat (S h)) with (k + 1) by lia.
    set (q := k / i) in *. set (r := k mod i) in *. assert (Ek : k = i * q + r) by (apply Z.div_mod; lia). assert (Br : 0 <= r < i) by (apply Z.mod_pos_bound; lia).
    assert (Q0 : 0 <= q) by (apply Z.div_pos; lia). set (s := n / 2 ^ q) in *. assert (S0 : 0 <= s) by (apply Z.div_pos; [lia|apply Z.pow_pos_nonneg; lia]).
    destruct (Z.eq_dec (r + 1) i) as [E|E].
    + assert (D1 : (k + 1) / i = q + 1) by (symmetry; apply Z.div_unique with 0; lia). assert (M1 : (k + 1) mod i = 0) by (symmetry; apply Z.mod_unique with (q + 1); lia).
      rewrite D1, M1. assert (H2 : 2 * (n / 2 ^ (q + 1)) <= s). { rewrite Z.pow_add_r, <- Z.div_div by (try apply Z.pow_nonzero; try apply Z.pow_pos_nonneg; lia). change (2 ^ 1) with 2. fold s. pose proof (Z.mul_div_le s 2 ltac:(lia)). lia. }
      set (s' := n / 2 ^ (q + 1)) in *. clear - IH H2 E S0 Hi. assert (Er : r = i - 1) by lia. rewrite Er in IH. replace (i - (i - 1)) with 1 in IH by lia.
      assert (X : i * (2 * s') <= i * s) by (apply Z.mul_le_mono_nonneg_l; lia). rewrite Z.mul_sub_distr_r in IH. lia.
    + assert (D1 : (k + 1) / i = q) by (symmetry; apply Z.div_unique with (r + 1); lia). assert (M1 : (k + 1) mod i = r + 1) by (symmetry; apply Z.mod_unique with q; lia).
      rewrite D1, M1. fold s. clear - IH. ring_simplify. ring_simplify in IH. lia.
Qed.
Lemma issued_cap i n h : 0 < i -> 0 <= n < 2 ^ 64 -> issued_below i n h <= 2 * i * n.
Proof.
  intros Hi Hn. pose proof (issued_bound i n Hi Hn h) as B. pose proof (Z.mod_pos_bound (Z.of_nat h) i Hi) as R.
  assert (0 <= n / 2 ^ (Z.of_nat h / i)) by (apply Z.div_pos; [lia|apply Z.pow_pos_nonneg; [lia|apply Z.div_pos; lia]]). nia.
Qed.
