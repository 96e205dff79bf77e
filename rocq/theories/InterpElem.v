(** Facts about single stack elements: a typed element against its bytes. *)
From Verif Require Import Base Bytes MathModel NumberModel NumberSpec NumberProofs NumberProps InterpSpec.

Lemma same_bytes_ok a : forall b, same_bytes a b = true <-> a = b.
Proof.
  induction a as [|x a IH]; intros [|y b]; cbn [same_bytes]; try (split; congruence).
  rewrite andb_true_iff, Z.eqb_eq, IH. split; [intros [-> ->]; reflexivity|]. intros E; inversion E; auto.
Qed.
Lemma cast_to_bool_ok b : cast_to_bool b = boolean_from_chunk b.
Proof.
  destruct (snoc_cases b) as [->|(x & s & ->)]; [reflexivity|].
  assert (E : boolean_from_chunk (x ++ [s]) = existsb (fun b => negb (b =? 0)) x || negb (is_sign_byte s)).
  { unfold boolean_from_chunk. destruct (x ++ [s]) eqn:E; [destruct x; discriminate|]. rewrite <- E, last_snoc, removelast_snoc.
    destruct (is_sign_byte s); cbn [negb]; [rewrite orb_false_r; reflexivity|rewrite orb_true_r; reflexivity]. }
  rewrite E. clear E. induction x as [|y x IH]; [reflexivity|]. cbn [app existsb].
  rewrite <- orb_assoc, <- IH. destruct (x ++ [s]) eqn:E; [destruct x; discriminate|]. reflexivity.
Qed.
Lemma cast_truthy b : cast_to_bool b = true <-> truthy b.
Proof. rewrite cast_to_bool_ok. apply boolean_from_chunk_ok. Qed.

Lemma bool_iff (a b : bool) : (a = true <-> b = true) -> a = b.
Proof. destruct a, b; intuition congruence. Qed.
Lemma elem_bool v b : element_bytes v b -> variant_bool v = cast_to_bool b.
Proof. intros H. apply bool_iff. rewrite (C06_truthiness v b H), cast_truthy. reflexivity. Qed.
Lemma len0_nil {A} (b : list A) : (len b =? 0) = match b with [] => true | _ => false end.
Proof. destruct b; [reflexivity|]. rewrite len_cons. pose proof (len_nonneg b). destruct (Z.eqb_spec (1 + len b) 0); [lia|reflexivity]. Qed.
Lemma elem_strict v b : element_bytes v b -> variant_strict_bool v = negb (len b =? 0).
Proof.
  intros H. apply bool_iff. destruct (C06_strict v b H) as [-> _]. rewrite len0_nil. destruct b; cbn; split; congruence.
Qed.
Lemma elem_minimal v b : element_bytes v b ->
  cast_to_bool_minimal b = (let (good, value) := variant_minimal_bool v in if good then Some value else None).
Proof.
  intros H. destruct (C06_minimal_bool v b H) as [A B]. destruct (variant_minimal_bool v) as [g w]. cbn [fst snd] in *.
  rewrite <- cast_truthy in B. apply bool_iff in B. subst w.
  destruct g.
  - destruct (proj1 A eq_refl) as [->| ->]; reflexivity.
  - destruct b as [|x [|y b]]; [exfalso; assert (false = true) by (apply A; auto); discriminate| |reflexivity].
    cbn [cast_to_bool_minimal]. destruct (Z.eqb_spec x 1) as [->|]; [exfalso; assert (false = true) by (apply A; auto); discriminate|reflexivity].
Qed.
Lemma element_ok v b : element_bytes v b -> bytes_ok b.
Proof.
  destruct v as [x|i|c]; cbn [element_bytes].
  - intros ->. destruct x; repeat constructor; unfold byte_ok; lia.
  - tauto.
  - intros [H ->]. exact H.
Qed.
Ltac cmpn := match goal with |- context [?a <=? ?b] => destruct (Z.leb_spec a b); [|lia] end; reflexivity.
Lemma elem_signed n v b : 2 <= n <= 8 -> element_bytes v b ->
  exists good value, variant_signed n v = Some (good, value) /\ number n b = if good : bool then Some value else None.
Proof.
  intros Hn H. unfold number. pose proof (element_ok v b H) as Hok.
  destruct v as [x|i|c]; cbn [variant_signed].
  - cbn [element_bytes] in H. subst b. do 2 eexists. split; [reflexivity|].
    destruct x; [change (len [1]) with 1|change (len (@nil Z)) with 0]; cmpn.
  - pose proof (element_bytes_chunk _ _ H) as E. cbn [variant_chunk] in E. destruct H as (Hf & Hm & _ & _ & Hv).
    destruct (C05_integer_limit_matches_encoding n i b Hn Hf Hm E) as [A B].
    destruct (integer_from_integer n i) as [g w]. cbn [fst] in A. do 2 eexists. split; [reflexivity|]. subst g.
    destruct (Z.leb_spec (len b) n) as [C|C]; [|reflexivity]. specialize (B C). rewrite decode_ok in B by assumption.
    destruct (Z.gtb_spec (len b) n); [lia|]. congruence.
  - destruct H as [H ->]. rewrite decode_ok by assumption. destruct (Z.gtb_spec (len c) n), (Z.leb_spec (len c) n); try lia;
     do 2 eexists; (split; [reflexivity|reflexivity]).
Qed.
Lemma elem_eq v w a b : element_bytes v a -> element_bytes w b -> equal_chunks v w = Some (same_bytes a b).
Proof.
  intros H1 H2. destruct (C06_equality v w a b H1 H2) as (r & -> & E). f_equal. apply bool_iff. rewrite E, same_bytes_ok. reflexivity.
Qed.

(** The reference number encoding is the one of the code. *)
Lemma script_value_le l : bytes_ok l -> l <> [] ->
  script_value l = if le_value l <? 2 ^ (8 * len l - 1) then le_value l else - (le_value l - 2 ^ (8 * len l - 1)).
Proof.
  intros Hok Hn. destruct (snoc_cases l) as [->|(x & s & ->)]; [contradiction|].
  rewrite script_value_snoc, le_value_app, len_app. change (len [s]) with 1. cbn [le_value].
  pose proof (len_nonneg x). rewrite pow2_top by lia. apply bytes_ok_app in Hok as [Hx Hs]. inversion Hs as [|? ? Hs' _]; subst.
  pose proof (le_value_range x Hx) as Rx. unfold byte_ok in Hs'. set (P := 256 ^ len x) in *. assert (0 < P) by lia.
  rewrite Z.add_0_r.
  destruct (Z.ltb_spec s 128) as [C|C].
  - rewrite (Z.mod_small s) by lia. destruct (Z.ltb_spec (le_value x + P * s) (128 * P)); [lia|nia].
  - assert (s mod 128 = s - 128) as -> by (symmetry; apply (Z.mod_unique s 128 1); lia).
    destruct (Z.ltb_spec (le_value x + P * s) (128 * P)); [nia|]. nia.
Qed.
Lemma script_num_elem v : fits i64 v -> v <> imin i64 -> element_bytes (VInt v) (script_num v).
Proof.
  intros Hf Hm. unfold script_num. destruct (Z.eqb_spec v 0) as [->|N].
  { cbn. repeat split; try (unfold fits; cbn; lia); try constructor; auto. }
  cbn [element_bytes]. split; [exact Hf|]. split; [exact Hm|].
  pose proof (Z.log2_nonneg (Z.abs v)) as L0. destruct (Z.log2_spec (Z.abs v) ltac:(lia)) as [L1 L2].
  set (g := Z.log2 (Z.abs v)) in *. set (n := (g + 1) / 8 + 1).
  assert (Dn : 8 * (n - 1) <= g + 1 < 8 * n) by (unfold n; pose proof (Z.div_mod (g + 1) 8 ltac:(lia)); pose proof (Z.mod_pos_bound (g + 1) 8); lia).
  assert (Hn : 1 <= n) by lia.
  assert (B : Z.abs v < 2 ^ (8 * n - 1)).
  { apply Z.lt_le_trans with (2 ^ Z.succ g); [exact L2|]. apply Z.pow_le_mono_r; lia. }
  set (x := Z.abs v + (if v <? 0 then 2 ^ (8 * n - 1) else 0)).
  assert (T : 256 ^ Z.of_nat (Z.to_nat n) = 2 * 2 ^ (8 * n - 1)).
  { rewrite Z2Nat.id by lia. rewrite pow256_2 by lia. rewrite <- Z.pow_succ_r by lia. f_equal. lia. }
  assert (X : 0 <= x < 256 ^ Z.of_nat (Z.to_nat n)) by (unfold x; destruct (v <? 0); lia).
  pose proof (le_bytes_ok (Z.to_nat n) x) as Hok. pose proof (len_le_bytes (Z.to_nat n) x) as Ll. rewrite Z2Nat.id in Ll by lia.
  assert (Nn : le_bytes (Z.to_nat n) x <> []).
  { intros E. rewrite E in Ll. change (len (@nil Z)) with 0 in Ll. lia. }
  assert (V : script_value (le_bytes (Z.to_nat n) x) = v).
  { rewrite script_value_le by assumption. rewrite Ll, le_value_bytes_small by exact X. unfold x.
    destruct (Z.ltb_spec v 0); destruct (Z.ltb_spec (Z.abs v + (if v <? 0 then 2 ^ (8 * n - 1) else 0)) (2 ^ (8 * n - 1)));
     destruct (Z.ltb_spec v 0); destruct (_ <? _) eqn:Q; lia. }
  split; [exact Hok|]. split; [|exact V].
  (* minimal *)
  remember (le_bytes (Z.to_nat n) x) as l eqn:El. clear El.
  destruct (snoc_cases l) as [->|(y & s & ->)]; [contradiction|].
  unfold minimal. rewrite last_snoc, removelast_snoc. right. destruct (Z.eq_dec (s mod 128) 0) as [Z0|]; [right|left; assumption].
  rewrite script_value_snoc, Z0 in V. rewrite len_app in *. change (len [s]) with 1 in *.
  assert (A : Z.abs v = le_value y) by (apply bytes_ok_app in Hok as [Hy _]; pose proof (le_value_range y Hy); destruct (s <? 128); lia).
  apply bytes_ok_app in Hok as [Hy _]. destruct (snoc_cases y) as [->|(z & t & ->)]; [cbn in A; lia|].
  rewrite last_snoc. rewrite len_app in *. change (len [t]) with 1 in *. pose proof (len_nonneg z). split; [lia|].
  rewrite le_value_app in A. cbn [le_value] in A. apply bytes_ok_app in Hy as [Hz Ht]. pose proof (Forall_inv Ht) as Ht'.
  pose proof (le_value_range z Hz) as Rz. unfold byte_ok in Ht'.
  assert (P : 2 ^ (8 * (n - 1) - 1) <= Z.abs v).
  { apply Z.le_trans with (2 ^ g); [|exact L1]. apply Z.pow_le_mono_r; lia. }
  replace (n - 1) with (len z + 1) in P by lia. rewrite pow2_top in P by lia.
  destruct (Z.le_gt_cases 128 t); [assumption|]. exfalso. nia.
Qed.
