(** Malleation (type 32) soundness, merkle branches, block checks. *)
From Verif Require Import Base Bytes MathModel StreamModel StreamProofs OpModel OpProofs ChainModel BlockModel BlockSpec BlockProofs.

Section M.
Variable D : list Z -> list Z.
Notation level := (level D).

Lemma level_app k : forall A B, length A = (2 * k)%nat -> level (A ++ B) = level A ++ level B.
Proof.
  induction k as [|k IH]; intros A B H.
  - destruct A; [reflexivity|discriminate].
  - destruct A as [|a [|b A]]; cbn [length] in H; try lia. cbn [app BlockSpec.level]. rewrite IH by lia. reflexivity.
Qed.
Lemma level_length_even k A : length A = (2 * k)%nat -> length (level A) = k.
Proof.
  intros H. pose proof (level_length D A) as L. rewrite H in L. rewrite Nat.odd_mul in L. cbn [Nat.odd Nat.even negb andb Nat.b2n] in L. lia.
Qed.
Lemma tree_step n l r : (2 <= length l)%nat -> tree_root D n (level l) r -> tree_root D (S n) l r.
Proof. intros H T. destruct l as [|a [|b l]]; cbn in H; try lia. constructor. exact T. Qed.
Lemma repeat_tail k : forall e A T, length T = (2 ^ k)%nat -> length A = (2 ^ k * (2 * e))%nat -> (1 <= e)%nat ->
  exists n r, tree_root D n (A ++ T) r /\ tree_root D n (A ++ T ++ T) r.
Proof.
  induction k as [|k IH]; intros e A T HT HA He.
  - destruct T as [|x [|? ?]]; cbn in HT; try lia. rewrite Nat.pow_0_r, Nat.mul_1_l in HA.
    assert (E : level (A ++ [x]) = level (A ++ [x] ++ [x])) by (rewrite !(level_app e) by exact HA; reflexivity).
    destruct (merkle_root_spec D (level (A ++ [x]))) as [n Hn].
    { rewrite (level_app e) by exact HA. destruct (level A); discriminate. }
    exists (S n), (merkle_root D (level (A ++ [x]))). split; apply tree_step.
    + rewrite app_length. cbn. lia.
    + exact Hn.
    + rewrite app_length. cbn. lia.
    + rewrite <- E. exact Hn.
  - cbn [Nat.pow] in HT, HA.
    assert (HT' : length T = (2 * 2 ^ k)%nat) by lia. assert (HA' : length A = (2 * (2 ^ k * (2 * e)))%nat) by lia.
    destruct (IH e (level A) (level T)) as (n & r & T1 & T2).
    + apply level_length_even, HT'.
    + apply level_length_even, HA'.
    + exact He.
    + assert (2 ^ k <> 0)%nat by (apply Nat.pow_nonzero; lia).
      exists (S n), r. split; apply tree_step.
      * rewrite app_length. nia.
      * rewrite (level_app (2 ^ k * (2 * e))) by exact HA'. exact T1.
      * rewrite app_length. nia.
      * rewrite (level_app (2 ^ k * (2 * e))) by exact HA'. rewrite (level_app (2 ^ k)) by exact HT'. exact T2.
Qed.

Lemma malleable_loop_true f : forall j k set, 0 <= j -> malleable32_loop f (2 ^ j) set (2 ^ k) = true -> 0 < set -> 0 <= k ->
  exists m, j <= k /\ set = 2 ^ (k - j) * (2 * m + 1) /\ 1 <= m.
Proof.
  induction f as [|f IH]; intros j k set Hj H Hs Hk; [discriminate|]. cbn [malleable32_loop] in H.
  destruct (Z.leb_spec (2 ^ j) (2 ^ k)) as [L|_]; [|discriminate].
  assert (j <= k) by (apply (Z.pow_le_mono_r_iff 2); lia).
  destruct (Z.odd set) eqn:Od.
  - apply andb_true_iff in H as [H1 H2]. apply Z.eqb_eq in H1. apply negb_true_iff, Z.eqb_neq in H2.
    assert (j = k) by (apply (Z.pow_inj_r 2); lia). subst k. apply Z.odd_spec in Od as [m ->]. exists m. rewrite Z.sub_diag. cbn [Z.pow]. lia.
  - assert (Ev : Z.even set = true) by (rewrite <- Z.negb_odd, Od; reflexivity). apply Z.even_spec in Ev as [q ->].
    replace (2 ^ j * 2) with (2 ^ (j + 1)) in H by (rewrite Z.pow_add_r by lia; lia).
    replace (2 * q / 2) with q in H by (rewrite Z.mul_comm, Z.div_mul; lia).
    destruct (IH (j + 1) k q) as (m & B1 & B2 & B3); [lia|exact H|lia|lia|]. exists m. split; [lia|]. split; [|exact B3].
    rewrite B2. replace (k - j) with (k - (j + 1) + 1) by lia. rewrite Z.pow_add_r by lia. lia.
Qed.
Lemma repeats_firstn w : forall a b, repeats w a b = true -> firstn w a = firstn w b /\ (w <= length a)%nat /\ (w <= length b)%nat.
Proof.
  induction w as [|w IH]; intros a b H; [cbn; auto with arith|]. destruct a as [|x a], b as [|y b]; cbn in H; try discriminate.
  apply andb_true_iff in H as [H1 H2]. unfold bytes_eq in H1. destruct (list_eq_dec Z.eq_dec x y) as [->|]; [|discriminate].
  destruct (IH _ _ H2) as (E & L1 & L2). cbn. rewrite E. cbn [length]. repeat split; lia.
Qed.
Lemma malleated_width_true k hs : 0 <= k -> is_malleated32_width (2 ^ k) hs = true ->
  exists A T, hs = A ++ T ++ T /\ len T = 2 ^ k.
Proof.
  intros Hk H. unfold is_malleated32_width in H. destruct (2 ^ k =? 0); [discriminate|]. destruct (2 ^ k >? len hs / 2); [discriminate|]. cbn [orb] in H.
  destruct (repeats_firstn _ _ _ H) as (E & L1 & L2). set (w := Z.to_nat (2 ^ k)) in *.
  exists (rev (skipn w (skipn w (rev hs)))), (rev (firstn w (rev hs))). split.
  - rewrite <- (rev_involutive hs) at 1. rewrite <- (firstn_skipn w (rev hs)) at 1. rewrite rev_app_distr.
    rewrite app_assoc. f_equal. rewrite <- (firstn_skipn w (skipn w (rev hs))) at 1. rewrite rev_app_distr, E. reflexivity.
  - unfold len. rewrite rev_length, firstn_length. pose proof (pow2_pos k Hk). lia.
Qed.
Lemma malleated_loop_true f : forall j hs, 0 <= j -> malleated32_loop f (2 ^ j) hs <> 0 ->
  exists k, j <= k /\ malleated32_loop f (2 ^ j) hs = 2 ^ k /\ 2 ^ k <= len hs / 2 /\
    is_malleable32_set (len hs - 2 ^ k) (2 ^ k) = true /\ is_malleated32_width (2 ^ k) hs = true.
Proof.
  induction f as [|f IH]; intros j hs Hj H; [cbn in H; congruence|]. cbn [malleated32_loop] in H |- *.
  destruct (Z.leb_spec (2 ^ j) (len hs / 2)) as [L|_]; [|congruence].
  destruct (is_malleable32_set (len hs - 2 ^ j) (2 ^ j)) eqn:E1; cbn [andb] in H |- *.
  destruct (is_malleated32_width (2 ^ j) hs) eqn:E2.
  - exists j. repeat split; try assumption; lia.
  - replace (2 ^ j * 2) with (2 ^ (j + 1)) in H |- * by (rewrite Z.pow_add_r by lia; lia).
    destruct (IH (j + 1) hs) as (k & B1 & B); [lia|exact H|]. exists k. split; [lia|exact B].
  - replace (2 ^ j * 2) with (2 ^ (j + 1)) in H |- * by (rewrite Z.pow_add_r by lia; lia).
    destruct (IH (j + 1) hs) as (k & B1 & B); [lia|exact H|]. exists k. split; [lia|exact B].
Qed.
(** The size reported removes a repeated tail without changing the root. *)
Lemma malleated_sound hs : let n := malleated32_loop (S (length hs)) 1 hs in n <> 0 ->
  exists A T, hs = A ++ T ++ T /\ len T = n /\ T <> [] /\ A <> [] /\
    exists d r, tree_root D d (A ++ T) r /\ tree_root D d hs r.
Proof.
  intros n Hn. subst n. change 1 with (2 ^ 0) in Hn |- *.
  destruct (malleated_loop_true _ 0 hs ltac:(lia) Hn) as (k & Hk & E & L & M1 & M2).
  destruct (malleated_width_true k hs Hk M2) as (A & T & Eh & LT).
  assert (Pk : 0 < 2 ^ k) by (apply pow2_pos; lia).
  assert (LA : len hs = len A + 2 * 2 ^ k) by (rewrite Eh; unfold len in *; rewrite !app_length; lia).
  unfold is_malleable32_set in M1. change 1 with (2 ^ 0) in M1.
  destruct (malleable_loop_true _ 0 k _ ltac:(lia) M1) as (m & _ & E2 & Hm); [unfold len in *; lia|lia|].
  rewrite Z.sub_0_r in E2. exists A, T. split; [exact Eh|]. split; [rewrite E; exact LT|].
  assert (LA2 : len A = 2 ^ k * (2 * m)) by lia.
  split; [intros ->; cbn in LT; lia|]. split; [intros ->; change (len (@nil (list Z))) with 0 in LA2; nia|].
  rewrite Eh. apply (repeat_tail (Z.to_nat k) (Z.to_nat m)).
  - apply Nat2Z.inj. rewrite Nat2Z.inj_pow, Z2Nat.id by lia. exact LT.
  - apply Nat2Z.inj. rewrite Nat2Z.inj_mul, Nat2Z.inj_pow, Nat2Z.inj_mul, !Z2Nat.id by lia. exact LA2.
  - lia.
Qed.

(** ** Branches *)
Lemma nth_level l : forall p, (p < length l)%nat -> nth (Nat.div2 p) (level l) [] =
  if Nat.even p then D (nth p l [] ++ nth (S p) (pad_odd l) []) else D (nth (p - 1) l [] ++ nth p l []).
Proof.
  induction l as [|a|a b l IH] using list_ind2; intros p Hp; cbn [length] in Hp; [lia| |].
  - assert (p = 0)%nat by lia. subst p. reflexivity.
  - destruct p as [|[|p]].
    + cbn. destruct (pad_odd_cons2 a b l) as [E| ->]; [rewrite E; reflexivity|reflexivity].
    + cbn. reflexivity.
    + change (Nat.div2 (S (S p))) with (S (Nat.div2 p)). change (Nat.even (S (S p))) with (Nat.even p). cbn [BlockSpec.level nth].
      rewrite IH by lia. destruct (pad_odd_cons2 a b l) as [E| ->]; [|cbn [length] in Hp; lia]. rewrite E. cbn [nth].
      destruct (Nat.even p) eqn:Ep; [reflexivity|]. destruct p as [|p]; [discriminate|]. cbn [Nat.sub nth]. rewrite Nat.sub_0_r. reflexivity.
Qed.
Lemma nth_pad p l : (p < length l)%nat -> nth p (pad_odd l) [] = nth p l [].
Proof. intros H. unfold pad_odd. destruct (Z.odd (len l)); [|reflexivity]. apply app_nth1, H. Qed.

Lemma branch_spec f : forall l p r n, (length l <= f)%nat -> tree_root D n l r -> 0 <= p < len l ->
  climb D p (nth (Z.to_nat p) l []) (branch_loop D f p l) = r /\ length (branch_loop D f p l) = n.
Proof.
  induction f as [|f IH]; intros l p r n Hf T Hp; [inversion T; subst; cbn in Hf; lia|].
  cbn [branch_loop]. destruct T as [a|n a b l r T].
  - cbn. replace (Z.to_nat p) with 0%nat by (unfold len in Hp; cbn in Hp; lia). auto.
  - rewrite len_cons2 in Hp |- *. destruct (Z.gtb_spec (len l + 2) 1) as [_|X]; [|unfold len in X; lia].
    set (l2 := a :: b :: l) in *. rewrite level_spec.
    assert (Lp : (Z.to_nat p < length l2)%nat) by (unfold l2, len in *; cbn [length]; lia).
    assert (Hhalf : Nat.div2 (Z.to_nat p) = Z.to_nat (p / 2)) by (rewrite Nat.div2_div; apply Nat2Z.inj; rewrite Nat2Z.inj_div, !Z2Nat.id; [reflexivity|apply Z.div_pos; lia|lia]).
    destruct (IH (level l2) (p / 2) r n) as [C1 C2].
    + pose proof (level_length D l2). pose proof (b2n_le (Nat.odd (length l2))). unfold l2 in *. cbn [length] in *. lia.
    + exact T.
    + pose proof (level_length D l2) as L. unfold len. split; [apply Z.div_pos; lia|]. apply Z.div_lt_upper_bound; [lia|]. unfold l2 in *. cbn [length] in *. unfold len in Hp. lia.
    + cbn [climb length]. split; [|rewrite C2; reflexivity]. rewrite <- C1. f_equal. rewrite <- Hhalf, nth_level by exact Lp.
      assert (Ev : Nat.even (Z.to_nat p) = Z.even p).
      { rewrite <- (Z2Nat.id p) at 2 by lia. destruct (Nat.even (Z.to_nat p)) eqn:E.
        - symmetry. apply Z.even_spec. apply Nat.even_spec in E as [q ->]. exists (Z.of_nat q). lia.
        - symmetry. rewrite <- Z.negb_odd. apply negb_false_iff, Z.odd_spec. assert (O : Nat.odd (Z.to_nat p) = true) by (rewrite <- Nat.negb_even, E; reflexivity).
          apply Nat.odd_spec in O as [q ->]. exists (Z.of_nat q). lia. }
      rewrite Ev. destruct (Z.even p) eqn:Ep.
      * replace (Z.to_nat (p + 1)) with (S (Z.to_nat p)) by lia. reflexivity.
      * assert (p <> 0) by (intros ->; discriminate). replace (Z.to_nat (p - 1)) with (Z.to_nat p - 1)%nat by lia. rewrite nth_pad by lia. reflexivity.
Qed.
End M.
