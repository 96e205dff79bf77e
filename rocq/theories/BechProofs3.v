(** Detection of symbol errors. *)
From Verif Require Import Base AddressModel BechField BechProofs BechProofs2.

(** * Support of an error pattern: (distance from the end, value) *)
Fixpoint sup (l : list gf) : list (nat * gf) :=
  match l with
  | [] => []
  | e :: r => if gnz e then (length r, e) :: sup r else sup r
  end.
Definition term (p : nat * gf) : vec := vscale (snd p) (unit (fst p)).
Definition vsum (s : list (nat * gf)) : vec := fold_right (fun p acc => vadd (term p) acc) vzero s.
Lemma fold_sup l : vfold vzero l = vsum (sup l).
Proof.
  induction l as [|e r IH]; [reflexivity|]. rewrite fold_cons. cbn [sup]. destruct (gnz e) eqn:E.
  - cbn [vsum fold_right]. rewrite IH. reflexivity.
  - assert (e = G0) as -> by (destruct e; cbn in E; congruence). rewrite vscale_0, vadd_zero_l. exact IH.
Qed.
Inductive falling : nat -> list (nat * gf) -> Prop :=
| falling_nil n : falling n []
| falling_cons n d e s : (d < n)%nat -> e <> G0 -> falling d s -> falling n ((d, e) :: s).
Lemma falling_le n m s : (n <= m)%nat -> falling n s -> falling m s.
Proof. intros H F. inversion F; subst; constructor; [lia|assumption|assumption]. Qed.
Lemma sup_falling l : falling (length l) (sup l).
Proof.
  induction l as [|e r IH]; [constructor|]. cbn [sup length]. destruct (gnz e) eqn:E.
  - constructor; [lia|apply gnz_true, E|exact IH].
  - apply (falling_le (length r)); [lia|exact IH].
Qed.

Lemma unit_shift d m e : vscale e (unit (m + d)) = vpow m (vscale e (unit d)).
Proof. unfold unit. rewrite vpow_plus, vpow_scale. reflexivity. Qed.
Lemma unit0 e : vscale e (unit 0) = vsym e.
Proof. unfold unit. cbn [vpow]. symmetry. apply vsym_scale. Qed.
Lemma vsym_zero e : vsym e = vzero -> e = G0.
Proof. intros H. exact (f_equal v0 H). Qed.
Lemma three i j k e1 e2 e3 x : (0 < i < j)%nat -> (j < k <= 88)%nat -> combo e1 (unit i) e2 (unit j) e3 (unit k) = vsym x ->
  e1 = G0 /\ e2 = G0 /\ e3 = G0.
Proof. intros H1 H2. apply regular_indep. apply units_regular; assumption. Qed.
Lemma two i j e1 e2 x : (0 < i < j)%nat -> (j <= 88)%nat -> vadd (vscale e1 (unit i)) (vscale e2 (unit j)) = vsym x -> e1 = G0 /\ e2 = G0.
Proof.
  intros H1 H2 H. destruct (Nat.eq_dec j 88) as [->|N].
  - destruct (Nat.eq_dec i 1) as [->|N'].
    + destruct (three 1 2 88 e1 G0 e2 x); [lia|lia|unfold combo; rewrite vscale_0, vadd_zero_l; exact H|tauto].
    + destruct (three 1 i 88 G0 e1 e2 x); [lia|lia|unfold combo; rewrite vscale_0, vadd_zero_l; exact H|tauto].
  - destruct (three i j 88 e1 e2 G0 x); [lia|lia|unfold combo; rewrite vscale_0, vadd_zero_r; exact H|tauto].
Qed.
Lemma one i e x : (0 < i <= 88)%nat -> vscale e (unit i) = vsym x -> e = G0.
Proof.
  intros H1 H. destruct (Nat.eq_dec i 88) as [->|N].
  - destruct (two 1 88 G0 e x); [lia|lia|rewrite vscale_0, vadd_zero_l; exact H|assumption].
  - destruct (two i 88 e G0 x); [lia|lia|rewrite vscale_0, vadd_zero_r; exact H|assumption].
Qed.
Lemma shift_term a d e : (d <= a)%nat -> vscale e (unit a) = vpow d (vscale e (unit (a - d))).
Proof. intros H. rewrite <- unit_shift. do 2 f_equal. lia. Qed.
Ltac shift d := repeat match goal with H : context [vscale ?e (unit ?a)] |- _ =>
  lazymatch a with (_ - _)%nat => fail | O => fail | _ => rewrite (shift_term a d e) in H by lia end end.

Lemma four_errors s : falling 89 s -> (1 <= length s <= 4)%nat -> vsum s <> vzero.
Proof.
  intros F L H. destruct s as [|[a ea] s]; [cbn in L; lia|]. inversion F as [|? ? ? ? Ha Na Fa]; subst. clear F.
  destruct s as [|[b eb] s].
  { unfold vsum, term in H. cbn [fold_right fst snd] in H. rewrite vadd_zero_r in H. rewrite (shift_term a a) in H by lia.
    apply vpow_inj0 in H. rewrite Nat.sub_diag, unit0 in H. apply vsym_zero in H. contradiction. }
  inversion Fa as [|? ? ? ? Hb Nb Fb]; subst. clear Fa. destruct s as [|[c ec] s].
  { unfold vsum, term in H. cbn [fold_right fst snd] in H. rewrite vadd_zero_r in H.
    rewrite (shift_term a b), (shift_term b b), <- vpow_add in H by lia. apply vpow_inj0 in H. rewrite Nat.sub_diag, unit0 in H.
    apply vadd_eq in H. apply one in H; [contradiction|lia]. }
  inversion Fb as [|? ? ? ? Hc Nc Fc]; subst. clear Fb. destruct s as [|[d ed] s].
  { unfold vsum, term in H. cbn [fold_right fst snd] in H. rewrite vadd_zero_r in H.
    rewrite (shift_term a c), (shift_term b c), (shift_term c c), <- !vpow_add in H by lia. apply vpow_inj0 in H. rewrite Nat.sub_diag, unit0, vadd_assoc in H.
    apply vadd_eq in H. rewrite vadd_comm in H. apply two in H; [tauto|lia|lia]. }
  inversion Fc as [|? ? ? ? Hd Nd Fd]; subst. clear Fc. destruct s as [|? s]; [|cbn in L; lia].
  unfold vsum, term in H. cbn [fold_right fst snd] in H. rewrite vadd_zero_r in H.
  rewrite (shift_term a d), (shift_term b d), (shift_term c d), (shift_term d d), <- !vpow_add in H by lia. apply vpow_inj0 in H.
  rewrite Nat.sub_diag, unit0 in H.
  assert (E : combo ec (unit (c - d)) eb (unit (b - d)) ea (unit (a - d)) = vsym ed).
  { apply vadd_eq. unfold combo. etransitivity; [|exact H]. generalize (vscale ec (unit (c - d))) (vscale eb (unit (b - d))) (vscale ea (unit (a - d))) (vsym ed).
    clear. intros x y z w. vec_ring. }
  apply three in E; [tauto|lia|lia].
Qed.
Lemma constant_errors s : falling 71 s -> (length s <= 3)%nat -> vsum s <> zv change_constant.
Proof.
  intros F L H.
  assert (K : forall d x y z i k, (0 < i < k)%nat -> (k + d <= 72)%nat -> (d <= 70)%nat -> combo x (unit i) y (unit k) G1 (back d) = vsym z -> False).
  { intros d x y z i k H1 H2 H3 E. apply regular_indep in E; [destruct E as (_ & _ & E); discriminate E|apply back_regular; assumption]. }
  assert (O1 : forall x, vscale G1 x = x).
  { intros [x5 x4 x3 x2 x1 x0]. unfold vscale. cbn [v5 v4 v3 v2 v1 v0]. rewrite !gmul_1. reflexivity. }
  destruct s as [|[a ea] s]; [vm_compute in H; discriminate H|]. inversion F as [|? ? ? ? Ha Na Fa]; subst. clear F.
  destruct s as [|[b eb] s].
  { unfold vsum, term in H. cbn [fold_right fst snd] in H. rewrite vadd_zero_r in H. rewrite (shift_term a a) in H by lia.
    rewrite <- (back_pow a) in H by lia. rewrite Nat.sub_diag, unit0 in H.
    apply (K a G0 G0 ea 1%nat 2%nat); [lia|lia|lia|]. unfold combo. rewrite !vscale_0, !vadd_zero_l, O1. symmetry.
    apply vadd_eq, (vpow_inj0 a). rewrite vpow_add, H. apply vadd_self. }
  inversion Fa as [|? ? ? ? Hb Nb Fb]; subst. clear Fa. destruct s as [|[c ec] s].
  { unfold vsum, term in H. cbn [fold_right fst snd] in H. rewrite vadd_zero_r in H.
    rewrite (shift_term a b), (shift_term b b), <- vpow_add in H by lia. rewrite Nat.sub_diag, unit0, <- (back_pow b) in H by lia.
    apply (K b ea G0 eb (a - b)%nat (a - b + 1)%nat); [lia|lia|lia|]. unfold combo. rewrite !vscale_0, !vadd_zero_l, O1.
    apply vadd_eq, (vpow_inj0 b). rewrite <- (vadd_self (vpow b (back b))), <- H at 1. rewrite <- vpow_add. f_equal.
    generalize (vscale ea (unit (a - b))) (back b) (vsym eb). clear. intros x y z. vec_ring. }
  inversion Fb as [|? ? ? ? Hc Nc Fc]; subst. clear Fb. destruct s as [|? s]; [|cbn in L; lia].
  unfold vsum, term in H. cbn [fold_right fst snd] in H. rewrite vadd_zero_r in H.
  rewrite (shift_term a c), (shift_term b c), (shift_term c c), <- !vpow_add in H by lia. rewrite Nat.sub_diag, unit0, <- (back_pow c) in H by lia.
  apply (K c eb ea ec (b - c)%nat (a - c)%nat); [lia|lia|lia|]. unfold combo. rewrite O1.
  apply vadd_eq, (vpow_inj0 c). rewrite <- (vadd_self (vpow c (back c))), <- H at 1. rewrite <- vpow_add. f_equal.
  generalize (vscale ea (unit (a - c))) (vscale eb (unit (b - c))) (back c) (vsym ec). clear. intros x y z w. vec_ring.
Qed.
