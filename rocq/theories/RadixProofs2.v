(** base58. *)
From Verif Require Import Base Bytes RadixModel RadixSpec RadixProofs.

Definition c58 (d : Z) : Z := nth (Z.to_nat d) base58_chars 0.
Lemma c58_index d : 0 <= d < 58 -> index_of (c58 d) base58_chars = Some d.
Proof. intros H. apply nodup_index; [apply base58_nodup|rewrite base58_len; exact H]. Qed.
Lemma c58_one d : 0 <= d < 58 -> (c58 d = 49 <-> d = 0).
Proof.
  intros H. split; [|intros ->; exact base58_one]. intros E.
  pose proof (c58_index d H) as I. rewrite E in I. vm_compute in I. congruence.
Qed.

Lemma canonical_leading (l : list Z) : canonical l <-> (forall x r', l = x :: r' -> x <> 0).
Proof.
  destruct l as [|d l]; cbn; split; try (intros; discriminate); auto.
  - intros H x r E. injection E as <- _. exact H.
  - intros H. apply (H d l eq_refl).
Qed.

Lemma encode_shape n y : digits_ok 256 y -> canonical y ->
  exists ds, encode_base58 (repeat 0 n ++ y) = repeat 49 n ++ map c58 ds /\
    digits_ok 58 ds /\ canonical ds /\ radix_value 58 ds = radix_value 256 y.
Proof.
  intros D C. unfold encode_base58. rewrite count_leading_app by (apply canonical_leading; exact C).
  rewrite Nat2Z.id, skip_repeat. rewrite len_app, len_repeat.
  replace (Z.of_nat n + len y - Z.of_nat n) with (len y) by lia.
  set (size := len y * 138 / 100 + 1). pose proof (len_nonneg y) as L0.
  assert (S0 : 0 <= size) by (assert (0 <= len y * 138 / 100) by (apply Z.div_pos; lia); lia).
  assert (Z58 : digits_ok 58 (repeat 0 (Z.to_nat size))).
  { apply Forall_forall. intros x Hx. apply repeat_spec in Hx. lia. }
  destruct (convert_ok 256 58 y ltac:(lia) ltac:(lia) (repeat 0 (Z.to_nat size)) D Z58) as (L & Dr & V).
  { rewrite radix_zeros, len_repeat, Z2Nat.id by exact S0.
    pose proof (radix_range 256 y ltac:(lia) D). pose proof (size_58 (len y) L0). fold size in H0. lia. }
  rewrite radix_zeros in V. destruct (first_nonzero_ok 58 _ Dr) as (C1 & D1 & V1).
  eexists. split; [reflexivity|]. split; [exact D1|]. split; [exact C1|].
  etransitivity; [exact V1|]. etransitivity; [exact V|]. lia.
Qed.

(** The decoding fold, on digits of the alphabet. *)
Lemma decode_fold ds : digits_ok 58 ds -> forall data,
  fold_left (fun acc c => do data <- acc; do carry <- index_of c base58_chars; Some (unpack_char data carry))
    (map c58 ds) (Some data) = Some (fold_left unpack_char ds data).
Proof.
  induction ds as [|d ds IH]; intros D data; cbn [map fold_left]; [reflexivity|].
  inversion D; subst. cbn [obind]. rewrite c58_index by assumption. cbn [obind]. apply IH. assumption.
Qed.
Lemma decode_fold_none l : fold_left (fun acc c => do data <- acc; do carry <- index_of c base58_chars; Some (unpack_char data carry)) l None = None.
Proof. induction l as [|c l IH]; cbn [fold_left obind]; [reflexivity|exact IH]. Qed.
Lemma decode_fold_inv l : forall data r,
  fold_left (fun acc c => do data <- acc; do carry <- index_of c base58_chars; Some (unpack_char data carry)) l (Some data) = Some r ->
  exists ds, digits_ok 58 ds /\ l = map c58 ds.
Proof.
  induction l as [|c l IH]; intros data r H; cbn [fold_left obind] in H; [exists []; split; [constructor|reflexivity]|].
  destruct (index_of c base58_chars) as [i|] eqn:E; cbn [obind] in H; [|rewrite decode_fold_none in H; discriminate].
  destruct (IH _ _ H) as (ds & D & ->). apply index_of_nth in E. rewrite base58_len in E. destruct E as [R E].
  exists (i :: ds). split; [constructor; auto|]. cbn [map]. unfold c58 at 2. rewrite E. reflexivity.
Qed.

Lemma decode_shape n ds : digits_ok 58 ds -> canonical ds ->
  exists y, decode_base58 (repeat 49 n ++ map c58 ds) = Some (repeat 0 n ++ y) /\
    digits_ok 256 y /\ canonical y /\ radix_value 256 y = radix_value 58 ds.
Proof.
  intros D C. unfold decode_base58.
  assert (HL : forall x r', map c58 ds = x :: r' -> x <> 49).
  { intros x r' E. destruct ds as [|d ds]; [discriminate|]. cbn [map] in E. injection E as <- _.
    inversion D; subst. cbn in C. intros X. apply c58_one in X; auto. }
  rewrite count_leading_app by exact HL. rewrite Nat2Z.id, skip_repeat, decode_fold by exact D. cbn [omap].
  set (L := len (repeat 49 n ++ map c58 ds)). set (size := L * 733 / 1000 + 1).
  assert (LE : len ds <= L). { unfold L. rewrite len_app, len_repeat. unfold len at 2. rewrite map_length. unfold len. lia. }
  pose proof (len_nonneg ds) as L0.
  assert (S0 : 0 <= size) by (assert (0 <= L * 733 / 1000) by (apply Z.div_pos; lia); lia).
  assert (Z256 : digits_ok 256 (repeat 0 (Z.to_nat size))).
  { apply Forall_forall. intros x Hx. apply repeat_spec in Hx. lia. }
  destruct (convert_ok 58 256 ds ltac:(lia) ltac:(lia) (repeat 0 (Z.to_nat size)) D Z256) as (Lr & Dr & V).
  { rewrite radix_zeros, len_repeat, Z2Nat.id by exact S0.
    pose proof (radix_range 58 ds ltac:(lia) D). pose proof (size_256 L ltac:(lia)). fold size in H0.
    assert (58 ^ len ds <= 58 ^ L) by (apply Z.pow_le_mono_r; lia). lia. }
  rewrite radix_zeros in V. destruct (first_nonzero_ok 256 _ Dr) as (C1 & D1 & V1).
  eexists. split; [reflexivity|]. split; [exact D1|]. split; [exact C1|].
  etransitivity; [exact V1|]. etransitivity; [exact V|]. lia.
Qed.

Lemma bytes_split x : bytes_ok x -> exists n y, x = repeat 0 n ++ y /\ digits_ok 256 y /\ canonical y.
Proof.
  intros B. destruct (leading_split 0 x) as (n & r & -> & _ & H). exists n, r. split; [reflexivity|].
  split; [|apply canonical_leading; exact H]. apply bytes_ok_app in B. apply B.
Qed.
Lemma text_split s : (forall c, In c s -> In c base58_chars) ->
  exists n ds, s = repeat 49 n ++ map c58 ds /\ digits_ok 58 ds /\ canonical ds.
Proof.
  intros A. destruct (leading_split 49 s) as (n & r & -> & _ & H). exists n.
  assert (G : forall l, (forall c, In c l -> In c base58_chars) -> exists ds, l = map c58 ds /\ digits_ok 58 ds).
  { induction l as [|c l IH]; intros X; [exists []; split; [reflexivity|constructor]|].
    destruct IH as (ds & -> & D); [intros; apply X; right; assumption|].
    destruct (index_of c base58_chars) as [i|] eqn:E; [|apply index_of_none in E; exfalso; apply E, X; left; reflexivity].
    apply index_of_nth in E. rewrite base58_len in E. destruct E as [R E].
    exists (i :: ds). split; [cbn [map]; unfold c58 at 2; rewrite E; reflexivity|constructor; auto]. }
  destruct (G r) as (ds & -> & D); [intros; apply A, in_or_app; right; assumption|].
  exists ds. split; [reflexivity|]. split; [exact D|]. destruct ds as [|d ds]; [exact I|]. cbn.
  intros ->. apply (H (c58 0) (map c58 ds) eq_refl). exact base58_one.
Qed.
