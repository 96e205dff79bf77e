(** Positional notation in base 256, used as the specification of every
    fixed-width integer encoding in this development.  Independent of the
    source: these are the textbook definitions. *)
From Verif Require Import Base.

(** Value of a byte string, least significant byte first / last. *)
Fixpoint le_value (l : list Z) : Z :=
  match l with [] => 0 | b :: t => b + 256 * le_value t end.
Definition be_value (l : list Z) : Z := le_value (rev l).

(** The n low order base 256 digits of v, least significant first / last.
    For negative v these are the two's complement bytes. *)
Fixpoint le_bytes (n : nat) (v : Z) : list Z :=
  match n with O => [] | S m => v mod 256 :: le_bytes m (v / 256) end.
Definition be_bytes (n : nat) (v : Z) : list Z := rev (le_bytes n v).

Definition len {A} (l : list A) : Z := Z.of_nat (length l).

Lemma len_nil {A} : @len A [] = 0. Proof. reflexivity. Qed.
Lemma len_cons {A} (a : A) l : len (a :: l) = 1 + len l.
Proof. unfold len. cbn [length]. lia. Qed.
Lemma len_app {A} (a b : list A) : len (a ++ b) = len a + len b.
Proof. unfold len. rewrite app_length. lia. Qed.
Lemma len_nonneg {A} (a : list A) : 0 <= len a. Proof. unfold len. lia. Qed.
Lemma len_rev {A} (a : list A) : len (rev a) = len a.
Proof. unfold len. rewrite rev_length. reflexivity. Qed.
Lemma len_repeat {A} (x : A) n : len (repeat x n) = Z.of_nat n.
Proof. unfold len. rewrite repeat_length. reflexivity. Qed.
Lemma len_zero {A} (l : list A) : len l = 0 -> l = [].
Proof. destruct l; [reflexivity|]. rewrite len_cons. pose proof (len_nonneg l). lia. Qed.

Lemma le_bytes_length n v : length (le_bytes n v) = n.
Proof. revert v. induction n; intros; cbn [le_bytes length]; [reflexivity|]. rewrite IHn. reflexivity. Qed.
Lemma be_bytes_length n v : length (be_bytes n v) = n.
Proof. unfold be_bytes. rewrite rev_length. apply le_bytes_length. Qed.
Lemma len_le_bytes n v : len (le_bytes n v) = Z.of_nat n.
Proof. unfold len. rewrite le_bytes_length. reflexivity. Qed.
Lemma len_be_bytes n v : len (be_bytes n v) = Z.of_nat n.
Proof. unfold len. rewrite be_bytes_length. reflexivity. Qed.

Lemma le_bytes_ok n v : bytes_ok (le_bytes n v).
Proof.
  revert v. induction n; intros; cbn [le_bytes]; [constructor|].
  constructor; [|apply IHn]. unfold byte_ok. pose proof (Z.mod_pos_bound v 256). lia.
Qed.
Lemma be_bytes_ok n v : bytes_ok (be_bytes n v).
Proof. apply bytes_ok_rev, le_bytes_ok. Qed.

Lemma pow256_S n : 256 ^ Z.of_nat (S n) = 256 * 256 ^ Z.of_nat n.
Proof. rewrite Nat2Z.inj_succ, Z.pow_succ_r by lia. reflexivity. Qed.
Lemma pow256_pos n : 0 < 256 ^ Z.of_nat n.
Proof. apply Z.pow_pos_nonneg; lia. Qed.

Lemma le_value_range l : bytes_ok l -> 0 <= le_value l < 256 ^ len l.
Proof.
  unfold len. induction 1 as [|b l Hb _ IH]; [cbn; lia|]. cbn [le_value length].
  rewrite pow256_S. unfold byte_ok in Hb. lia.
Qed.
Lemma be_value_range l : bytes_ok l -> 0 <= be_value l < 256 ^ len l.
Proof. intros H. unfold be_value. rewrite <- len_rev. apply le_value_range, bytes_ok_rev, H. Qed.

Lemma le_value_bytes n v : le_value (le_bytes n v) = v mod 256 ^ Z.of_nat n.
Proof.
  revert v. induction n; intros v; [cbn; rewrite Z.mod_1_r; reflexivity|].
  cbn [le_bytes le_value]. rewrite IHn, pow256_S.
  rewrite Z.rem_mul_r by (pose proof (pow256_pos n); lia). lia.
Qed.
Lemma be_value_bytes n v : be_value (be_bytes n v) = v mod 256 ^ Z.of_nat n.
Proof. unfold be_value, be_bytes. rewrite rev_involutive. apply le_value_bytes. Qed.

Lemma le_value_bytes_small n v : 0 <= v < 256 ^ Z.of_nat n -> le_value (le_bytes n v) = v.
Proof. intros. rewrite le_value_bytes. apply Z.mod_small. assumption. Qed.
Lemma be_value_bytes_small n v : 0 <= v < 256 ^ Z.of_nat n -> be_value (be_bytes n v) = v.
Proof. intros. rewrite be_value_bytes. apply Z.mod_small. assumption. Qed.

Lemma le_bytes_value l : bytes_ok l -> le_bytes (length l) (le_value l) = l.
Proof.
  induction 1 as [|b l Hb _ IH]; [reflexivity|]. cbn [le_value length le_bytes].
  unfold byte_ok in Hb.
  replace (b + 256 * le_value l) with (b + le_value l * 256) by lia.
  rewrite Z.mod_add, Z.div_add by lia. rewrite (Z.mod_small b), (Z.div_small b) by lia.
  cbn [Z.add]. rewrite IH. reflexivity.
Qed.
Lemma be_bytes_value l : bytes_ok l -> be_bytes (length l) (be_value l) = l.
Proof.
  intros H. unfold be_bytes, be_value. rewrite <- rev_length.
  rewrite le_bytes_value by (apply bytes_ok_rev, H). apply rev_involutive.
Qed.

Lemma le_value_inj a b : bytes_ok a -> bytes_ok b -> length a = length b ->
  le_value a = le_value b -> a = b.
Proof.
  intros Ha Hb Hl Hv. rewrite <- (le_bytes_value a Ha), <- (le_bytes_value b Hb), Hl, Hv. reflexivity.
Qed.

Lemma le_value_app a b : le_value (a ++ b) = le_value a + 256 ^ len a * le_value b.
Proof.
  unfold len. induction a as [|x a IH]; [cbn [app le_value length]; change (256 ^ Z.of_nat 0) with 1; lia|].
  cbn [app le_value length]. rewrite IH, pow256_S. lia.
Qed.
Lemma be_value_app a b : be_value (a ++ b) = be_value a * 256 ^ len b + be_value b.
Proof. unfold be_value. rewrite rev_app_distr, le_value_app, len_rev. lia. Qed.
Lemma be_value_snoc a x : be_value (a ++ [x]) = be_value a * 256 + x.
Proof. rewrite be_value_app. unfold be_value, len. cbn. lia. Qed.
Lemma be_value_nil : be_value [] = 0. Proof. reflexivity. Qed.
Lemma be_value_cons x a : be_value (x :: a) = x * 256 ^ len a + be_value a.
Proof. change (x :: a) with ([x] ++ a). rewrite be_value_app. unfold be_value. cbn. lia. Qed.

Lemma le_value_repeat0 n : le_value (repeat 0 n) = 0.
Proof. induction n; cbn [repeat le_value]; lia. Qed.

Lemma le_bytes_app n m v : le_bytes (n + m) v = le_bytes n v ++ le_bytes m (v / 256 ^ Z.of_nat n).
Proof.
  revert v. induction n; intros v.
  - cbn [Nat.add le_bytes app]. change (256 ^ Z.of_nat 0) with 1. rewrite Z.div_1_r. reflexivity.
  - cbn [Nat.add le_bytes app]. rewrite IHn, pow256_S, Z.div_div by (pose proof (pow256_pos n); lia). reflexivity.
Qed.

Lemma le_bytes_mod n v : le_bytes n (v mod 256 ^ Z.of_nat n) = le_bytes n v.
Proof.
  apply le_value_inj; try apply le_bytes_ok; [rewrite !le_bytes_length; reflexivity|].
  rewrite !le_value_bytes. apply Z.mod_mod. pose proof (pow256_pos n). lia.
Qed.

Lemma le_bytes_inj n v w : 0 <= v < 256 ^ Z.of_nat n -> 0 <= w < 256 ^ Z.of_nat n ->
  le_bytes n v = le_bytes n w -> v = w.
Proof. intros Hv Hw H. rewrite <- (le_value_bytes_small n v Hv), H. apply le_value_bytes_small, Hw. Qed.

Lemma nth_le_bytes n v i : (i < n)%nat -> nth i (le_bytes n v) 0 = (v / 256 ^ Z.of_nat i) mod 256.
Proof.
  revert v i. induction n; intros v i H; [lia|]. destruct i; cbn [le_bytes nth].
  - change (256 ^ Z.of_nat 0) with 1. rewrite Z.div_1_r. reflexivity.
  - rewrite IHn by lia. rewrite pow256_S, Z.div_div by (pose proof (pow256_pos i); lia). reflexivity.
Qed.

Lemma list_split_len {A} (l : list A) n : 0 <= n <= len l ->
  l = firstn (Z.to_nat n) l ++ skipn (Z.to_nat n) l /\ len (firstn (Z.to_nat n) l) = n.
Proof.
  intros H. split; [symmetry; apply firstn_skipn|]. unfold len in *. rewrite firstn_length_le by lia. lia.
Qed.
Lemma firstn_len_app {A} (a b : list A) n : n = len a -> firstn (Z.to_nat n) (a ++ b) = a.
Proof. intros ->. unfold len. rewrite Nat2Z.id, firstn_app, Nat.sub_diag, firstn_all. apply app_nil_r. Qed.
Lemma skipn_len_app {A} (a b : list A) n : n = len a -> skipn (Z.to_nat n) (a ++ b) = b.
Proof. intros ->. unfold len. rewrite Nat2Z.id, skipn_app, Nat.sub_diag, skipn_all. reflexivity. Qed.
Lemma skipn_skipn {A} n m (l : list A) : skipn n (skipn m l) = skipn (n + m) l.
Proof.
  revert l. induction m; intros l; [rewrite Nat.add_0_r; reflexivity|]. rewrite Nat.add_succ_r.
  destruct l; [rewrite !skipn_nil; reflexivity|]. cbn [skipn]. apply IHm.
Qed.
