(** Base definitions shared by every model in this development.

    C++ integers are modelled by mathematical integers [Z] together with an
    explicit description of the integer type ([ity]).  Bytes are [Z] values in
    [0,256).  Nothing in this file is specific to one source file: it fixes the
    C++20 meaning of fixed-width integers (two's complement, modular unsigned
    arithmetic, undefined signed overflow) used by the models. *)
From Coq Require Export List ZArith Lia Bool Permutation.
From Coq Require Export ZifyBool ZifyNat.
Export ListNotations.
#[global] Open Scope Z_scope.

(** A C++ integer type: signedness and width in bits. *)
Record ity := mkity { sg : bool; bits : Z }.
Definition u8 := mkity false 8.
Definition u16 := mkity false 16.
Definition u32 := mkity false 32.
Definition u64 := mkity false 64.
Definition u256 := mkity false 256.
Definition i8 := mkity true 8.
Definition i16 := mkity true 16.
Definition i32 := mkity true 32.
Definition i64 := mkity true 64.

(** std::numeric_limits<T>::min / max. *)
Definition imin (T : ity) : Z := if sg T then - 2 ^ (bits T - 1) else 0.
Definition imax (T : ity) : Z :=
  if sg T then 2 ^ (bits T - 1) - 1 else 2 ^ bits T - 1.

(** The value is representable in the type. *)
Definition fits (T : ity) (z : Z) : Prop := imin T <= z <= imax T.
Definition fitsb (T : ity) (z : Z) : bool := (imin T <=? z) && (z <=? imax T).

(** C++20 conversion of an arbitrary integer to type T (modular). *)
Definition wrap (T : ity) (z : Z) : Z :=
  if sg T then (z + 2 ^ (bits T - 1)) mod 2 ^ bits T - 2 ^ (bits T - 1)
  else z mod 2 ^ bits T.

(** Integral promotion: types narrower than int become int (32 bits). *)
Definition promote (T : ity) : ity := if bits T <? 32 then i32 else T.

(** The unsigned type of the same width. *)
Definition unsigned_of (T : ity) : ity := mkity false (bits T).
Definition signed_of (T : ity) : ity := mkity true (bits T).

(** Result of a built-in arithmetic operator performed in type T (after
    promotion): unsigned wraps, signed overflow is undefined ([None]). *)
Definition arith (T : ity) (z : Z) : option Z :=
  if sg T then (if fitsb T z then Some z else None) else Some (wrap T z).

Definition byte_ok (b : Z) : Prop := 0 <= b < 256.
Definition bytes_ok (l : list Z) : Prop := Forall byte_ok l.

Definition omap {A B} (f : A -> B) (x : option A) : option B :=
  match x with Some a => Some (f a) | None => None end.
Definition obind {A B} (x : option A) (f : A -> option B) : option B :=
  match x with Some a => f a | None => None end.
Notation "'do' x <- e ; f" := (obind e (fun x => f))
  (at level 60, x pattern, e at next level, right associativity).

(** Facts about the above. *)
Lemma fitsb_spec T z : fitsb T z = true <-> fits T z.
Proof. unfold fitsb, fits. rewrite andb_true_iff, !Z.leb_le. tauto. Qed.

Lemma fitsb_false T z : fitsb T z = false <-> ~ fits T z.
Proof. rewrite <- fitsb_spec. destruct (fitsb T z); split; congruence. Qed.

Lemma pow2_pos n : 0 <= n -> 0 < 2 ^ n.
Proof. intros H. apply Z.pow_pos_nonneg; lia. Qed.

Lemma pow2_split n : 0 < n -> 2 ^ n = 2 * 2 ^ (n - 1).
Proof.
  intros H. replace n with (1 + (n - 1)) at 1 by lia.
  rewrite Z.pow_add_r by lia. reflexivity.
Qed.

Lemma wrap_fits T z : 0 < bits T -> fits T z -> wrap T z = z.
Proof.
  intros HB [H1 H2]. unfold wrap, fits, imin, imax in *.
  pose proof (pow2_split (bits T) HB).
  destruct (sg T); rewrite Z.mod_small; lia.
Qed.

Lemma fits_wrap T z : 0 < bits T -> fits T (wrap T z).
Proof.
  intros HB. unfold wrap, fits, imin, imax.
  pose proof (pow2_split (bits T) HB).
  assert (0 < 2 ^ (bits T - 1)) by (apply pow2_pos; lia).
  destruct (sg T).
  - pose proof (Z.mod_pos_bound (z + 2 ^ (bits T - 1)) (2 ^ bits T)); lia.
  - pose proof (Z.mod_pos_bound z (2 ^ bits T)); lia.
Qed.

(** The wrapped value is congruent to the original. *)
Lemma wrap_cong T z : 0 < bits T -> exists k, wrap T z = z + k * 2 ^ bits T.
Proof.
  intros HB. unfold wrap. assert (0 < 2 ^ bits T) by (apply pow2_pos; lia).
  destruct (sg T).
  - exists (- ((z + 2 ^ (bits T - 1)) / 2 ^ bits T)).
    rewrite Z.mod_eq by lia. lia.
  - exists (- (z / 2 ^ bits T)). rewrite Z.mod_eq by lia. lia.
Qed.

Lemma wrap_unique T z w k :
  0 < bits T -> fits T w -> w = z + k * 2 ^ bits T -> wrap T z = w.
Proof.
  intros HB HF ->. 
  rewrite <- (wrap_fits T (z + k * 2 ^ bits T)) by assumption.
  unfold wrap. destruct (sg T).
  - replace (z + k * 2 ^ bits T + 2 ^ (bits T - 1))
      with (z + 2 ^ (bits T - 1) + k * 2 ^ bits T) by lia.
    rewrite Z.mod_add; [reflexivity|]. pose proof (pow2_pos (bits T)); lia.
  - rewrite Z.mod_add; [reflexivity|]. pose proof (pow2_pos (bits T)); lia.
Qed.

Lemma wrap_wrap_unsigned T z :
  0 < bits T -> wrap T (wrap (unsigned_of T) z) = wrap T z.
Proof.
  intros HB.
  destruct (wrap_cong (unsigned_of T) z) as [k Hk]; [exact HB|].
  destruct (wrap_cong T z HB) as [j Hj].
  apply (wrap_unique T _ _ (j - k)); [exact HB|apply fits_wrap; exact HB|].
  rewrite Hj, Hk. cbn [unsigned_of bits]. lia.
Qed.

Lemma promote_bits T : 0 < bits T -> 0 < bits (promote T).
Proof. unfold promote. destruct (bits T <? 32); cbn; lia. Qed.

Lemma fits_promote T z : 0 < bits T -> fits T z -> fits (promote T) z.
Proof.
  intros HB. unfold promote. destruct (Z.ltb_spec (bits T) 32) as [H|H]; [|tauto].
  unfold fits, imin, imax. cbn [sg bits i32].
  assert (2 ^ bits T <= 2 ^ 31) by (apply Z.pow_le_mono_r; lia).
  assert (2 ^ (bits T - 1) <= 2 ^ 31) by (apply Z.pow_le_mono_r; lia).
  assert (0 < 2 ^ (bits T - 1)) by (apply pow2_pos; lia).
  assert (0 < 2 ^ bits T) by (apply pow2_pos; lia).
  change (2 ^ (32 - 1)) with (2 ^ 31).
  destruct (sg T); lia.
Qed.

Lemma bytes_ok_app a b : bytes_ok (a ++ b) <-> bytes_ok a /\ bytes_ok b.
Proof. unfold bytes_ok. apply Forall_app. Qed.

Lemma bytes_ok_nil : bytes_ok [].
Proof. constructor. Qed.

Lemma bytes_ok_cons b l : bytes_ok (b :: l) <-> byte_ok b /\ bytes_ok l.
Proof.
  split; intros H; [inversion H; auto|destruct H; constructor; auto].
Qed.

Lemma bytes_ok_firstn n l : bytes_ok l -> bytes_ok (firstn n l).
Proof.
  unfold bytes_ok. intros H. rewrite <- (firstn_skipn n l) in H.
  apply Forall_app in H. tauto.
Qed.

Lemma bytes_ok_skipn n l : bytes_ok l -> bytes_ok (skipn n l).
Proof.
  unfold bytes_ok. intros H. rewrite <- (firstn_skipn n l) in H.
  apply Forall_app in H. tauto.
Qed.

Lemma bytes_ok_rev l : bytes_ok l -> bytes_ok (rev l).
Proof. unfold bytes_ok. apply Forall_rev. Qed.

Lemma bytes_ok_repeat b n : byte_ok b -> bytes_ok (repeat b n).
Proof. intros H. unfold bytes_ok. apply Forall_forall. intros x Hx.
  apply repeat_spec in Hx. subst; assumption. Qed.
