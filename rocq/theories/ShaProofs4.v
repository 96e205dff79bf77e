(** Constants, and the block functions: each model algorithm's schedule and
    compression implement the FIPS 180-4 block computation. *)
From Coq Require Import PeanoNat.
From Verif Require Import Base Bytes MathModel BitProofs BechProofs ShaModel ShaSpec ShaProofs ShaProofs2 ShaProofs3.

Lemma primes_eq : primes =
  [2; 3; 5; 7; 11; 13; 17; 19; 23; 29; 31; 37; 41; 43; 47; 53; 59; 61; 67; 71; 73; 79; 83; 89; 97; 101; 103; 107;
   109; 113; 127; 131; 137; 139; 149; 151; 157; 163; 167; 173; 179; 181; 191; 193; 197; 199; 211; 223; 227; 229;
   233; 239; 241; 251; 257; 263; 269; 271; 277; 281; 283; 293; 307; 311; 313; 317; 331; 337; 347; 349; 353; 359;
   367; 373; 379; 383; 389; 397; 401; 409].
Proof. vm_compute. reflexivity. Qed.
Lemma k256_eq : map (SHA2_K 32) (seq 0 64) = k256.
Proof. unfold SHA2_K. rewrite primes_eq. vm_compute. reflexivity. Qed.
Lemma k512_eq : map (SHA2_K 64) (seq 0 80) = k512.
Proof. unfold SHA2_K. rewrite primes_eq. vm_compute. reflexivity. Qed.
Lemma h256_eq : SHA2_H 32 = h256.
Proof. unfold SHA2_H. rewrite primes_eq. vm_compute. reflexivity. Qed.
Lemma h512_eq : SHA2_H 64 = h512.
Proof. unfold SHA2_H. rewrite primes_eq. vm_compute. reflexivity. Qed.
Lemma k160_eq : map SHA1_K (seq 0 80) = k160.
Proof. reflexivity. Qed.

Lemma nth_map_seq (f : nat -> Z) n t : (t < n)%nat -> nth t (map f (seq 0 n)) 0 = f t.
Proof.
  intros H. rewrite (nth_indep _ 0 (f 0%nat)) by (rewrite map_length, seq_length; exact H).
  rewrite map_nth, seq_nth by exact H. reflexivity.
Qed.

(** Block functions on the sixteen message words. *)
Definition mix1 (h M : list Z) : list Z :=
  sum_words 32 (fold_left (SHA1_step (SHA1_schedule M)) (seq 0 80) h) h.
Definition mix2 (P : sha2) (h M : list Z) : list Z :=
  sum_words (bits P) (fold_left (SHA2_step P (SHA2_schedule P M)) (seq 0 (steps P)) h) h.

(** What the rest needs to know of an algorithm. *)
Definition implements (A : sha) (mix : list Z -> list Z -> list Z) : Prop :=
  forall s8 st b, words_ok A (state_words A) st -> length b = rounds A ->
    compress A st (schedule A s8 b) = mix st (firstn 16 b) /\
    words_ok A (state_words A) (mix st (firstn 16 b)).

Local Opaque expand.
Lemma sha1_implements A : strength A = 160 -> word_bits A = 32 -> rounds A = 80%nat -> K A = k160 -> implements A mix1.
Proof.
  intros Hs Ew Er HK s8 st b Hst Hb.
  rewrite schedule_sigma by (try exact Hb; rewrite Er; try reflexivity; lia).
  set (next := fun W => ROTL 32 1 (XOR (XOR (XOR (back W 3) (back W 8)) (back W 14)) (back W 16))).
  assert (Hn : forall l, (16 <= length l)%nat -> next l = next_of A l (length l)).
  { intros l Hl. unfold next, next_of, back, XOR. rewrite Hs. change (160 =? 160) with true. cbv iota. rewrite Ew.
    change (wrol (zops 32) 1) with (fun x => rotr 32 (32 - 1) x). cbv beta.
    rewrite (rol_ROTL 32 1) by lia. f_equal.
    rewrite (Z.lxor_comm (Z.lxor (nth (length l - 16) l 0) _)), (Z.lxor_comm (nth (length l - 8) l 0)).
    rewrite (Z.lxor_comm (nth (length l - 16) l 0)). rewrite <- !Z.lxor_assoc. reflexivity. }
  assert (N : state_words A = 5%nat) by (unfold state_words; rewrite Hs; reflexivity).
  unfold compress. rewrite N in *.
  assert (Hw : 0 < word_bits A) by lia.
  destruct (compress5 A Hw (SHA1_step (SHA1_schedule (firstn 16 b)))
    (fun i => nth i (schedule_ A (zops (word_bits A)) b) 0) st) as [O E].
  - exact Hs.
  - lia.
  - rewrite Er. reflexivity.
  - intros v r Hr [Lv Ov]. destruct v as [|a [|b' [|c [|d [|e [|]]]]]]; try discriminate.
    repeat match goal with HF : Forall _ (_ :: _) |- _ => inversion HF; subst; clear HF end.
    destruct (schedule_nth A next Hn b r Hb ltac:(lia) Hr) as [_ Es].
    rewrite Es. clear Es. unfold SHA1_step, step5.
    rewrite Er. change (80 - 16)%nat with 64%nat.
    change (SHA1_schedule (firstn 16 b)) with (expand next 64 (firstn 16 b)).
    rewrite HK, <- k160_eq, nth_map_seq by (rewrite <- Er; exact Hr).
    rewrite Ew in *.
    assert (F : functor (zops 32) r b' c d = SHA1_f r b' c d).
    { unfold functor, SHA1_f. rewrite Er in Hr.
      destruct (Nat.ltb_spec r 20) as [C|C]; [rewrite (Nat.div_small r 20) by exact C; apply choice_Ch; (lia || assumption)|].
      destruct (Nat.ltb_spec r 40) as [C2|C2].
      { replace (r / 20)%nat with 1%nat by (apply (Nat.div_unique r 20 1 (r - 20)); lia). reflexivity. }
      destruct (Nat.ltb_spec r 60) as [C3|C3].
      { replace (r / 20)%nat with 2%nat by (apply (Nat.div_unique r 20 2 (r - 40)); lia). apply majority_Maj. }
      replace (r / 20)%nat with 3%nat by (apply (Nat.div_unique r 20 3 (r - 60)); lia). reflexivity. }
    rewrite F. cbv zeta.
    change (wrol (zops 32)) with (fun n x => rotr 32 (32 - n) x). cbv beta.
    rewrite (rol_ROTL 32 5), (rol_ROTL 32 30) by lia.
    change (wadd (zops 32)) with (fun a b => (a + b) mod 2 ^ 32). cbv beta.
    f_equal. set (W := nth r (expand next 64 _) 0). clearbody W. sums 32.
  - exact Hst.
  - rewrite Er in O. rewrite Er in E. unfold mix1. rewrite <- Ew. split; [exact E|].
    apply (sum_words_ok A Hw); [exact (proj1 O)|exact (proj1 Hst)].
Qed.

Lemma sha160_implements : implements sha160 mix1.
Proof. apply sha1_implements; reflexivity. Qed.

Lemma sha2_implements A P : strength A <> 160 -> 0 < word_bits A -> word_bits A = bits P -> rounds A = steps P ->
  (rounds A mod 8 = 0)%nat -> (16 <= rounds A)%nat ->
  (forall x, sigma0 A (zops (word_bits A)) x = sigma_0 P x) ->
  (forall x, sigma1 A (zops (word_bits A)) x = sigma_1 P x) ->
  (forall x, word (word_bits A) x -> Sigma0 A (zops (word_bits A)) x = SIGMA0 P x) ->
  (forall x, word (word_bits A) x -> Sigma1 A (zops (word_bits A)) x = SIGMA1 P x) ->
  (forall t, (t < rounds A)%nat -> nth t (K A) 0 = SHA2_K (bits P) t) ->
  implements A (mix2 P).
Proof.
  intros Hs Hw Ew Er H8 H16 s0 s1 S0 S1 HK s8 st b Hst Hb.
  assert (N : state_words A = 8%nat).
  { unfold state_words. destruct (Z.eqb_spec (strength A) 160); [contradiction|reflexivity]. }
  rewrite N in *.
  rewrite schedule_sigma by assumption.
  set (next := fun W => let add := ADD (bits P) in
    add (add (add (sigma_1 P (back W 2)) (back W 7)) (sigma_0 P (back W 15))) (back W 16)).
  assert (Hn : forall l, (16 <= length l)%nat -> next l = next_of A l (length l)).
  { intros l Hl. unfold next, next_of, back. cbv zeta.
    replace (strength A =? 160) with false by (symmetry; apply Z.eqb_neq; exact Hs).
    rewrite s0, s1, Ew. sums (bits P). }
  unfold compress.
  destruct (compress8 A Hw (SHA2_step P (SHA2_schedule P (firstn 16 b)))
    (fun i => nth i (schedule_ A (zops (word_bits A)) b) 0) st) as [O E].
  - exact Hs.
  - exact H8.
  - intros v r Hr [Lv Ov]. destruct v as [|a [|b' [|c [|d [|e [|f [|g [|h [|]]]]]]]]]; try discriminate.
    repeat match goal with HF : Forall _ (_ :: _) |- _ => inversion HF; subst; clear HF end.
    destruct (schedule_nth A next Hn b r Hb H16 Hr) as [_ Es].
    rewrite Es. clear Es. unfold SHA2_step, step8. cbv zeta. rewrite Er at 1 2.
    change (SHA2_schedule P (firstn 16 b)) with (expand next (steps P - 16) (firstn 16 b)).
    rewrite HK by exact Hr. rewrite S0, S1 by assumption.
    set (W := nth r (expand next (steps P - 16) (firstn 16 b)) 0). clearbody W.
    replace (choice (zops (word_bits A)) e f g) with (Ch (bits P) e f g)
      by (rewrite <- Ew; symmetry; apply choice_Ch; assumption).
    replace (majority (zops (word_bits A)) a b' c) with (Maj a b' c) by (symmetry; apply majority_Maj).
    rewrite Ew. change (wadd (zops (bits P))) with (fun a b => (a + b) mod 2 ^ (bits P)). cbv beta.
    assert (C : forall (x x' y y' : Z) l1 l2, x = x' -> y = y' -> x :: l1 ++ y :: l2 = x' :: l1 ++ y' :: l2)
      by (intros; subst; reflexivity).
    apply (C _ _ _ _ [a; b'; c] [e; f; g]).
    + sums (bits P).
    + sums (bits P).
  - exact Hst.
  - rewrite Er in E, O. unfold mix2. rewrite <- Ew. split; [exact E|].
    apply (sum_words_ok A Hw); [exact (proj1 O)|exact (proj1 Hst)].
Qed.

Lemma sha256_implements : implements sha256 (mix2 SHA256_params).
Proof.
  apply sha2_implements; try reflexivity; try (cbn; lia).
  - intros x Hx. apply (Sigma_SIGMA 32); (lia || exact Hx).
  - intros x Hx. apply (Sigma_SIGMA 32); (lia || exact Hx).
  - intros t Ht. change (K sha256) with k256. rewrite <- k256_eq. apply nth_map_seq. exact Ht.
Qed.
Lemma sha512_implements : implements sha512 (mix2 SHA512_params).
Proof.
  apply sha2_implements; try reflexivity; try (cbn; lia).
  - intros x Hx. apply (Sigma_SIGMA 64); (lia || exact Hx).
  - intros x Hx. apply (Sigma_SIGMA 64); (lia || exact Hx).
  - intros t Ht. change (K sha512) with k512. rewrite <- k512_eq. apply nth_map_seq. exact Ht.
Qed.
