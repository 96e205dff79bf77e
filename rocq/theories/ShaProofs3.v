(** The in-place rounds of the SHA model are the steps of FIPS 180-4. *)
From Coq Require Import PeanoNat.
From Verif Require Import Base Bytes MathModel BitProofs BechProofs ShaModel ShaSpec ShaProofs ShaProofs2.

(** * The rotating state *)
Lemma index_mod (R n r i : nat) : (0 < n)%nat -> (R mod n = 0)%nat -> (r <= R)%nat ->
  ((R + i - r) mod n = (n + i - r mod n) mod n)%nat.
Proof.
  intros Hn HR Hr. pose proof (Nat.div_mod R n ltac:(lia)) as DR. pose proof (Nat.div_mod r n ltac:(lia)) as Dr.
  pose proof (Nat.mod_upper_bound r n ltac:(lia)) as Br. rewrite HR in DR.
  assert (Q : (r / n <= R / n)%nat) by (apply Nat.div_le_mono; lia).
  assert (E : (R + i - r + n * 1 = (n + i - r mod n) + n * (R / n - r / n))%nat).
  { rewrite Nat.mul_sub_distr_l. assert ((n * (r / n) <= n * (R / n))%nat) by (apply Nat.mul_le_mono_l; exact Q). lia. }
  rewrite <- (Nat.mod_add (R + i - r) 1 n) by lia.
  rewrite <- (Nat.mod_add (n + i - r mod n) (R / n - r / n) n) by lia.
  f_equal. lia.
Qed.

Definition view (n q : nat) (s : list Z) : list Z := map (fun i => nth ((n + i - q) mod n) s 0) (seq 0 n).

Lemma view_0 n s : length s = n -> (0 < n)%nat -> view n 0 s = s.
Proof.
  intros L Hn. apply (list_ext _ _ 0).
  - unfold view. rewrite map_length, seq_length. symmetry. exact L.
  - intros i Hi. unfold view in *. rewrite map_length, seq_length in Hi.
    rewrite (nth_indep _ 0 (nth ((n + 0 - 0) mod n) s 0)) by (rewrite map_length, seq_length; exact Hi).
    rewrite (map_nth (fun i => nth ((n + i - 0) mod n) s 0)), seq_nth by lia.
    cbn [Nat.add]. f_equal. replace (n + i - 0)%nat with (i + 1 * n)%nat by lia.
    rewrite Nat.mod_add by lia. apply Nat.mod_small. exact Hi.
Qed.

Lemma S_mod n r : (0 < n)%nat -> (S r mod n = if Nat.eqb (S (r mod n)) n then 0 else S (r mod n))%nat.
Proof.
  intros Hn. pose proof (Nat.mod_upper_bound r n ltac:(lia)) as B.
  pose proof (Nat.div_mod r n ltac:(lia)) as D.
  destruct (Nat.eqb_spec (S (r mod n)) n) as [E|E].
  - symmetry. apply (Nat.mod_unique _ _ (S (r / n))); [lia|]. nia.
  - symmetry. apply (Nat.mod_unique _ _ (r / n)); lia.
Qed.

Section Round.
Variable A : sha.
Notation w := (word_bits A).
Notation W := (zops w).
Hypothesis Hw : 0 < w.

(** The step on the working variables, as the model orders its additions. *)
Definition step8 (v : list Z) (wk : Z) : list Z :=
  match v with
  | [a; b; c; d; e; f; g; h] =>
    let t := wadd W (wadd W (wadd W (Sigma1 A W e) (choice W e f g)) h) wk in
    [wadd W (wadd W (Sigma0 A W a) (majority W a b c)) t; a; b; c; wadd W d t; e; f; g]
  | _ => v
  end.
Definition step5 (r : nat) (v : list Z) (wk : Z) : list Z :=
  match v with
  | [a; b; c; d; e] =>
    [wadd W (wadd W (wadd W (wrol W 5 a) (functor W r b c d)) e) wk; a; wrol W 30 b; c; d]
  | _ => v
  end.

Lemma round8 r s wk : state_words A = 8%nat -> (rounds A mod 8 = 0)%nat -> (r < rounds A)%nat -> length s = 8%nat ->
  view 8 (S r mod 8) (round256 A W r s wk) = step8 (view 8 (r mod 8) s) wk /\ length (round256 A W r s wk) = 8%nat.
Proof using.
  clear Hw. intros N R Hr L. unfold round256, index. rewrite N.
  assert (I : forall i, ((rounds A + i - r) mod 8 = (8 + i - r mod 8) mod 8)%nat) by (intros; apply index_mod; lia).
  rewrite !I. clear I.
  rewrite S_mod by lia. pose proof (Nat.mod_upper_bound r 8 ltac:(lia)) as B.
  set (q := (r mod 8)%nat) in *. clearbody q.
  do 8 (destruct s as [|? s]; [discriminate|]). destruct s; [|discriminate].
  do 8 (destruct q as [|q]; [split; reflexivity|]). lia.
Qed.

Lemma round5 r s wk : state_words A = 5%nat -> (rounds A mod 5 = 0)%nat -> (r < rounds A)%nat -> length s = 5%nat ->
  view 5 (S r mod 5) (round160 A W r s wk) = step5 r (view 5 (r mod 5) s) wk /\ length (round160 A W r s wk) = 5%nat.
Proof using.
  clear Hw. intros N R Hr L. unfold round160, index. rewrite N.
  assert (I : forall i, ((rounds A + i - r) mod 5 = (5 + i - r mod 5) mod 5)%nat) by (intros; apply index_mod; lia).
  rewrite !I. clear I.
  rewrite S_mod by lia. pose proof (Nat.mod_upper_bound r 5 ltac:(lia)) as B.
  set (q := (r mod 5)%nat) in *. clearbody q.
  unfold step5. set (F := functor W r). clearbody F.
  do 5 (destruct s as [|? s]; [discriminate|]). destruct s; [|discriminate].
  do 5 (destruct q as [|q]; [split; reflexivity|]). lia.
Qed.

(** Folding the rounds keeps the view in step with the working variables. *)
Lemma rounds_view n (rnd : nat -> list Z -> Z -> list Z) (step : list Z -> nat -> list Z) (ok : list Z -> Prop) (wk : nat -> Z) :
  (0 < n)%nat ->
  (forall r s, (r < rounds A)%nat -> length s = n -> ok (view n (r mod n) s) ->
     view n (S r mod n) (rnd r s (wk r)) = step (view n (r mod n) s) r /\
     length (rnd r s (wk r)) = n /\ ok (step (view n (r mod n) s) r)) ->
  forall k r s, (r + k <= rounds A)%nat -> length s = n -> ok (view n (r mod n) s) ->
  let s' := fold_left (fun s r => rnd r s (wk r)) (seq r k) s in
  view n ((r + k) mod n) s' = fold_left step (seq r k) (view n (r mod n) s) /\ length s' = n /\
  ok (view n ((r + k) mod n) s').
Proof using.
  clear Hw. intros Hn Hstep. induction k as [|k IH]; intros r s Hr L O; cbn [seq fold_left]; cbv zeta.
  - rewrite Nat.add_0_r. repeat split; assumption.
  - destruct (Hstep r s ltac:(lia) L O) as (E1 & L1 & O1).
    specialize (IH (S r) (rnd r s (wk r)) ltac:(lia) L1).
    rewrite E1 in IH. specialize (IH O1). cbv zeta in IH.
    replace (r + S k)%nat with (S r + k)%nat by lia. exact IH.
Qed.

Definition words_ok (n : nat) (v : list Z) : Prop := length v = n /\ Forall (word w) v.

Lemma zops_words :
  (forall a b, word w (wadd W a b)) /\ (forall n a, 0 <= n <= w -> word w a -> word w (wrol W n a)).
Proof using Hw.
  split; intros.
  - apply word_add. exact Hw.
  - apply word_rotr; [exact Hw|lia|assumption].
Qed.

Lemma view_length n q s : length (view n q s) = n.
Proof using. clear. unfold view. rewrite map_length, seq_length. reflexivity. Qed.

Lemma compress8 (step : list Z -> nat -> list Z) (wk : nat -> Z) st :
  strength A <> 160 -> (rounds A mod 8 = 0)%nat ->
  (forall v r, (r < rounds A)%nat -> words_ok 8 v -> step v r = step8 v (wk r)) ->
  words_ok 8 st ->
  let v := fold_left step (seq 0 (rounds A)) st in
  words_ok 8 v /\ compress_ A W st wk = sum_words w v st.
Proof using Hw.
  intros Hs HR Hstep [L O].
  assert (N : state_words A = 8%nat).
  { unfold state_words. destruct (Z.eqb_spec (strength A) 160); [contradiction|reflexivity]. }
  pose proof (rounds_view 8 (round256 A W) step (words_ok 8) wk ltac:(lia)) as V.
  assert (V1 : forall r s, (r < rounds A)%nat -> length s = 8%nat -> words_ok 8 (view 8 (r mod 8) s) ->
     view 8 (S r mod 8) (round256 A W r s (wk r)) = step (view 8 (r mod 8) s) r /\
     length (round256 A W r s (wk r)) = 8%nat /\ words_ok 8 (step (view 8 (r mod 8) s) r)).
  { intros r s Hr Ls Os. destruct (round8 r s (wk r) N HR Hr Ls) as [E1 E2].
    rewrite (Hstep _ r Hr Os). split; [exact E1|]. split; [exact E2|].
    destruct Os as [_ Os]. destruct (view 8 (r mod 8) s) as [|a [|b [|c [|d [|e [|f [|g [|h [|]]]]]]]]] eqn:Ev;
      try (pose proof (view_length 8 (r mod 8) s) as VL; rewrite Ev in VL; discriminate).
    destruct zops_words as [ZA _]. unfold step8. cbv zeta.
    repeat match goal with HF : Forall _ (_ :: _) |- _ => inversion HF; subst; clear HF end.
    split; [reflexivity|]. repeat (apply Forall_cons; [first [apply ZA|assumption]|]). apply Forall_nil. }
  specialize (V V1 (rounds A) 0%nat st ltac:(lia) L).
  rewrite Nat.mod_0_l in V by lia. rewrite view_0 in V by (assumption || lia).
  specialize (V (conj L O)). cbv zeta in V. destruct V as (V2 & V3 & V4).
  cbn [Nat.add] in V2, V4. rewrite HR in V2, V4.
  rewrite (view_0 8 _ V3) in V2, V4 by lia. cbv zeta. rewrite <- V2. split; [exact V4|].
  unfold compress_, summarize.
  replace (fold_left (fun s r => round A W r s (wk r)) (seq 0 (rounds A)) st)
    with (fold_left (fun s r => round256 A W r s (wk r)) (seq 0 (rounds A)) st).
  - set (v := fold_left _ _ _). clearbody v. clear.
    revert st. induction v as [|x v IH]; intros st; [reflexivity|]. destruct st as [|y st]; [reflexivity|].
    cbn [map2 sum_words]. rewrite IH. reflexivity.
  - unfold round. destruct (Z.eqb_spec (strength A) 160); [contradiction|reflexivity].
Qed.

Lemma compress5 (step : list Z -> nat -> list Z) (wk : nat -> Z) st :
  strength A = 160 -> 30 <= w -> (rounds A mod 5 = 0)%nat ->
  (forall v r, (r < rounds A)%nat -> words_ok 5 v -> step v r = step5 r v (wk r)) ->
  words_ok 5 st ->
  let v := fold_left step (seq 0 (rounds A)) st in
  words_ok 5 v /\ compress_ A W st wk = sum_words w v st.
Proof using Hw.
  intros Hs H30 HR Hstep [L O].
  assert (N : state_words A = 5%nat) by (unfold state_words; rewrite Hs; reflexivity).
  pose proof (rounds_view 5 (round160 A W) step (words_ok 5) wk ltac:(lia)) as V.
  assert (V1 : forall r s, (r < rounds A)%nat -> length s = 5%nat -> words_ok 5 (view 5 (r mod 5) s) ->
     view 5 (S r mod 5) (round160 A W r s (wk r)) = step (view 5 (r mod 5) s) r /\
     length (round160 A W r s (wk r)) = 5%nat /\ words_ok 5 (step (view 5 (r mod 5) s) r)).
  { intros r s Hr Ls Os. destruct (round5 r s (wk r) N HR Hr Ls) as [E1 E2].
    rewrite (Hstep _ r Hr Os). split; [exact E1|]. split; [exact E2|].
    destruct Os as [_ Os]. destruct (view 5 (r mod 5) s) as [|a [|b [|c [|d [|e [|]]]]]] eqn:Ev;
      try (pose proof (view_length 5 (r mod 5) s) as VL; rewrite Ev in VL; discriminate).
    destruct zops_words as [ZA ZR]. unfold step5.
    repeat match goal with HF : Forall _ (_ :: _) |- _ => inversion HF; subst; clear HF end.
    split; [reflexivity|].
    repeat (apply Forall_cons; [first [apply ZA|apply ZR; [lia|assumption]|assumption]|]). apply Forall_nil. }
  specialize (V V1 (rounds A) 0%nat st ltac:(lia) L).
  rewrite Nat.mod_0_l in V by lia. rewrite view_0 in V by (assumption || lia).
  specialize (V (conj L O)). cbv zeta in V. destruct V as (V2 & V3 & V4).
  cbn [Nat.add] in V2, V4. rewrite HR in V2, V4.
  rewrite (view_0 5 _ V3) in V2, V4 by lia. cbv zeta. rewrite <- V2. split; [exact V4|].
  unfold compress_, summarize.
  replace (fold_left (fun s r => round A W r s (wk r)) (seq 0 (rounds A)) st)
    with (fold_left (fun s r => round160 A W r s (wk r)) (seq 0 (rounds A)) st).
  - set (v := fold_left _ _ _). clearbody v. clear.
    revert st. induction v as [|x v IH]; intros st; [reflexivity|]. destruct st as [|y st]; [reflexivity|].
    cbn [map2 sum_words]. rewrite IH. reflexivity.
  - unfold round. rewrite Hs. reflexivity.
Qed.

Lemma sum_words_ok n a b : length a = n -> length b = n -> words_ok n (sum_words w a b).
Proof using Hw.
  revert n b. induction a as [|x a IH]; intros n b La Lb; destruct b as [|y b]; cbn [length] in *; subst n; try discriminate.
  - split; [reflexivity|apply Forall_nil].
  - destruct (IH (length a) b eq_refl ltac:(lia)) as [I1 I2]. cbn [sum_words]. split.
    + cbn [length]. rewrite I1. reflexivity.
    + apply Forall_cons; [apply word_add; exact Hw|exact I2].
Qed.
End Round.
