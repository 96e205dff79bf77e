(** The scalar schedule and compression of the SHA model are those of FIPS 180-4. *)
From Coq Require Import PeanoNat.
From Verif Require Import Base Bytes MathModel BitProofs BechProofs ShaModel ShaSpec ShaProofs.

Section Lists.
Context {X : Type}.
Lemma upd_length i (v : X) l : (i < length l)%nat -> length (upd i v l) = length l.
Proof.
  intros H. unfold upd. rewrite app_length. cbn [length]. rewrite firstn_length, skipn_length. lia.
Qed.
Lemma upd_nth i (v : X) l j d : (i < length l)%nat -> nth j (upd i v l) d = if Nat.eqb j i then v else nth j l d.
Proof.
  intros H. unfold upd. destruct (Nat.eqb_spec j i) as [->|N].
  - rewrite app_nth2, firstn_length, Nat.min_l by (rewrite ?firstn_length; lia).
    rewrite Nat.sub_diag. reflexivity.
  - destruct (Nat.lt_ge_cases j i).
    + rewrite app_nth1 by (rewrite firstn_length; lia).
      rewrite <- (firstn_skipn i l) at 2. rewrite app_nth1 by (rewrite firstn_length; lia). reflexivity.
    + rewrite app_nth2 by (rewrite firstn_length; lia). rewrite firstn_length, Nat.min_l by lia.
      destruct (j - i)%nat as [|k] eqn:E; [lia|]. cbn [nth].
      rewrite <- (firstn_skipn (S i) l) at 2. rewrite app_nth2 by (rewrite firstn_length; lia).
      rewrite firstn_length, Nat.min_l by lia. f_equal. lia.
Qed.
Lemma upd_firstn i (v : X) l : (i < length l)%nat -> firstn (S i) (upd i v l) = firstn i l ++ [v].
Proof.
  intros H. unfold upd. rewrite firstn_app, firstn_length, Nat.min_l by lia.
  replace (S i - i)%nat with 1%nat by lia. f_equal.
  rewrite firstn_all2; [reflexivity|]. rewrite firstn_length. lia.
Qed.
Lemma firstn_nth n (l : list X) j d : (j < n)%nat -> nth j (firstn n l) d = nth j l d.
Proof.
  intros H. destruct (Nat.lt_ge_cases j (length l)) as [L|L].
  - rewrite <- (firstn_skipn n l) at 2. rewrite app_nth1; [reflexivity|]. rewrite firstn_length. lia.
  - rewrite !nth_overflow; rewrite ?firstn_length; try lia. reflexivity.
Qed.
Lemma write_at_length i (v l : list X) : (i + length v <= length l)%nat -> length (write_at i v l) = length l.
Proof. intros H. unfold write_at. rewrite !app_length, firstn_length, skipn_length. lia. Qed.
Lemma write_at_nth i (v l : list X) j d : (i + length v <= length l)%nat ->
  nth j (write_at i v l) d = if (i <=? j)%nat && (j <? i + length v)%nat then nth (j - i) v d else nth j l d.
Proof.
  intros H. unfold write_at. destruct (Nat.leb_spec i j), (Nat.ltb_spec j (i + length v)); cbn [andb].
  - rewrite app_nth2 by (rewrite firstn_length; lia). rewrite firstn_length, Nat.min_l by lia.
    rewrite app_nth1 by lia. reflexivity.
  - rewrite app_nth2 by (rewrite firstn_length; lia). rewrite firstn_length, Nat.min_l by lia.
    rewrite app_nth2 by lia. rewrite <- (firstn_skipn (i + length v) l) at 2.
    rewrite app_nth2 by (rewrite firstn_length; lia). rewrite firstn_length, Nat.min_l by lia. f_equal. lia.
  - rewrite app_nth1 by (rewrite firstn_length; lia). apply firstn_nth. lia.
  - rewrite app_nth1 by (rewrite firstn_length; lia). apply firstn_nth. lia.
Qed.
Lemma list_ext (a b : list X) d : length a = length b -> (forall i, (i < length a)%nat -> nth i a d = nth i b d) -> a = b.
Proof. intros L E. apply (nth_ext a b d d L). exact E. Qed.
End Lists.

(** * Message schedule *)
Section Schedule.
Variable A : sha.
Notation w := (word_bits A).
Notation W := (zops w).
Variable next : list Z -> Z.
(** What the model's expansion computes at position [r]. *)
Definition next_of (b : list Z) (r : nat) : Z :=
  if strength A =? 160
  then wrol W 1 (Z.lxor (Z.lxor (nth (r - 16) b 0) (nth (r - 14) b 0)) (Z.lxor (nth (r - 8) b 0) (nth (r - 3) b 0)))
  else ((nth (r - 16) b 0 + sigma0 A W (nth (r - 15) b 0)) mod 2 ^ w
        + (nth (r - 7) b 0 + sigma1 A W (nth (r - 2) b 0)) mod 2 ^ w) mod 2 ^ w.
Hypothesis Hnext : forall l, (16 <= length l)%nat -> next l = next_of l (length l).

Lemma prepare_upd b r : prepare A W b r = upd r (next_of b r) b.
Proof using. reflexivity. Qed.

Lemma next_of_firstn b r : (16 <= r <= length b)%nat -> next_of b r = next (firstn r b).
Proof using Hnext.
  intros H. rewrite Hnext by (rewrite firstn_length; lia).
  rewrite firstn_length, Nat.min_l by lia. unfold next_of.
  rewrite !(firstn_nth r b) by lia. reflexivity.
Qed.

Lemma prepare_expand k : forall n b, (16 <= n)%nat -> (n + k <= length b)%nat ->
  length (fold_left (prepare A W) (seq n k) b) = length b /\
  firstn (n + k) (fold_left (prepare A W) (seq n k) b) = expand next k (firstn n b).
Proof using Hnext.
  induction k as [|k IH]; intros n b Hn Hl; cbn [seq fold_left expand].
  - rewrite Nat.add_0_r. split; reflexivity.
  - rewrite prepare_upd. destruct (IH (S n) (upd n (next_of b n) b)) as [L E].
    + lia.
    + rewrite upd_length by lia. lia.
    + rewrite upd_length in L by lia. split; [exact L|].
      replace (n + S k)%nat with (S n + k)%nat by lia. rewrite E, upd_firstn by lia.
      rewrite next_of_firstn by lia. reflexivity.
Qed.

Lemma expand_length k : forall l, length (expand next k l) = (length l + k)%nat.
Proof using.
  clear Hnext. induction k as [|k IH]; intros l; cbn [expand]; [lia|]. rewrite IH, app_length. cbn [length]. lia.
Qed.

Lemma konstant_nth k : forall n b i, (n + k <= length b)%nat ->
  let b' := fold_left (fun b r => upd r (wadd W (at_ W b r) (wbroadcast W (nth r (K A) 0))) b) (seq n k) b in
  length b' = length b /\
  nth i b' 0 = if (n <=? i)%nat && (i <? n + k)%nat then (nth i b 0 + nth i (K A) 0) mod 2 ^ w else nth i b 0.
Proof using.
  clear. induction k as [|k IH]; intros n b i Hl; cbn [seq fold_left]; cbv zeta.
  - split; [reflexivity|]. destruct (Nat.leb_spec n i), (Nat.ltb_spec i (n + 0)); try lia; reflexivity.
  - set (v := wadd W (at_ W b n) (wbroadcast W (nth n (K A) 0))).
    destruct (IH (S n) (upd n v b) i) as [L E].
    + rewrite upd_length by lia. lia.
    + cbv zeta in L, E. rewrite upd_length in L by lia. split; [exact L|]. rewrite E, upd_nth by lia.
      destruct (Nat.eqb_spec i n) as [->|N].
      * replace ((S n <=? n)%nat) with false by (symmetry; apply Nat.leb_gt; lia).
        replace ((n <=? n)%nat) with true by (symmetry; apply Nat.leb_le; lia).
        replace ((n <? n + S k)%nat) with true by (symmetry; apply Nat.ltb_lt; lia). reflexivity.
      * destruct (Nat.leb_spec (S n) i), (Nat.leb_spec n i), (Nat.ltb_spec i (S n + k)), (Nat.ltb_spec i (n + S k));
          cbn [andb]; try lia; reflexivity.
Qed.

(** The scheduled buffer: word [t] plus constant [t]. *)
Lemma schedule_nth b t : length b = rounds A -> (16 <= rounds A)%nat -> (t < rounds A)%nat ->
  length (schedule_ A W b) = rounds A /\
  nth t (schedule_ A W b) 0 =
    (nth t (expand next (rounds A - 16) (firstn 16 b)) 0 + nth t (K A) 0) mod 2 ^ w.
Proof using Hnext.
  intros Hl H16 Ht. unfold schedule_, konstant.
  destruct (prepare_expand (rounds A - 16) 16 b) as [L E]; [lia|lia|].
  pose proof (konstant_nth (rounds A) 0 (fold_left (prepare A W) (seq 16 (rounds A - 16)) b) t) as C.
  cbv zeta in C. destruct C as [L' E']; [lia|]. split; [lia|]. rewrite E'.
  replace (0 <=? t)%nat with true by (symmetry; apply Nat.leb_le; lia).
  replace (t <? 0 + rounds A)%nat with true by (symmetry; apply Nat.ltb_lt; lia). cbn [andb].
  rewrite <- E. replace (16 + (rounds A - 16))%nat with (rounds A) by lia.
  rewrite firstn_all2 by lia. reflexivity.
Qed.
End Schedule.

(** * Eight sigma0 at once (algorithm_sigma.ipp) *)
Section Sigma8.
Variable A : sha.
Notation w := (word_bits A).
Notation W := (zops w).
Hypothesis Hs : strength A <> 160.

Lemma xsigma0 x0 x1 x2 x3 x4 x5 x6 x7 :
  sigma0 A (lops w 8) [x0; x1; x2; x3; x4; x5; x6; x7] = map (sigma0 A W) [x0; x1; x2; x3; x4; x5; x6; x7].
Proof using. clear. unfold sigma0, sigma. destruct (strength A =? 256); reflexivity. Qed.

Lemma prepare_8_eq r b : (16 <= r)%nat -> (r + 8 <= length b)%nat ->
  prepare_8 A b r = fold_left (prepare A W) (seq r 8) b.
Proof using Hs.
  intros Hr Hl. unfold prepare_8. cbn [seq map]. rewrite xsigma0.
  set (xs := map (sigma0 A W) _).
  assert (Hx : forall o, (o < 8)%nat -> nth o xs 0 = sigma0 A W (nth (r - 15 + o) b 0)).
  { intros o Ho. do 8 (destruct o as [|o]; [reflexivity|]). lia. }
  clearbody xs.
  assert (Main : forall k o b', (o + k = 8)%nat -> length b' = length b ->
    (forall j, (j < 8)%nat -> nth (r - 15 + j) b' 0 = nth (r - 15 + j) b 0) ->
    fold_left (prepare_1 A r xs) (seq o k) b' = fold_left (prepare A W) (seq (r + o) k) b').
  { induction k as [|k IH]; intros o b' Ho L E; [reflexivity|]. cbn [seq fold_left].
    assert (P : prepare_1 A r xs b' o = prepare A W b' (r + o)).
    { rewrite prepare_upd. unfold prepare_1. f_equal. unfold next_of.
      replace (strength A =? 160) with false by (symmetry; apply Z.eqb_neq; exact Hs).
      rewrite Hx by lia. rewrite <- (E o) by lia.
      replace (r - 16 + o)%nat with (r + o - 16)%nat by lia. replace (r - 15 + o)%nat with (r + o - 15)%nat by lia.
      replace (r - 7 + o)%nat with (r + o - 7)%nat by lia. replace (r - 2 + o)%nat with (r + o - 2)%nat by lia.
      reflexivity. }
    rewrite P. replace (S (r + o)) with (r + S o)%nat by lia. apply IH.
    - lia.
    - rewrite prepare_upd, upd_length by lia. exact L.
    - intros j Hj. rewrite prepare_upd, upd_nth by lia.
      replace (Nat.eqb (r - 15 + j) (r + o)) with false by (symmetry; apply Nat.eqb_neq; lia). apply E. exact Hj. }
  specialize (Main 8%nat 0%nat b eq_refl eq_refl (fun _ _ => eq_refl)).
  rewrite Nat.add_0_r in Main. cbn [seq] in Main. exact Main.
Qed.

Lemma prepare_groups m : forall r b, (16 <= r)%nat -> (r + 8 * m <= length b)%nat ->
  fold_left (prepare_8 A) (map (fun i => r + 8 * i)%nat (seq 0 m)) b = fold_left (prepare A W) (seq r (8 * m)) b.
Proof using Hs.
  induction m as [|m IH]; intros r b Hr Hl; [reflexivity|].
  cbn [seq map fold_left]. replace (r + 8 * 0)%nat with r by lia.
  rewrite prepare_8_eq by lia.
  replace (8 * S m)%nat with (8 + 8 * m)%nat by lia. rewrite seq_app, fold_left_app.
  rewrite <- IH.
  - f_equal. rewrite <- seq_shift, map_map. apply map_ext. intros i. lia.
  - lia.
  - assert (L : forall k n c, (n + k <= length c)%nat -> length (fold_left (prepare A W) (seq n k) c) = length c).
    { clear. induction k as [|k IH]; intros n c H; [reflexivity|]. cbn [seq fold_left].
      rewrite prepare_upd. rewrite IH; rewrite upd_length; lia. }
    rewrite L by lia. lia.
Qed.
End Sigma8.

Lemma schedule_sigma A s8 b : length b = rounds A -> (rounds A mod 8 = 0)%nat -> (16 <= rounds A)%nat ->
  schedule A s8 b = schedule_ A (zops (word_bits A)) b.
Proof.
  intros L M H. unfold schedule. destruct s8; [|reflexivity].
  destruct (Z.eqb_spec (strength A) 160) as [E|E]; [reflexivity|]. cbn [andb negb].
  unfold schedule_. f_equal.
  assert (D : (8 * ((rounds A - 16) / 8) = rounds A - 16)%nat).
  { pose proof (Nat.div_mod (rounds A) 8 ltac:(lia)). rewrite M in H0.
    replace (rounds A - 16)%nat with ((rounds A / 8 - 2) * 8)%nat by lia. rewrite Nat.div_mul by lia. lia. }
  rewrite (prepare_groups A E) by lia. rewrite D. reflexivity.
Qed.
