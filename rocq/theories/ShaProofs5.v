(** Vector forms: every lane of a vectorised schedule or compression is the
    scalar one (a logical relation between two word types), so hashing a group
    of blocks or of pairs together is hashing them one by one. *)
From Coq Require Import PeanoNat.
From Verif Require Import Base Bytes MathModel BitProofs BechProofs ShaModel ShaSpec ShaProofs ShaProofs2 ShaProofs3 ShaProofs4.

Section Related.
Variable A : sha.
Context {X Y : Type}.
Variables (U : wops X) (V : wops Y) (R : X -> Y -> Prop).
Hypothesis Radd : forall a b c d, R a b -> R c d -> R (wadd U a c) (wadd V b d).
Hypothesis Rand : forall a b c d, R a b -> R c d -> R (wand U a c) (wand V b d).
Hypothesis Ror : forall a b c d, R a b -> R c d -> R (wor U a c) (wor V b d).
Hypothesis Rxor : forall a b c d, R a b -> R c d -> R (wxor U a c) (wxor V b d).
Hypothesis Rshr : forall n a b, R a b -> R (wshr U n a) (wshr V n b).
Hypothesis Rror : forall n a b, R a b -> R (wror U n a) (wror V n b).
Hypothesis Rrol : forall n a b, R a b -> R (wrol U n a) (wrol V n b).
Hypothesis Rbroadcast : forall c, R (wbroadcast U c) (wbroadcast V c).

Lemma R_nth (a : list X) (b : list Y) i dx dy : Forall2 R a b -> R dx dy -> R (nth i a dx) (nth i b dy).
Proof using.
  intros H D. revert i. induction H as [|x y a b Hxy H IH]; intros [|i]; cbn [nth]; try assumption. apply IH.
Qed.
Lemma R_at a b i : Forall2 R a b -> R (at_ U a i) (at_ V b i).
Proof using Rbroadcast. intros H. unfold at_. apply R_nth; [exact H|apply Rbroadcast]. Qed.
Lemma F2_firstn {P Q} (T : P -> Q -> Prop) n a b : Forall2 T a b -> Forall2 T (firstn n a) (firstn n b).
Proof using. intros H. revert n. induction H; intros [|n]; cbn [firstn]; constructor; auto. Qed.
Lemma F2_skipn {P Q} (T : P -> Q -> Prop) n a b : Forall2 T a b -> Forall2 T (skipn n a) (skipn n b).
Proof using. intros H. revert n. induction H; intros [|n]; cbn [skipn]; try constructor; auto. Qed.
Lemma R_upd i x y a b : R x y -> Forall2 R a b -> Forall2 R (upd i x a) (upd i y b).
Proof using.
  intros H F. unfold upd. apply Forall2_app; [apply F2_firstn; exact F|]. constructor; [exact H|apply F2_skipn; exact F].
Qed.
Lemma R_fold {P Q C} (T : P -> Q -> Prop) (f : P -> C -> P) (g : Q -> C -> Q) l :
  (forall p q c, T p q -> T (f p c) (g q c)) -> forall p q, T p q -> T (fold_left f l p) (fold_left g l q).
Proof using. intros H. induction l as [|c l IH]; intros p q Hpq; cbn [fold_left]; [exact Hpq|]. apply IH. apply H. exact Hpq. Qed.

Lemma R_sigma a b c x y : R x y -> R (sigma U a b c x) (sigma V a b c y).
Proof using Rxor Rshr Rror. intros H. unfold sigma. auto. Qed.
Lemma R_Sigma a b c x y : R x y -> R (Sigma U a b c x) (Sigma V a b c y).
Proof using Rxor Rshr Rror. intros H. unfold Sigma. auto 10. Qed.
Lemma R_choice x x' y y' z z' : R x x' -> R y y' -> R z z' -> R (choice U x y z) (choice V x' y' z').
Proof using Rxor Rand. intros. unfold choice. auto. Qed.
Lemma R_majority x x' y y' z z' : R x x' -> R y y' -> R z z' -> R (majority U x y z) (majority V x' y' z').
Proof using Ror Rand. intros. unfold majority. auto. Qed.
Lemma R_parity x x' y y' z z' : R x x' -> R y y' -> R z z' -> R (parity U x y z) (parity V x' y' z').
Proof using Rxor. intros. unfold parity. auto. Qed.
Lemma R_functor r x x' y y' z z' : R x x' -> R y y' -> R z z' -> R (functor U r x y z) (functor V r x' y' z').
Proof using Rxor Ror Rand.
  intros. unfold functor. destruct (r / 20)%nat as [|[|[|]]];
    [apply R_choice|apply R_parity|apply R_majority|apply R_parity]; assumption.
Qed.

Lemma R_prepare a b r : Forall2 R a b -> Forall2 R (prepare A U a r) (prepare A V b r).
Proof using Radd Rxor Rshr Rror Rrol Rbroadcast.
  intros H. unfold prepare. apply R_upd; [|exact H]. destruct (strength A =? 160).
  - apply Rrol. repeat apply Rxor; apply R_at; exact H.
  - unfold sigma0, sigma1. destruct (strength A =? 256);
      repeat first [apply Radd | apply R_sigma | apply R_at; exact H].
Qed.
Lemma R_schedule a b : Forall2 R a b -> Forall2 R (schedule_ A U a) (schedule_ A V b).
Proof using Radd Rxor Rshr Rror Rrol Rbroadcast.
  intros H. unfold schedule_, konstant. apply (R_fold (Forall2 R)).
  - intros p q r F. apply R_upd; [|exact F]. apply Radd; [apply R_at; exact F|apply Rbroadcast].
  - apply (R_fold (Forall2 R)); [|exact H]. intros p q r F. apply R_prepare. exact F.
Qed.
Lemma R_round r a b x y : Forall2 R a b -> R x y -> Forall2 R (round A U r a x) (round A V r b y).
Proof using Radd Rand Ror Rxor Rshr Rror Rrol Rbroadcast.
  intros H Hx. unfold round. destruct (strength A =? 160).
  - unfold round160. cbv zeta. apply R_upd; [apply Rrol; apply R_at; exact H|].
    apply R_upd; [|exact H]. repeat apply Radd; try exact Hx; try (apply R_at; exact H).
    + apply Rrol. apply R_at. exact H.
    + apply R_functor; apply R_at; exact H.
  - unfold round256. cbv zeta.
    set (t := wadd U (wadd U (wadd U (Sigma1 A U _) _) _) x). set (t' := wadd V (wadd V (wadd V (Sigma1 A V _) _) _) y).
    assert (Ht : R t t').
    { unfold t, t'. repeat apply Radd; try exact Hx; try (apply R_at; exact H).
      - unfold Sigma1. destruct (strength A =? 256); apply R_Sigma; apply R_at; exact H.
      - apply R_choice; apply R_at; exact H. }
    apply R_upd.
    + apply Radd; [apply Radd|exact Ht].
      * unfold Sigma0. destruct (strength A =? 256); apply R_Sigma; apply R_at; exact H.
      * apply R_majority; apply R_at; exact H.
    + apply R_upd; [|exact H]. apply Radd; [apply R_at; exact H|exact Ht].
Qed.
Lemma R_map2 a b c d : Forall2 R a b -> Forall2 R c d -> Forall2 R (map2 (wadd U) a c) (map2 (wadd V) b d).
Proof using Radd.
  intros H. revert c d. induction H; intros c d Hc; cbn [map2]; [constructor|].
  destruct Hc; cbn [map2]; constructor; auto.
Qed.
Lemma R_compress a b wk wk' : Forall2 R a b -> (forall r, R (wk r) (wk' r)) ->
  Forall2 R (compress_ A U a wk) (compress_ A V b wk').
Proof using Radd Rand Ror Rxor Rshr Rror Rrol Rbroadcast.
  intros H Hw. unfold compress_, summarize. apply R_map2; [|exact H].
  apply (R_fold (Forall2 R)); [|exact H]. intros p q r F. apply R_round; [exact F|apply Hw].
Qed.
End Related.

(** * Lanes *)
Definition lane (n j : nat) (x : list Z) (y : Z) : Prop := length x = n /\ nth j x 0 = y.

Lemma map2_lane (f : Z -> Z -> Z) n j a b c d : (j < n)%nat ->
  lane n j a b -> lane n j c d -> lane n j (map2 f a c) (f b d).
Proof.
  intros Hj [La Ea] [Lc Ec]. subst b d. revert n a c Hj La Lc.
  induction j as [|j IH]; intros n a c Hj La Lc; destruct n as [|n]; try lia;
    destruct a as [|x a]; try discriminate; destruct c as [|y c]; try discriminate; cbn [map2].
  - split; [|reflexivity]. cbn [length] in *. f_equal.
    assert (H : forall (a c : list Z), length a = n -> length c = n -> length (map2 f a c) = n).
    { clear. induction n as [|n IH]; intros [|x a] [|y c] La Lc; try discriminate; [reflexivity|].
      cbn [map2 length] in *. f_equal. apply IH; lia. }
    apply H; lia.
  - cbn [length] in La, Lc. destruct (IH n a c) as [I1 I2]; [lia|lia|lia|]. split; [cbn [length]; rewrite I1; reflexivity|exact I2].
Qed.
Lemma map_lane (f : Z -> Z) n j a b : (j < n)%nat -> lane n j a b -> lane n j (map f a) (f b).
Proof.
  intros Hj [La Ea]. subst b. split; [rewrite map_length; exact La|].
  rewrite (nth_indep _ 0 (f 0)) by (rewrite map_length, La; exact Hj). apply map_nth.
Qed.
Lemma repeat_lane n j c : (j < n)%nat -> lane n j (repeat c n) c.
Proof.
  intros Hj. split; [apply repeat_length|]. rewrite (nth_indep _ 0 c) by (rewrite repeat_length; exact Hj). apply nth_repeat.
Qed.

Section Lanes.
Variable A : sha.
Notation w := (word_bits A).
Variables (n j : nat).
Hypothesis Hj : (j < n)%nat.
Lemma lane_schedule a b : Forall2 (lane n j) a b -> Forall2 (lane n j) (schedule_ A (lops w n) a) (schedule_ A (zops w) b).
Proof using Hj.
  intros H. apply R_schedule; try exact H; clear H; intros;
    first [ apply (map2_lane (wadd (zops w))); assumption | apply (map2_lane (wand (zops w))); assumption
    | apply (map2_lane (wor (zops w))); assumption | apply (map2_lane (wxor (zops w))); assumption
    | apply (map_lane (wshr (zops w) _)); assumption | apply (map_lane (wror (zops w) _)); assumption
    | apply (map_lane (wrol (zops w) _)); assumption | apply repeat_lane; exact Hj ].
Qed.
Lemma lane_compress a b wk wk' : Forall2 (lane n j) a b -> (forall r, lane n j (wk r) (wk' r)) ->
  Forall2 (lane n j) (compress_ A (lops w n) a wk) (compress_ A (zops w) b wk').
Proof using Hj.
  intros H Hk. apply R_compress; try exact H; try exact Hk; clear H Hk; intros;
    first [ apply (map2_lane (wadd (zops w))); assumption | apply (map2_lane (wand (zops w))); assumption
    | apply (map2_lane (wor (zops w))); assumption | apply (map2_lane (wxor (zops w))); assumption
    | apply (map_lane (wshr (zops w) _)); assumption | apply (map_lane (wror (zops w) _)); assumption
    | apply (map_lane (wrol (zops w) _)); assumption | apply repeat_lane; exact Hj ].
Qed.
End Lanes.
