(** ChaCha20 of the model against RFC 8439: the block function, scalar and vector. *)
From Coq Require Import PeanoNat.
From Verif Require Import Base Bytes ShaModel ShaSpec ShaProofs ShaProofs2 ShaProofs5 ShaProofs6 AccModel AccProofs RmdModel RmdSpec RmdProofs RmdProofs2
  KdfProofs2 ScryptProofs ChachaSpec ChachaModel.

(** * The rounds *)
Section Quarter.
Context {X : Type}.
Variable W : wops X.
Definition QRw (q : X * X * X * X) : X * X * X * X :=
  let '(a, b, c, d) := q in
  let a := wadd W a b in let d := wrol W 16 (wxor W d a) in
  let c := wadd W c d in let b := wrol W 12 (wxor W b c) in
  let a := wadd W a b in let d := wrol W 8 (wxor W d a) in
  let c := wadd W c d in let b := wrol W 7 (wxor W b c) in
  (a, b, c, d).
Lemma columns_w x0 x1 x2 x3 x4 x5 x6 x7 x8 x9 x10 x11 x12 x13 x14 x15 :
  fold_left (quarter W) column_quarters [x0; x1; x2; x3; x4; x5; x6; x7; x8; x9; x10; x11; x12; x13; x14; x15] =
  (let '(x0, x4, x8, x12) := QRw (x0, x4, x8, x12) in
   let '(x1, x5, x9, x13) := QRw (x1, x5, x9, x13) in
   let '(x2, x6, x10, x14) := QRw (x2, x6, x10, x14) in
   let '(x3, x7, x11, x15) := QRw (x3, x7, x11, x15) in
   [x0; x1; x2; x3; x4; x5; x6; x7; x8; x9; x10; x11; x12; x13; x14; x15]).
Proof. reflexivity. Qed.
Lemma diagonals_w x0 x1 x2 x3 x4 x5 x6 x7 x8 x9 x10 x11 x12 x13 x14 x15 :
  fold_left (quarter W) diagonal_quarters [x0; x1; x2; x3; x4; x5; x6; x7; x8; x9; x10; x11; x12; x13; x14; x15] =
  (let '(x0, x5, x10, x15) := QRw (x0, x5, x10, x15) in
   let '(x1, x6, x11, x12) := QRw (x1, x6, x11, x12) in
   let '(x2, x7, x8, x13) := QRw (x2, x7, x8, x13) in
   let '(x3, x4, x9, x14) := QRw (x3, x4, x9, x14) in
   [x0; x1; x2; x3; x4; x5; x6; x7; x8; x9; x10; x11; x12; x13; x14; x15]).
Proof. reflexivity. Qed.
Lemma summate_w (x y : list X) : length x = 16%nat -> length y = 16%nat ->
  fold_left (summate W y) (seq 0 16) x = map (fun p => wadd W (fst p) (snd p)) (combine x y).
Proof.
  intros La Lb. do 16 (destruct x as [|? x]; [discriminate|]). destruct x; [|discriminate].
  do 16 (destruct y as [|? y]; [discriminate|]). destruct y; [|discriminate]. reflexivity.
Qed.
End Quarter.
Lemma QRw_z q : QRw (zops 32) q = QR q.
Proof. destruct q as [[[a b] c] d]. unfold QRw, QR. cbv zeta. rewrite !wrol_rol. reflexivity. Qed.
Lemma double_ok20 x : length x = 16%nat -> double_round (zops 32) x = inner_block x.
Proof.
  intros L. unfold double_round, inner_block. rewrite fold_left_app.
  assert (C : fold_left (quarter (zops 32)) column_quarters x = columns x).
  { do 16 (destruct x as [|? x]; [discriminate|]). destruct x; [|discriminate]. rewrite columns_w, !QRw_z. unfold columns. cbn [nth]. reflexivity. }
  rewrite C.
  assert (Lc : length (columns x) = 16%nat).
  { unfold columns. cbv zeta. repeat match goal with |- context [QR ?q] => destruct (QR q) as [[[? ?] ?] ?] end. reflexivity. }
  clear C L. revert Lc. generalize (columns x). clear. intros x L.
  do 16 (destruct x as [|? x]; [discriminate|]). destruct x; [|discriminate]. rewrite diagonals_w, !QRw_z. unfold diagonals. cbn [nth]. reflexivity.
Qed.
Lemma inner_length x : length (inner_block x) = 16%nat.
Proof.
  unfold inner_block. generalize (columns x). clear. intros x. unfold diagonals. cbv zeta.
  repeat match goal with |- context [QR ?q] => destruct (QR q) as [[[? ?] ?] ?] end. reflexivity.
Qed.
Local Opaque inner_block double_round.
Definition scalar_block (x : list Z) : list Z := map (fun p => plus (fst p) (snd p)) (combine (Nat.iter 10 inner_block x) x).
Lemma iter10_length x : length x = 16%nat -> length (Nat.iter 10 inner_block x) = 16%nat.
Proof. intros L. apply (iter_ind (fun y => length y = 16%nat)); [exact L|intros; apply inner_length]. Qed.
Lemma rounds_ok x : length x = 16%nat -> chacha_rounds (zops 32) x = scalar_block x.
Proof.
  intros L. unfold chacha_rounds, scalar_block. rewrite (fold_iter (double_round (zops 32))), seq_length.
  rewrite (iter_ext (fun y => length y = 16%nat) _ inner_block 10 x L) by (intros y Ly; split; [apply double_ok20; exact Ly|apply inner_length]).
  pose proof (iter10_length x L) as L10. set (z := Nat.iter 10 inner_block x) in *. clearbody z.
  rewrite summate_w by assumption. reflexivity.
Qed.
Lemma scalar_length x : length x = 16%nat -> length (scalar_block x) = 16%nat.
Proof.
  intros L. unfold scalar_block. rewrite map_length, combine_length, iter10_length, L by exact L. reflexivity.
Qed.
Lemma plus_range a b : 0 <= plus a b < 2 ^ 32.
Proof. unfold plus, ADD. apply Z.mod_pos_bound. lia. Qed.
Lemma scalar_words x : Forall (fun w => 0 <= w < 2 ^ 32) (scalar_block x).
Proof. unfold scalar_block. apply Forall_forall. intros w H. apply in_map_iff in H. destruct H as (p & <- & _). apply plus_range. Qed.

(** * Lanes *)
Section Lane.
Variables (n j : nat).
Hypothesis Hj : (j < n)%nat.
Lemma lane_add a b c d : lane n j a b -> lane n j c d -> lane n j (wadd (lops 32 n) a c) (wadd (zops 32) b d).
Proof using Hj. intros. apply (map2_lane (wadd (zops 32))); assumption. Qed.
Lemma lane_xor a b c d : lane n j a b -> lane n j c d -> lane n j (wxor (lops 32 n) a c) (wxor (zops 32) b d).
Proof using Hj. intros. apply (map2_lane (wxor (zops 32))); assumption. Qed.
Lemma lane_rol s a b : lane n j a b -> lane n j (wrol (lops 32 n) s a) (wrol (zops 32) s b).
Proof using Hj. intros. apply (map_lane (wrol (zops 32) s)); assumption. Qed.
Lemma lane_at (a : list (list Z)) b i : Forall2 (lane n j) a b -> lane n j (at_ (lops 32 n) a i) (at_ (zops 32) b i).
Proof using Hj. intros H. apply R_at; [|exact H]. intros c. apply repeat_lane. exact Hj. Qed.
Lemma lane_quarter (a : list (list Z)) b q : Forall2 (lane n j) a b -> Forall2 (lane n j) (quarter (lops 32 n) a q) (quarter (zops 32) b q).
Proof using Hj.
  intros H. destruct q as [[[qa qb] qc] qd]. unfold quarter.
  cbv zeta.
  repeat first [ assumption | apply (R_upd (lane n j)) | apply lane_add | apply lane_rol | apply lane_xor | apply lane_at ].
Qed.
Local Transparent double_round.
Lemma lane_double (a : list (list Z)) b : Forall2 (lane n j) a b -> Forall2 (lane n j) (double_round (lops 32 n) a) (double_round (zops 32) b).
Proof using Hj. intros H. unfold double_round. apply (R_fold (Forall2 (lane n j))); [|exact H]. intros. apply lane_quarter. assumption. Qed.
Local Opaque double_round.
Lemma lane_rounds (a : list (list Z)) b : Forall2 (lane n j) a b -> Forall2 (lane n j) (chacha_rounds (lops 32 n) a) (chacha_rounds (zops 32) b).
Proof using Hj.
  intros H. unfold chacha_rounds. apply (R_fold (Forall2 (lane n j))).
  - intros p q i F. unfold summate. apply (R_upd (lane n j)); [|exact F]. apply lane_add; apply lane_at; assumption.
  - apply (R_fold (Forall2 (lane n j))); [|exact H]. intros. apply lane_double. assumption.
Qed.
End Lane.

(** * Transposition *)
Definition matrix {X} (g : nat -> nat -> X) (rows columns : nat) : list (list X) :=
  map (fun i => map (g i) (seq 0 columns)) (seq 0 rows).
Lemma sequences_matrix {X} (g : nat -> nat -> X) lanes : lanes = 4%nat \/ lanes = 8%nat \/ lanes = 16%nat ->
  concat (sequences lanes (matrix g 16 lanes)) = concat (map (fun j => map (fun i => g i j) (seq 0 16)) (seq 0 lanes)).
Proof. intros [->|[->| ->]]; vm_compute; reflexivity. Qed.
Lemma map_seq_nth {X} (l : list X) d n : length l = n -> map (fun i => nth i l d) (seq 0 n) = l.
Proof.
  intros L. apply (list_ext _ _ d); [rewrite map_length, seq_length; lia|]. intros i H. rewrite map_length, seq_length in H.
  rewrite (nth_indep _ d ((fun i => nth i l d) 0%nat)) by (rewrite map_length, seq_length; exact H).
  rewrite (map_nth (fun i => nth i l d)), seq_nth by exact H. reflexivity.
Qed.
Lemma matrix_eq (x : list (list Z)) n : length x = 16%nat -> Forall (fun v => length v = n) x ->
  x = matrix (fun i j => nth j (nth i x []) 0) 16 n.
Proof.
  intros L F. unfold matrix. rewrite <- (map_seq_nth x [] 16 L) at 1. apply map_ext_in. intros i H. apply in_seq in H.
  symmetry. apply map_seq_nth. rewrite Forall_forall in F. apply F. apply nth_In. lia.
Qed.
(** xnext is the concatenation of the scalar blocks at the lanes' counters. *)
Lemma counters_lane n j counter : (j < n)%nat -> lane n j (counters n counter) ((counter + Z.of_nat j) mod 2 ^ 32).
Proof.
  intros H. unfold counters. apply (lane_add n j H); [apply repeat_lane; exact H|]. split; [rewrite map_length, seq_length; reflexivity|].
  rewrite (nth_indep _ 0 (Z.of_nat 0)) by (rewrite map_length, seq_length; exact H). rewrite map_nth, seq_nth by exact H. reflexivity.
Qed.
Lemma xstate_lane n j key nonce counter : (j < n)%nat ->
  Forall2 (lane n j) (xstate n key nonce counter) (sigma20 ++ key ++ [(counter + Z.of_nat j) mod 2 ^ 32] ++ nonce).
Proof.
  intros H. unfold xstate. rewrite (app_assoc sigma20 key).
  assert (B : forall l, Forall2 (lane n j) (map (fun w => repeat w n) l) l).
  { induction l as [|w l IH]; constructor; [apply repeat_lane; exact H|exact IH]. }
  apply Forall2_app; [apply B|]. apply Forall2_app; [|apply B]. constructor; [apply counters_lane; exact H|constructor].
Qed.
Lemma xnext_ok lanes key nonce counter : lanes = 4%nat \/ lanes = 8%nat \/ lanes = 16%nat -> length key = 8%nat -> length nonce = 3%nat ->
  concat (xnext lanes key nonce counter) =
  concat (map (fun j => scalar_block (sigma20 ++ key ++ [(counter + Z.of_nat j) mod 2 ^ 32] ++ nonce)) (seq 0 lanes)).
Proof.
  intros W Lk Ln. unfold xnext. set (x := chacha_rounds (lops 32 lanes) (xstate lanes key nonce counter)).
  assert (S16 : forall c, length (sigma20 ++ key ++ [c] ++ nonce) = 16%nat) by (intros; rewrite !app_length, Lk, Ln; reflexivity).
  assert (F : forall j, (j < lanes)%nat -> Forall2 (lane lanes j) x (scalar_block (sigma20 ++ key ++ [(counter + Z.of_nat j) mod 2 ^ 32] ++ nonce))).
  { intros j H. rewrite <- rounds_ok by apply S16. unfold x. apply lane_rounds; [exact H|]. apply xstate_lane. exact H. }
  assert (H0 : (0 < lanes)%nat) by lia.
  assert (Lx : length x = 16%nat) by (rewrite (F2_length _ _ _ (F 0%nat H0)); apply scalar_length; apply S16).
  assert (Fx : Forall (fun v : list Z => length v = lanes) x).
  { generalize (F 0%nat H0). clear. induction 1 as [|? ? ? ? [E _]]; constructor; assumption. }
  rewrite (matrix_eq x lanes Lx Fx) at 1. rewrite sequences_matrix by exact W. f_equal. apply map_ext_in. intros j Hj. apply in_seq in Hj.
  set (b := scalar_block _). assert (Fj : Forall2 (lane lanes j) x b) by (apply F; lia).
  assert (Lb : length b = 16%nat) by (apply scalar_length, S16).
  rewrite <- (map_seq_nth b 0 16 Lb). apply map_ext_in. intros i Hi. apply in_seq in Hi.
  clear -Fj Hi Lx. assert (Hi' : (i < length x)%nat) by lia. clear Hi Lx. revert i Hi'. induction Fj as [|v w x b [_ E] Fj IH]; intros [|i] H; cbn [length] in H; try lia; cbn [nth].
  - exact E.
  - apply IH. lia.
Qed.
