(** The lanes of poly1305 against Horner's rule. *)
From Coq Require Import PeanoNat.
From Verif Require Import Base Bytes ShaModel PolySpec PolyModel PolyProofs.

Notation B26 := 67108864 (only parsing).
Notation T26 := 67117056 (only parsing).
Notation U26 := 134225920 (only parsing).
Notation D1 := 225221370000000000 (only parsing).

Definition horner (r h : Z) (ns : list Z) : Z := fold_left (fun h n => (h + n) * r) ns h.
Lemma horner_app r h a b : horner r h (a ++ b) = horner r (horner r h a) b.
Proof. apply fold_left_app. Qed.
Lemma horner_cons r h n ns : horner r h (n :: ns) = horner r ((h + n) * r) ns.
Proof. reflexivity. Qed.
Lemma horner_add r ns : forall h, horner r h ns = h * r ^ len ns + horner r 0 ns.
Proof.
  induction ns as [|n ns IH]; intros h.
  - unfold horner, len. cbn [fold_left length]. change (r ^ Z.of_nat 0) with 1. lia.
  - rewrite !horner_cons, (IH ((h + n) * r)), (IH ((0 + n) * r)). unfold len. cbn [length].
    rewrite Nat2Z.inj_succ, Z.pow_succ_r by lia. ring.
Qed.
Lemma horner_cong r h h' ns : cong h h' -> cong (horner r h ns) (horner r h' ns).
Proof. intros [k ->]. rewrite (horner_add r ns (h' + _)), (horner_add r ns h'). exists (k * r ^ len ns). ring. Qed.
Lemma horner_cong2 r ns ms : Forall2 cong ns ms -> forall h, cong (horner r h ns) (horner r h ms).
Proof.
  induction 1 as [|n m ns ms C F IH]; intros h; [apply cong_refl|]. rewrite !horner_cons. eapply cong_trans; [apply IH|].
  apply horner_cong. apply cong_mul; [apply cong_add; [apply cong_refl|exact C]|apply cong_refl].
Qed.
Lemma horner_linear r c : forall a m, length a = length m ->
  horner r 0 (zip_with (fun x n => x * c + n) a m) = horner r 0 a * c + horner r 0 m.
Proof.
  induction a as [|x a IH]; intros [|n m] L; cbn [length] in L; try discriminate; [unfold horner, zip_with; cbn; lia|].
  unfold zip_with in *. cbn [combine map fst snd]. rewrite !horner_cons.
  rewrite (horner_add r _ ((0 + (x * c + n)) * r)), (horner_add r a), (horner_add r m), IH by lia.
  replace (len (map (fun p => fst p * c + snd p) (combine a m))) with (len a) by (unfold len; rewrite map_length, combine_length; lia).
  replace (len m) with (len a) by (unfold len; lia). ring.
Qed.

Lemma add_limbs_ok a b M N : within M a -> within N b -> M + N <= 2 ^ 63 ->
  value (add_limbs a b) = value a + value b /\ within (M + N - 1) (add_limbs a b).
Proof.
  intros (A0 & A1 & A2 & A3 & A4) (B0 & B1 & B2 & B3 & B4) H. change (2 ^ 63) with 9223372036854775808 in H.
  unfold add_limbs, value, within. cbn [l0 l1 l2 l3 l4].
  rewrite !add64_fits by (rewrite pow64; lia). split; [ring|lia].
Qed.
Definition sums (l : list limbs) : Z := fold_right (fun x s => value x + s) 0 l.
Lemma sum_fold xd : forall x M, within M x -> Forall (within (D1 + 1)) xd -> M + len xd * D1 <= 2 ^ 62 + 1 ->
  value (fold_left add_limbs xd x) = value x + sums xd /\ within (2 ^ 62 + 1) (fold_left add_limbs xd x).
Proof.
  induction xd as [|y xd IH]; intros x M Hx F Hl; cbn [fold_left sums fold_right].
  - split; [lia|]. unfold within in *. change (len (@nil limbs)) with 0 in Hl. lia.
  - pose proof (Forall_inv F) as Fy. pose proof (Forall_inv_tail F) as F'.
    assert (E : len (y :: xd) = len xd + 1) by (unfold len; cbn [length]; lia). rewrite E in Hl. pose proof (len_nonneg xd).
    destruct (add_limbs_ok x y M (D1 + 1) Hx Fy) as [V W]; [change (2 ^ 62) with 4611686018427387904 in *; change (2 ^ 63) with 9223372036854775808; lia|].
    destruct (IH (add_limbs x y) (M + (D1 + 1) - 1) W F') as [V' W']; [lia|].
    split; [|exact W']. rewrite V'. unfold sums in *. lia.
Qed.

Section Key.
Variable r : limbs.
Hypothesis Hr : within T26 r.
Notation R := (value r).
Definition times5 (r : limbs) : limbs := Limbs (l0 r * 5) (l1 r * 5) (l2 r * 5) (l3 r * 5) (l4 r * 5).
Lemma step_word a w : within U26 a -> within T26 w ->
  cong (value (reduce mul_word (multiply mul_word a w (times5 w)))) (value a * value w) /\ tight (reduce mul_word (multiply mul_word a w (times5 w))).
Proof using.
  clear. intros Ha Hw. destruct (multiply_ok mul_word mul_word_ok a w (times5 w) Ha Hw eq_refl) as [C W].
  destruct (reduce_word (multiply mul_word a w (times5 w))) as [C' T'].
  - unfold within in *. change (2 ^ 62) with 4611686018427387904. lia.
  - split; [eapply cong_trans; [exact C'|exact C]|exact T'].
Qed.
Lemma step_lane a w : within U26 a -> within T26 w ->
  cong (value (reduce mul_lane (multiply mul_lane a w (times5 w)))) (value a * value w) /\ tight (reduce mul_lane (multiply mul_lane a w (times5 w))).
Proof using.
  clear. intros Ha Hw. destruct (multiply_ok mul_lane mul_lane_ok a w (times5 w) Ha Hw eq_refl) as [C W].
  destruct (reduce_lane _ W) as [C' T']. split; [eapply cong_trans; [exact C'|exact C]|exact T'].
Qed.
Lemma within_wider h M N : within M h -> M <= N -> within N h.
Proof using. clear. unfold within. lia. Qed.

(** The ladder of powers. *)
Definition power_of (w : limbs) (e : nat) : Prop := within T26 w /\ cong (value w) (R ^ Z.of_nat e).
Lemma ladder_ok count : (1 <= count)%nat -> Forall2 power_of (ladder count r (times5 r)) (seq 1 count) /\
  power_of (last (ladder count r (times5 r)) r) count.
Proof using Hr.
  intros Hc. unfold ladder. replace (seq 1 count) with (seq 1 (S (count - 1))) by (f_equal; lia).
  replace count with (S (count - 1)) at 4 by lia. generalize (count - 1)%nat. clear count Hc.
  induction n as [|n [IH IL]].
  - cbn [seq fold_left last]. assert (P1 : power_of r 1) by (split; [exact Hr|change (Z.of_nat 1) with 1; rewrite Z.pow_1_r; apply cong_refl]).
    split; [|exact P1]. constructor; [exact P1|constructor].
  - rewrite (seq_S n 1), fold_left_app. cbn [fold_left]. set (l := fold_left _ (seq 1 n) [r]) in *.
    destruct IL as [WL CL]. destruct (step_word (last l r) r) as [C T]; [apply (within_wider _ _ _ WL); lia|exact Hr|].
    assert (P1 : power_of (reduce mul_word (multiply mul_word (last l r) r (times5 r))) (S (S n))).
    { split; [apply tight_within; exact T|]. eapply cong_trans; [exact C|]. eapply cong_trans; [apply cong_mul; [exact CL|apply cong_refl]|].
      rewrite (Nat2Z.inj_succ (S n)), Z.pow_succ_r by lia. rewrite Z.mul_comm. apply cong_refl. }
    split.
    + rewrite (seq_S (S n) 1). apply Forall2_app; [exact IH|]. constructor; [exact P1|constructor].
    + rewrite last_last. exact P1.
Qed.
Lemma Forall2_rev {A B} (Q : A -> B -> Prop) a b : Forall2 Q a b -> Forall2 Q (rev a) (rev b).
Proof using. clear. induction 1; cbn [rev]; [constructor|]. apply Forall2_app; [assumption|]. constructor; [assumption|constructor]. Qed.
(** Each lane to its remaining power. *)
Lemma descend_ok : forall n a ws, length a = n -> Forall (within U26) a -> Forall2 power_of ws (rev (seq 1 n)) ->
  let xd := zip_with (fun a w => multiply mul_lane a w (scale mul_lane w)) a ws in
  Forall (within (D1 + 1)) xd /\ length xd = n /\ cong (sums xd) (horner R 0 (map value a)).
Proof using Hr.
  induction n as [|n IH]; intros a ws L F P; cbv zeta.
  - destruct a; [|discriminate]. split; [constructor|]. split; [reflexivity|apply cong_refl].
  - destruct a as [|x a]; [discriminate|]. rewrite seq_S, rev_app_distr in P. cbn [rev app Nat.add] in P.
    inversion P as [|w e ws' es [Ww Cw] P' E1 E2]; subst. pose proof (Forall_inv F) as Fx. pose proof (Forall_inv_tail F) as F'.
    destruct (IH a ws') as (F2 & L2 & C2); [cbn [length] in L; lia|exact F'|exact P'|]. unfold zip_with in *. cbn [combine map fst snd].
    rewrite (scale_ok mul_lane mul_lane_ok w Ww). fold (times5 w).
    destruct (multiply_ok mul_lane mul_lane_ok x w (times5 w) Fx Ww eq_refl) as [C W].
    split; [constructor; [exact W|exact F2]|]. split; [cbn [length]; rewrite L2; reflexivity|].
    cbn [sums fold_right]. rewrite horner_cons, horner_add. apply cong_add; [|exact C2].
    eapply cong_trans; [exact C|]. eapply cong_trans; [apply cong_mul; [apply cong_refl|exact Cw]|].
    replace (len (map value a)) with (Z.of_nat n) by (unfold len; rewrite map_length; cbn [length] in L; lia).
    change (1 + n)%nat with (S n). rewrite Nat2Z.inj_succ, Z.pow_succ_r by lia. rewrite Z.add_0_l, Z.mul_assoc. apply cong_refl.
Qed.

Variable hibit : Z.
Definition num (b : list Z) : Z := le_value b + hibit * 2 ^ 104.
Definition loads (b : list Z) : Prop := within B26 (load_limbs b hibit) /\ value (load_limbs b hibit) = num b.
Lemma groups_ok count rn : (1 <= count)%nat -> power_of rn count -> forall fuel a bs,
  length a = count -> Forall (within U26) a -> Forall loads bs -> exists done rest,
  bs = done ++ rest /\ exists a', groups fuel count hibit rn (times5 rn) a bs = (a', rest) /\ length a' = count /\ Forall (within U26) a' /\
  cong (horner R 0 (map value a')) (horner R (horner R 0 (map value a)) (map num done)).
Proof using Hr.
  intros Hc [Wn Cn]. induction fuel as [|fuel IH]; intros a bs La Fa Fb.
  - exists [], bs. split; [reflexivity|]. exists a. cbn [groups]. repeat split; try assumption. apply cong_refl.
  - cbn [groups]. destruct (Nat.leb_spec count (length bs)) as [Le|Lt].
    2:{ exists [], bs. split; [reflexivity|]. exists a. repeat split; try assumption. apply cong_refl. }
    set (m := firstn count bs). set (a1 := map (fun x => reduce mul_lane (multiply mul_lane x rn (times5 rn))) a).
    assert (Lm : length m = count) by (unfold m; rewrite firstn_length; lia).
    assert (Fm : Forall loads m) by (apply Forall_forall; intros x Hx; rewrite Forall_forall in Fb; apply Fb; unfold m in Hx; rewrite <- (firstn_skipn count bs); apply in_or_app; left; exact Hx).
    assert (G : forall a m, length a = length m -> Forall (within U26) a -> Forall loads m ->
      let a2 := zip_with add_limbs (map (fun x => reduce mul_lane (multiply mul_lane x rn (times5 rn))) a) (load hibit m) in
      length a2 = length a /\ Forall (within U26) a2 /\
      Forall2 cong (map value a2) (zip_with (fun x n => x * R ^ Z.of_nat count + n) (map value a) (map num m))).
    { clear - Wn Cn. induction a as [|x a IH]; intros [|b m] L F1 F2; cbn [length] in L; try discriminate; cbv zeta.
      - repeat split; constructor.
      - pose proof (Forall_inv F1) as Fx. pose proof (Forall_inv F2) as [Wb Vb].
        destruct (IH m) as (L2 & W2 & C2); [lia|apply (Forall_inv_tail F1)|apply (Forall_inv_tail F2)|].
        destruct (step_lane x rn Fx Wn) as [C T]. unfold zip_with, load in *. cbn [map combine fst snd length].
        destruct (add_limbs_ok (reduce mul_lane (multiply mul_lane x rn (times5 rn))) (load_limbs b hibit) T26 B26 (tight_within _ T) Wb) as [V W];
          [change (2 ^ 63) with 9223372036854775808; lia|].
        split; [rewrite L2; reflexivity|]. split; [constructor; [apply (within_wider _ _ _ W); lia|exact W2]|].
        constructor; [|exact C2]. rewrite V, Vb. apply cong_add; [|apply cong_refl]. eapply cong_trans; [exact C|].
        apply cong_mul; [apply cong_refl|exact Cn]. }
    destruct (G a m ltac:(lia) Fa Fm) as (L2 & W2 & C2). cbv zeta in *. fold a1 in L2, W2, C2.
    destruct (IH (zip_with add_limbs a1 (load hibit m)) (skipn count bs)) as (done & rest & Eb & a' & Eg & La' & Fa' & C').
    + lia.
    + exact W2.
    + apply Forall_forall; intros x Hx; rewrite Forall_forall in Fb; apply Fb. rewrite <- (firstn_skipn count bs). apply in_or_app. right. exact Hx.
    + exists (m ++ done), rest. split; [rewrite <- app_assoc, <- Eb; unfold m; symmetry; apply firstn_skipn|].
      exists a'. repeat split; try assumption. eapply cong_trans; [exact C'|]. rewrite map_app, horner_app. apply horner_cong.
      eapply cong_trans; [apply (horner_cong2 R _ _ C2)|]. rewrite horner_linear by (rewrite !map_length; lia).
      rewrite (horner_add R (map num m) (horner R 0 (map value a))). replace (len (map num m)) with (Z.of_nat count) by (unfold len; rewrite map_length; lia). apply cong_refl.
Qed.
Lemma xblocks_ok count bs h : (1 <= count <= 8)%nat -> tight h -> Forall loads bs ->
  exists done rest h', bs = done ++ rest /\ xblocks count hibit r (times5 r) (bs, h) = (rest, h') /\ tight h' /\
  cong (value h') (horner R (value h) (map num done)).
Proof using Hr.
  intros Hc Hh Fb. unfold xblocks. destruct (Nat.leb_spec (2 * count) (length bs)) as [Le|Lt].
  2:{ exists [], bs, h. repeat split; try assumption; try apply Hh. apply cong_refl. }
  destruct (ladder_ok count ltac:(lia)) as [FL PL]. set (lad := ladder count r (times5 r)) in *. cbv zeta.
  rewrite (scale_ok mul_lane mul_lane_ok (last lad r) (proj1 PL)). fold (times5 (last lad r)).
  destruct (firstn count bs) as [|b0 m] eqn:Em.
  { apply (f_equal (@length _)) in Em. rewrite firstn_length in Em. cbn [length] in Em. lia. }
  assert (Eb : bs = (b0 :: m) ++ skipn count bs) by (rewrite <- Em; symmetry; apply firstn_skipn).
  assert (Lm : length (b0 :: m) = count) by (rewrite <- Em, firstn_length; lia).
  assert (Fm : Forall loads (b0 :: m) /\ Forall loads (skipn count bs)) by (rewrite Eb in Fb; apply Forall_app in Fb; exact Fb).
  destruct Fm as [Fm Fs]. unfold load at 1. cbn [map].
  pose proof (Forall_inv Fm) as [W0 V0]. pose proof (Forall_inv_tail Fm) as Fm'.
  destruct (add_limbs_ok h (load_limbs b0 hibit) T26 B26 (tight_within _ Hh) W0) as [Va Wa]; [change (2 ^ 63) with 9223372036854775808; lia|].
  assert (G : Forall (within U26) (map (fun b => load_limbs b hibit) m) /\ map value (map (fun b => load_limbs b hibit) m) = map num m).
  { clear - Fm'. induction Fm' as [|b m [W V] F [I1 I2]]; cbn [map]; [split; [constructor|reflexivity]|].
    split; [constructor; [apply (within_wider _ _ _ W); lia|exact I1]|]. rewrite V, I2. reflexivity. }
  destruct G as [G1 G2]. set (a0 := add_limbs h (load_limbs b0 hibit) :: map (fun b => load_limbs b hibit) m).
  assert (Fa0 : Forall (within U26) a0) by (constructor; [apply (within_wider _ _ _ Wa); lia|exact G1]).
  destruct (groups_ok count (last lad r) ltac:(lia) PL (length bs) a0 (skipn count bs)) as (done & rest & Es & a' & Eg & La' & Fa' & C').
  - unfold a0. cbn [length] in *. rewrite map_length. exact Lm.
  - exact Fa0.
  - exact Fs.
  - rewrite Eg. destruct (descend_ok count a' (rev lad) La' Fa' (Forall2_rev _ _ _ FL)) as (Fx & Lx & Cx). cbv zeta in *.
    set (xd := zip_with _ a' (rev lad)) in *.
    assert (SV : cong (value (reduce mul_word (sum_limbs xd))) (sums xd) /\ tight (reduce mul_word (sum_limbs xd))).
    { unfold sum_limbs. destruct xd as [|y xd]; [cbn [length] in Lx; lia|].
      destruct (sum_fold xd y (D1 + 1) (Forall_inv Fx) (Forall_inv_tail Fx)) as [V W].
      { change (2 ^ 62) with 4611686018427387904. unfold len. cbn [length] in Lx. lia. }
      destruct (reduce_word _ W) as [C T]. rewrite V in C. split; [exact C|exact T]. }
    destruct SV as [SC ST]. exists ((b0 :: m) ++ done), rest, (reduce mul_word (sum_limbs xd)).
    split; [rewrite <- app_assoc, <- Es; exact Eb|]. split; [reflexivity|]. split; [exact ST|].
    eapply cong_trans; [exact SC|]. eapply cong_trans; [exact Cx|]. eapply cong_trans; [exact C'|].
    rewrite map_app, horner_app. unfold a0. cbn [map]. rewrite !horner_cons, G2, Va, V0, Z.add_0_l. apply cong_refl.
Qed.
Theorem blocks_ok widths bs h : Forall (fun c => (1 <= c <= 8)%nat) widths -> tight h -> Forall loads bs ->
  cong (value (blocks widths hibit r h bs)) (horner R (value h) (map num bs)) /\ tight (blocks widths hibit r h bs).
Proof using Hr.
  intros Fw Hh Fb. unfold blocks. cbv zeta. rewrite (scale_ok mul_word mul_word_ok r Hr). fold (times5 r).
  assert (N : forall h, tight h -> narrow h = h).
  { intros [x0 x1 x2 x3 x4] Ht. unfold tight in Ht. cbn [l0 l1 l2 l3 l4] in Ht. unfold narrow. cbn [l0 l1 l2 l3 l4].
    change (2 ^ 32) with 4294967296. rewrite !Z.mod_small by lia. reflexivity. }
  assert (Sc : forall bs h, tight h -> Forall loads bs ->
    let h' := fold_left (fun h b => reduce mul_word (multiply mul_word (add_limbs h (load_limbs b hibit)) r (times5 r))) bs h in
    cong (value h') (horner R (value h) (map num bs)) /\ tight h').
  { clear h bs Hh Fb. induction bs as [|b bs IH]; intros h Hh F; cbv zeta; cbn [fold_left map]; [split; [apply cong_refl|exact Hh]|].
    pose proof (Forall_inv F) as [Wb Vb]. destruct (add_limbs_ok h (load_limbs b hibit) T26 B26 (tight_within _ Hh) Wb) as [V W];
      [change (2 ^ 63) with 9223372036854775808; lia|].
    destruct (step_word (add_limbs h (load_limbs b hibit)) r) as [C T]; [apply (within_wider _ _ _ W); lia|exact Hr|].
    destruct (IH _ T (Forall_inv_tail F)) as [C' T']. split; [|exact T'].
    eapply cong_trans; [exact C'|]. rewrite horner_cons. apply horner_cong. rewrite V, Vb in C. exact C. }
  assert (Wd : forall widths bs h, Forall (fun c => (1 <= c <= 8)%nat) widths -> tight h -> Forall loads bs ->
    exists done rest h', bs = done ++ rest /\ fold_left (fun st count => xblocks count hibit r (times5 r) st) widths (bs, h) = (rest, h') /\
    tight h' /\ cong (value h') (horner R (value h) (map num done))).
  { clear - Hr. induction widths as [|c widths IH]; intros bs h Fw Hh Fb; cbn [fold_left].
    - exists [], bs, h. repeat split; try apply Hh. apply cong_refl.
    - destruct (xblocks_ok c bs h (Forall_inv Fw) Hh Fb) as (d1 & r1 & h1 & E1 & X1 & T1 & C1). rewrite X1.
      rewrite E1 in Fb. apply Forall_app in Fb. destruct Fb as [_ Fb].
      destruct (IH r1 h1 (Forall_inv_tail Fw) T1 Fb) as (d2 & r2 & h2 & E2 & X2 & T2 & C2).
      exists (d1 ++ d2), r2, h2. split; [rewrite <- app_assoc, <- E2; exact E1|]. split; [exact X2|]. split; [exact T2|].
      rewrite map_app, horner_app. eapply cong_trans; [exact C2|]. apply horner_cong. exact C1. }
  destruct (Wd widths bs h Fw Hh Fb) as (done & rest & h' & E & X & T & C). rewrite X.
  rewrite E in Fb. apply Forall_app in Fb. destruct Fb as [_ Fr].
  destruct (Sc rest h' T Fr) as [C' T']. rewrite N by exact T'. split; [|exact T'].
  rewrite E, map_app, horner_app. eapply cong_trans; [exact C'|]. apply horner_cong. exact C.
Qed.
End Key.
