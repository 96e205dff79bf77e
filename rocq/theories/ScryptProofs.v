(** scrypt of the model against RFC 7914. *)
From Coq Require Import PeanoNat Permutation.
From Verif Require Import Base Bytes ShaModel ShaSpec ShaProofs ShaProofs2 ShaProofs6 AccModel AccProofs RmdModel RmdSpec RmdProofs RmdProofs2
  KdfSpec KdfModel KdfProofs KdfProofs2 ScryptSpec ScryptModel.

(** * Salsa20/8 *)
Lemma salsa_op_eq x d a b n : salsa_op x (d, a, b, n) = upd d (XOR (nth d x 0) (rol n (plus (nth a x 0) (nth b x 0)))) x.
Proof. unfold salsa_op. rewrite wrol_rol. reflexivity. Qed.

Lemma quarter_ok a b c d x : length x = 16%nat -> (a < 16 /\ b < 16 /\ c < 16 /\ d < 16)%nat ->
  (a <> b /\ a <> c /\ a <> d /\ b <> c /\ b <> d /\ c <> d)%nat ->
  fold_left salsa_op [(b, a, d, 7); (c, b, a, 9); (d, c, b, 13); (a, d, c, 18)] x =
  (let '(z0, z1, z2, z3) := quarterround (nth a x 0, nth b x 0, nth c x 0, nth d x 0) in
   upd a z0 (upd d z3 (upd c z2 (upd b z1 x)))).
Proof.
  intros L (Ha & Hb & Hc & Hd) (N1 & N2 & N3 & N4 & N5 & N6). cbn [fold_left]. rewrite (salsa_op_eq x).
  unfold quarterround. set (z1 := XOR (nth b x 0) _). set (x1 := upd b z1 x).
  assert (L1 : length x1 = 16%nat) by (unfold x1; rewrite upd_length; lia).
  assert (V1 : forall j, nth j x1 0 = if Nat.eqb j b then z1 else nth j x 0) by (intros; apply upd_nth; lia).
  assert (Q : forall i j, i <> j -> Nat.eqb i j = false) by (intros; apply Nat.eqb_neq; assumption).
  rewrite (salsa_op_eq x1), !V1, Nat.eqb_refl, (Q c b), (Q a b) by congruence.
  set (z2 := XOR (nth c x 0) _). set (x2 := upd c z2 x1).
  assert (L2 : length x2 = 16%nat) by (unfold x2; rewrite upd_length; lia).
  assert (V2 : forall j, nth j x2 0 = if Nat.eqb j c then z2 else nth j x1 0) by (intros; apply upd_nth; lia).
  rewrite (salsa_op_eq x2), !V2, !V1, !Nat.eqb_refl, (Q d c), (Q d b), (Q b c) by congruence.
  set (z3 := XOR (nth d x 0) _). set (x3 := upd d z3 x2).
  assert (V3 : forall j, nth j x3 0 = if Nat.eqb j d then z3 else nth j x2 0) by (intros; apply upd_nth; lia).
  rewrite (salsa_op_eq x3), !V3, !V2, !V1, !Nat.eqb_refl, (Q a d), (Q a c), (Q a b), (Q c d) by congruence.
  reflexivity.
Qed.
Lemma fold_four (f : list Z -> nat * nat * nat * Z -> list Z) a b c d r x :
  fold_left f (a :: b :: c :: d :: r) x = fold_left f r (fold_left f [a; b; c; d] x).
Proof. reflexivity. Qed.
Ltac quarter_step a b c d :=
  match goal with |- fold_left salsa_op _ ?x = _ =>
    rewrite fold_four, (quarter_ok a b c d x) by (reflexivity || lia);
    cbn [nth];
    match goal with |- context [quarterround ?q] => destruct (quarterround q) as [[[? ?] ?] ?] end;
    cbn [upd firstn skipn app]
  end.
Lemma columns_ok x : length x = 16%nat -> fold_left salsa_op salsa_columns x = columnround x.
Proof.
  intros L. do 16 (destruct x as [|? x]; [discriminate|]). destruct x; [|discriminate]. unfold salsa_columns, columnround.
  cbn [nth].
  quarter_step 0%nat 4%nat 8%nat 12%nat. quarter_step 5%nat 9%nat 13%nat 1%nat.
  quarter_step 10%nat 14%nat 2%nat 6%nat. quarter_step 15%nat 3%nat 7%nat 11%nat. reflexivity.
Qed.
Lemma rows_ok x : length x = 16%nat -> fold_left salsa_op salsa_rows x = rowround x.
Proof.
  intros L. do 16 (destruct x as [|? x]; [discriminate|]). destruct x; [|discriminate]. unfold salsa_rows, rowround.
  cbn [nth].
  quarter_step 0%nat 1%nat 2%nat 3%nat. quarter_step 5%nat 6%nat 7%nat 4%nat.
  quarter_step 10%nat 11%nat 8%nat 9%nat. quarter_step 15%nat 12%nat 13%nat 14%nat. reflexivity.
Qed.
Lemma round_length x : length (rowround x) = 16%nat /\ length (columnround x) = 16%nat.
Proof.
  unfold rowround, columnround. cbv zeta.
  split; repeat match goal with |- context [quarterround ?q] => destruct (quarterround q) as [[[? ?] ?] ?] end; reflexivity.
Qed.
Lemma double_ok x : length x = 16%nat -> fold_left salsa_op (salsa_columns ++ salsa_rows) x = doubleround x.
Proof.
  intros L. rewrite fold_left_app, columns_ok by exact L. apply rows_ok. apply round_length.
Qed.
Lemma double_length x : length (doubleround x) = 16%nat.
Proof. apply (proj1 (round_length (columnround x))). Qed.
Local Opaque doubleround.
Lemma add_words_eq a b : length a = 16%nat -> length b = 16%nat ->
  add_words a b = map (fun p => plus (fst p) (snd p)) (combine a b).
Proof.
  intros La Lb. do 16 (destruct a as [|? a]; [discriminate|]). destruct a; [|discriminate].
  do 16 (destruct b as [|? b]; [discriminate|]). destruct b; [|discriminate]. reflexivity.
Qed.
Lemma fold_iter {A B} (f : A -> A) (l : list B) x : fold_left (fun x (_ : B) => f x) l x = Nat.iter (length l) f x.
Proof. revert x; induction l as [|b l IH]; intros x; [reflexivity|]. cbn [fold_left length]. rewrite IH.
  generalize (length l). intros n; induction n as [|n IHn]; [reflexivity|]. cbn [Nat.iter nat_rect] in *. unfold Nat.iter in *. cbn [nat_rect]. rewrite IHn. reflexivity. Qed.
Lemma iter_ind {A} (P : A -> Prop) (f : A -> A) n x : P x -> (forall y, P y -> P (f y)) -> P (Nat.iter n f x).
Proof. intros Px Pf. induction n as [|n IH]; [exact Px|]. apply Pf. exact IH. Qed.
Lemma iter_ext {A} (P : A -> Prop) (f g : A -> A) n x : P x -> (forall y, P y -> f y = g y /\ P (g y)) -> Nat.iter n f x = Nat.iter n g x.
Proof.
  intros Px H. induction n as [|n IH]; [reflexivity|]. change (f (Nat.iter n f x) = g (Nat.iter n g x)). rewrite IH.
  apply H. apply iter_ind; [exact Px|]. intros y Hy. apply H. exact Hy.
Qed.
Lemma salsa_8_ok block : length block = 64%nat -> salsa_8 block = Salsa20_8 block /\ length (Salsa20_8 block) = 64%nat.
Proof.
  intros L. unfold salsa_8, Salsa20_8. cbv zeta. rewrite (le_words_eq block L).
  destruct (rw_app 16 block [] L) as [_ L16]. set (x := r_words block) in *.
  rewrite (fold_iter (fold_left salsa_op (salsa_columns ++ salsa_rows))), seq_length.
  rewrite (iter_ext (fun y => length y = 16%nat) _ doubleround 4 x L16) by (intros y Ly; split; [apply double_ok; exact Ly|apply double_length]).
  assert (L4 : length (Nat.iter 4 doubleround x) = 16%nat) by (apply (iter_ind (fun y => length y = 16%nat)); [exact L16|intros; apply double_length]).
  set (z := Nat.iter 4 doubleround x) in *. clearbody z.
  rewrite add_words_eq by assumption. split; [reflexivity|].
  rewrite (flat_length _ 4%nat) by (intros; apply le_bytes_length). rewrite map_length, combine_length, L4, L16. reflexivity.
Qed.

(** * BlockMix *)
Lemma xor_bytes_comm a b : xor_bytes a b = xor_bytes b a.
Proof.
  unfold xor_bytes. revert b; induction a as [|x a IH]; intros [|y b]; try reflexivity. cbn [combine map fst snd].
  rewrite Z.lxor_comm, IH. reflexivity.
Qed.
Lemma mixes_length X B : length (mixes X B) = length B.
Proof. revert X; induction B as [|b B IH]; intros X; cbn [mixes length]; [reflexivity|]. rewrite IH. reflexivity. Qed.
Lemma evens_odds {X} (d : X) n : forall l, length l = (2 * n)%nat ->
  length (evens l) = n /\ length (odds l) = n /\
  forall j, (j < n)%nat -> nth j (evens l) d = nth (2 * j) l d /\ nth j (odds l) d = nth (2 * j + 1) l d.
Proof.
  induction n as [|n IH]; intros l L.
  - destruct l; [|discriminate]. cbn. repeat split; intros; lia.
  - destruct l as [|x [|y l]]; cbn [length] in L; try lia. destruct (IH l) as (E & O & N); [lia|].
    cbn [evens odds length]. rewrite E, O. split; [reflexivity|]. split; [reflexivity|]. intros [|j] Hj; [split; reflexivity|].
    destruct (N j) as [N1 N2]; [lia|]. replace (2 * S j)%nat with (S (S (2 * j))) by lia. cbn [nth Nat.add]. split; assumption.
Qed.
Lemma last_nth {X} (d : X) l : last l d = nth (length l - 1) l d.
Proof.
  induction l as [|x l IH]; [reflexivity|]. destruct l as [|y l]; [reflexivity|].
  transitivity (last (y :: l) d); [reflexivity|]. etransitivity; [exact IH|]. cbn [length].
  replace (S (S (length l)) - 1)%nat with (S (S (length l) - 1)) by lia. reflexivity.
Qed.
Section Mix.
Variable R : nat.
Hypothesis HR : (1 <= R)%nat.
Variable B : list (list Z).
Hypothesis LB : length B = (2 * R)%nat.
Hypothesis FB : Forall (fun b : list Z => length b = 64%nat) B.
Fixpoint chain (k : nat) : list Z :=
  match k with O => last B [] | S k => Salsa20_8 (xor_bytes (chain k) (nth k B [])) end.
Lemma block_length j : (j < 2 * R)%nat -> length (nth j B []) = 64%nat.
Proof. intros H. rewrite Forall_forall in FB. apply FB. apply nth_In. lia. Qed.
Lemma chain_length k : (k <= 2 * R)%nat -> length (chain k) = 64%nat.
Proof.
  induction k as [|k IH]; intros H; cbn [chain].
  - rewrite last_nth. apply block_length. lia.
  - apply (proj2 (salsa_8_ok (xor_bytes (chain k) (nth k B [])) ltac:(rewrite xor_bytes_length, IH, block_length by lia; reflexivity))).
Qed.
Lemma chain_step k : (k < 2 * R)%nat -> salsa_8 (xor_block (chain k) (nth k B [])) = chain (S k).
Proof.
  intros H. unfold xor_block. rewrite xor_into_eq by (rewrite chain_length, block_length by lia; reflexivity).
  cbn [chain]. apply salsa_8_ok. rewrite xor_bytes_length, chain_length, block_length by lia. reflexivity.
Qed.
Lemma mixes_chain : forall m k, (k + m = 2 * R)%nat -> forall j, (j < m)%nat -> nth j (mixes (chain k) (skipn k B)) [] = chain (S (k + j)).
Proof.
  induction m as [|m IH]; intros k E j Hj; [lia|].
  assert (D : skipn k B = nth k B [] :: skipn (S k) B).
  { clear -E LB. assert (H : (k < length B)%nat) by lia. clear E LB. revert k H; induction B as [|b l IH]; intros [|k] H; cbn [length] in H; try lia; [reflexivity|].
    cbn [skipn nth]. rewrite IH by lia. reflexivity. }
  rewrite D. cbn [mixes]. change (Salsa20_8 (xor_bytes (chain k) (nth k B []))) with (chain (S k)).
  destruct j as [|j]; cbn [nth]; [rewrite Nat.add_0_r; reflexivity|].
  rewrite IH by lia. f_equal. lia.
Qed.
Lemma BlockMix_nth : length (BlockMix B) = (2 * R)%nat /\
  forall j, (j < R)%nat -> nth j (BlockMix B) [] = chain (2 * j + 1) /\ nth (R + j) (BlockMix B) [] = chain (2 * j + 2).
Proof.
  unfold BlockMix. cbv zeta. set (Y := mixes (last B []) B).
  assert (LY : length Y = (2 * R)%nat) by (unfold Y; rewrite mixes_length; exact LB).
  assert (NY : forall j, (j < 2 * R)%nat -> nth j Y [] = chain (S j)) by (intros j Hj; apply (mixes_chain (2 * R) 0); lia).
  destruct (evens_odds (@nil Z) R Y LY) as (E & O & N).
  split; [rewrite app_length; lia|]. intros j Hj. destruct (N j Hj) as [N1 N2]. split.
  - rewrite app_nth1 by lia. rewrite N1, NY by lia. f_equal. lia.
  - rewrite app_nth2 by lia. replace (R + j - length (evens Y))%nat with j by lia. rewrite N2, NY by lia. f_equal. lia.
Qed.
Lemma pairs_ok : forall i, (i <= R - 1)%nat -> exists r,
  fold_left mix_pair (seq 0 i) (B, last B [], []) = (r, chain (2 * i), map (fun j => chain (2 * j + 2)) (seq 0 i)) /\
  length r = (2 * R)%nat /\ forall j, (j < 2 * R)%nat -> nth j r [] = if (j <? i)%nat then chain (2 * j + 1) else nth j B [].
Proof.
  induction i as [|i IH]; intros Hi.
  - exists B. split; [reflexivity|]. split; [exact LB|]. intros. reflexivity.
  - destruct IH as (r & E & L & N); [lia|]. rewrite seq_S, fold_left_app, E. cbn [fold_left Nat.add]. unfold mix_pair.
    rewrite N by lia. replace (2 * i <? i)%nat with false by (symmetry; apply Nat.ltb_ge; lia).
    rewrite chain_step by lia. rewrite upd_nth by lia. replace (Nat.eqb (2 * i + 1) i) with false by (symmetry; apply Nat.eqb_neq; lia).
    rewrite N by lia. replace (2 * i + 1 <? i)%nat with false by (symmetry; apply Nat.ltb_ge; lia).
    replace (2 * i + 1)%nat with (S (2 * i)) by lia. rewrite chain_step by lia.
    exists (upd i (chain (S (2 * i))) r). split; [|split].
    + rewrite map_app. cbn [map]. replace (2 * S i)%nat with (S (S (2 * i))) by lia. replace (2 * i + 2)%nat with (S (S (2 * i))) by lia. reflexivity.
    + rewrite upd_length by lia. exact L.
    + intros j Hj. rewrite upd_nth by lia. destruct (Nat.eqb_spec j i) as [->|Nj].
      * replace (i <? S i)%nat with true by (symmetry; apply Nat.ltb_lt; lia). f_equal. lia.
      * rewrite N by lia. replace (j <? S i)%nat with (j <? i)%nat; [reflexivity|].
        destruct (Nat.ltb_spec j i), (Nat.ltb_spec j (S i)); try reflexivity; lia.
Qed.
Lemma relocate_ok y r : length r = (2 * R)%nat -> forall m, (m <= R - 1)%nat ->
  let r' := fold_left (fun rblock i => upd (R + i) (nth i y []) rblock) (seq 0 m) r in
  length r' = (2 * R)%nat /\
  forall j, nth j r' ([] : list Z) = if ((R <=? j) && (j <? R + m))%nat then nth (j - R) y [] else nth j r [].
Proof.
  intros L. induction m as [|m IH]; intros Hm.
  - cbn [seq fold_left]. split; [exact L|]. intros j. destruct (Nat.leb_spec R j), (Nat.ltb_spec j (R + 0)); cbn [andb]; try reflexivity; lia.
  - cbv zeta in *. rewrite seq_S, fold_left_app. cbn [fold_left Nat.add]. destruct IH as [L' N]; [lia|].
    set (r' := fold_left _ (seq 0 m) r) in *. split; [rewrite upd_length by lia; exact L'|].
    intros j. rewrite upd_nth by lia. destruct (Nat.eqb_spec j (R + m)) as [->|Nj].
    + destruct (Nat.leb_spec R (R + m)), (Nat.ltb_spec (R + m) (R + S m)); cbn [andb]; try lia. f_equal. lia.
    + rewrite N. destruct (Nat.leb_spec R j), (Nat.ltb_spec j (R + m)), (Nat.ltb_spec j (R + S m)); cbn [andb]; try reflexivity; lia.
Qed.
Theorem block_mix_ok : block_mix R B = BlockMix B.
Proof.
  unfold block_mix. destruct (pairs_ok (R - 1)) as (r & E & L & N); [lia|]. rewrite E.
  rewrite (N (2 * R - 2)%nat) by lia. replace (2 * R - 2 <? R - 1)%nat with false by (symmetry; apply Nat.ltb_ge; lia).
  replace (2 * (R - 1))%nat with (2 * R - 2)%nat by lia. rewrite chain_step by lia.
  replace (S (2 * R - 2)) with (2 * R - 1)%nat by lia.
  set (r1 := upd (R - 1) (chain (2 * R - 1)) r).
  assert (L1 : length r1 = (2 * R)%nat) by (unfold r1; rewrite upd_length by lia; exact L).
  assert (N1 : nth (2 * R - 1) r1 [] = nth (2 * R - 1) B []).
  { unfold r1. rewrite upd_nth by lia. replace (Nat.eqb (2 * R - 1) (R - 1)) with false by (symmetry; apply Nat.eqb_neq; lia).
    rewrite N by lia. replace (2 * R - 1 <? R - 1)%nat with false by (symmetry; apply Nat.ltb_ge; lia). reflexivity. }
  rewrite N1. assert (X : xor_block (nth (2 * R - 1) B []) (chain (2 * R - 1)) = xor_block (chain (2 * R - 1)) (nth (2 * R - 1) B [])).
  { unfold xor_block. rewrite !xor_into_eq by (rewrite chain_length, block_length by lia; reflexivity). apply xor_bytes_comm. }
  rewrite X, chain_step by lia. replace (S (2 * R - 1)) with (2 * R)%nat by lia.
  set (r2 := upd (2 * R - 1) (chain (2 * R)) r1).
  assert (L2 : length r2 = (2 * R)%nat) by (unfold r2; rewrite upd_length by lia; exact L1).
  destruct (relocate_ok (map (fun j => chain (2 * j + 2)) (seq 0 (R - 1))) r2 L2 (R - 1) ltac:(lia)) as [L3 N3].
  cbv zeta in *. destruct BlockMix_nth as [LM NM].
  apply (list_ext _ _ []); [rewrite L3, LM; reflexivity|]. intros j Hj. rewrite L3 in Hj. rewrite N3.
  destruct (le_lt_dec R j) as [G|G].
  - destruct (NM (j - R)%nat) as [_ V]; [lia|]. replace (R + (j - R))%nat with j in V by lia. rewrite V.
    destruct (Nat.leb_spec R j); [|lia]. destruct (Nat.ltb_spec j (R + (R - 1))); cbn [andb].
    + rewrite (nth_indep _ [] (chain (2 * 0 + 2))) by (rewrite map_length, seq_length; lia).
      rewrite (map_nth (fun j => chain (2 * j + 2)) (seq 0 (R - 1)) 0%nat), seq_nth by lia. f_equal.
    + unfold r2. rewrite upd_nth by lia. replace j with (2 * R - 1)%nat by lia. rewrite Nat.eqb_refl. f_equal. lia.
  - destruct (NM j G) as [V _]. rewrite V. replace (R <=? j)%nat with false by (symmetry; apply Nat.leb_gt; lia). cbn [andb].
    unfold r2, r1. rewrite !upd_nth by (rewrite ?upd_length; lia). replace (Nat.eqb j (2 * R - 1)) with (Nat.eqb j (2 * R - 1)) by reflexivity.
    destruct (Nat.eqb_spec j (2 * R - 1)) as [Ej|Nj1].
    + subst j. f_equal. lia.
    + destruct (Nat.eqb_spec j (R - 1)) as [->|Nj]; [f_equal; lia|]. rewrite N by lia.
      replace (j <? R - 1)%nat with true by (symmetry; apply Nat.ltb_lt; lia). reflexivity.
Qed.
Lemma BlockMix_shape : length (BlockMix B) = (2 * R)%nat /\ Forall (fun b : list Z => length b = 64%nat) (BlockMix B).
Proof.
  destruct BlockMix_nth as [LM NM]. split; [exact LM|]. rewrite Forall_forall. intros b Hb.
  destruct (In_nth _ _ [] Hb) as (j & Hj & <-). rewrite LM in Hj. destruct (le_lt_dec R j) as [G|G].
  - destruct (NM (j - R)%nat) as [_ V]; [lia|]. replace (R + (j - R))%nat with j in V by lia. rewrite V. apply chain_length. lia.
  - destruct (NM j G) as [V _]. rewrite V. apply chain_length. lia.
Qed.
End Mix.

(** * ROMix *)
Section Romix.
Variable R : nat.
Hypothesis HR : (1 <= R)%nat.
Definition shaped (B : list (list Z)) : Prop := length B = (2 * R)%nat /\ Forall (fun b : list Z => length b = 64%nat) B.
Lemma mix_shaped B : shaped B -> block_mix R B = BlockMix B /\ shaped (BlockMix B).
Proof. intros [L F]. split; [apply block_mix_ok; assumption|apply (BlockMix_shape R HR B L F)]. Qed.
Lemma fold_upd {X} (f : X -> X -> X) (d : X) from n : forall to, (n <= length to)%nat ->
  let r := fold_left (fun to i => upd i (f (nth i to d) (nth i from d)) to) (seq 0 n) to in
  length r = length to /\ forall j, nth j r d = if (j <? n)%nat then f (nth j to d) (nth j from d) else nth j to d.
Proof.
  induction n as [|n IH]; intros to H; [split; [reflexivity|intros; reflexivity]|]. cbv zeta in *.
  rewrite seq_S, fold_left_app. cbn [fold_left Nat.add]. destruct (IH to) as [L N]; [lia|].
  set (r := fold_left _ _ to) in *. split; [rewrite upd_length; lia|]. intros j. rewrite upd_nth by lia. rewrite !N.
  destruct (Nat.eqb_spec j n) as [->|Nj].
  - replace (n <? n)%nat with false by (symmetry; apply Nat.ltb_ge; lia). replace (n <? S n)%nat with true by (symmetry; apply Nat.ltb_lt; lia). reflexivity.
  - destruct (Nat.ltb_spec j n), (Nat.ltb_spec j (S n)); try reflexivity; lia.
Qed.
Lemma shaped_nth B j : shaped B -> (j < 2 * R)%nat -> length (nth j B []) = 64%nat.
Proof. intros [L F] Hj. rewrite Forall_forall in F. apply F. apply nth_In. lia. Qed.
Lemma xor_blocks_nth a b : length a = length b -> length (xor_blocks a b) = length a /\
  forall j, (j < length a)%nat -> nth j (xor_blocks a b) [] = xor_bytes (nth j a []) (nth j b []).
Proof.
  unfold xor_blocks. revert b; induction a as [|x a IH]; intros [|y b] L; cbn [length] in L; try discriminate; [split; [reflexivity|intros; cbn in *; lia]|].
  destruct (IH b) as [E N]; [lia|]. cbn [combine map length fst snd]. split; [rewrite E; reflexivity|].
  intros [|j] Hj; cbn [length] in Hj; [reflexivity|]. cbn [nth]. apply N. lia.
Qed.
Lemma xor_shaped a b : shaped a -> shaped b -> xor_rblock R a b = xor_blocks a b /\ shaped (xor_blocks a b).
Proof.
  intros Sa Sb. destruct Sa as [La Fa] eqn:Ea, Sb as [Lb Fb] eqn:Eb. clear Ea Eb.
  destruct (xor_blocks_nth a b) as [E N]; [congruence|].
  assert (NL : forall j, (j < 2 * R)%nat -> length (nth j (xor_blocks a b) []) = 64%nat).
  { intros j Hj. rewrite N by lia. rewrite xor_bytes_length, (shaped_nth a j), (shaped_nth b j) by (assumption || (split; assumption)). reflexivity. }
  split.
  - unfold xor_rblock. destruct (fold_upd xor_block (@nil Z) b (2 * R) a) as [L' N']; [lia|]. cbv zeta in *.
    apply (list_ext _ _ []); [rewrite L', E; reflexivity|]. intros j Hj. rewrite L', La in Hj. rewrite N', N by lia.
    replace (j <? 2 * R)%nat with true by (symmetry; apply Nat.ltb_lt; lia). unfold xor_block. apply xor_into_eq.
    rewrite (shaped_nth a j), (shaped_nth b j) by (assumption || (split; assumption)). reflexivity.
  - split; [lia|]. rewrite Forall_forall. intros x Hx. destruct (In_nth _ _ [] Hx) as (j & Hj & <-). apply NL. lia.
Qed.
Variable k : nat.
Hypothesis Hk : (k <= 64)%nat.
Notation W := (2 ^ k)%nat.
Lemma index_ok B : shaped B -> index W B = Z.to_nat (Integerify B mod Z.of_nat W) /\ (index W B < W)%nat.
Proof.
  intros HB. assert (W1 : (1 <= W)%nat) by (clear; induction k; cbn [Nat.pow]; lia). split.
  - unfold index, Integerify. f_equal. rewrite last_nth.
    set (b := nth (length B - 1) B []). replace (le_value b) with (le_value (firstn 8 b ++ skipn 8 b)) by (rewrite firstn_skipn; reflexivity).
    rewrite le_value_app. assert (Lb : length b = 64%nat) by (apply (shaped_nth B _ HB); destruct HB; lia).
    assert (L8 : len (firstn 8 b) = 8) by (unfold len; rewrite firstn_length; lia). rewrite L8.
    rewrite Nat2Z.inj_pow. change (Z.of_nat 2) with 2. change 256 with (2 ^ 8). rewrite <- Z.pow_mul_r by lia.
    replace (2 ^ (8 * 8)) with (2 ^ (64 - Z.of_nat k) * 2 ^ Z.of_nat k) by (rewrite <- Z.pow_add_r by lia; f_equal; lia).
    rewrite <- Z.mul_assoc, (Z.mul_comm (2 ^ Z.of_nat k)), Z.mul_assoc, Z.mod_add by (apply Z.pow_nonzero; lia). reflexivity.
  - unfold index. apply Nat2Z.inj_lt. rewrite Z2Nat.id by (apply Z.mod_pos_bound; lia). apply Z.mod_pos_bound. lia.
Qed.
Lemma V_shaped B i : shaped B -> shaped (V B i).
Proof. intros H. unfold V. apply iter_ind; [exact H|]. intros y Hy. apply (proj2 (mix_shaped y Hy)). Qed.
Lemma fill_ok B : shaped B -> forall n,
  fold_left (fun (s : list (list (list Z)) * list (list Z)) (_ : nat) => (fst s ++ [snd s], block_mix R (snd s))) (seq 0 n) ([], B)
  = (map (V B) (seq 0 n), V B n).
Proof.
  intros HB. induction n as [|n IH]; [reflexivity|]. rewrite seq_S, fold_left_app, map_app, IH. cbn [fold_left map fst snd Nat.add].
  f_equal. destruct (mix_shaped (V B n) (V_shaped B n HB)) as [E _]. rewrite E. reflexivity.
Qed.
Theorem romix_ok B : shaped B -> romix W R true B = (true, ROMix W B) /\ shaped (ROMix W B).
Proof.
  intros HB. unfold romix. rewrite (fill_ok B HB). unfold ROMix.
  set (f := fun x => block_mix R (xor_rblock R x (nth (index W x) (map (V B) (seq 0 W)) []))).
  rewrite (fold_iter f), seq_length. change (Nat.iter W BlockMix B) with (V B W).
  assert (St : forall y, shaped y -> let X := BlockMix (xor_blocks y (V B (Z.to_nat (Integerify y mod Z.of_nat W)))) in f y = X /\ shaped X).
  { intros y Hy. cbv zeta. unfold f. destruct (index_ok y Hy) as [E Lt]. rewrite <- E.
    rewrite (nth_indep _ [] (V B 0)) by (rewrite map_length, seq_length; exact Lt). rewrite map_nth, seq_nth by exact Lt. cbn [Nat.add].
    destruct (xor_shaped y (V B (index W y)) Hy (V_shaped B _ HB)) as [X SX]. rewrite X. apply (mix_shaped _ SX). }
  split.
  - f_equal. apply (iter_ext shaped); [apply V_shaped; exact HB|exact St].
  - apply iter_ind; [apply V_shaped; exact HB|]. intros y Hy. apply (St y Hy).
Qed.
(** The visits of the execution policy, in any order. *)
Lemma visits_ok prblocks order : Forall shaped prblocks -> NoDup order -> (forall i, In i order -> (i < length prblocks)%nat) ->
  exists r, fold_left (visit W R (fun _ => true)) order (true, prblocks) = (true, r) /\ length r = length prblocks /\
  forall j, (j < length prblocks)%nat -> (In j order -> nth j r [] = ROMix W (nth j prblocks [])) /\ (~ In j order -> nth j r [] = nth j prblocks []).
Proof.
  revert prblocks. induction order as [|i order IH]; intros pr F ND B.
  - exists pr. split; [reflexivity|]. split; [reflexivity|]. intros j Hj. split; [intros []|reflexivity].
  - cbn [fold_left]. unfold visit at 2. assert (Hi : (i < length pr)%nat) by (apply B; left; reflexivity).
    assert (Si : shaped (nth i pr [])) by (rewrite Forall_forall in F; apply F, nth_In, Hi).
    destruct (romix_ok _ Si) as [E SX]. rewrite E. inversion ND as [|? ? NI ND']; subst.
    destruct (IH (upd i (ROMix W (nth i pr [])) pr)) as (r & Er & Lr & Nr).
    + rewrite Forall_forall in *. intros x Hx. destruct (In_nth _ _ [] Hx) as (j & Hj & <-). rewrite upd_length in Hj by exact Hi.
      rewrite upd_nth by exact Hi. destruct (Nat.eqb j i); [exact SX|]. apply F, nth_In, Hj.
    + exact ND'.
    + intros j Hj. rewrite upd_length by exact Hi. apply B. right. exact Hj.
    + exists r. rewrite upd_length in Lr, Nr by exact Hi. split; [exact Er|]. split; [exact Lr|]. intros j Hj.
      destruct (Nr j Hj) as [N1 N2]. rewrite upd_nth in N1, N2 by exact Hi. destruct (Nat.eqb_spec j i) as [->|Nj].
      * split; [intros _; apply N2; exact NI|]. intros C. exfalso. apply C. left. reflexivity.
      * split; [intros [C|C]; [congruence|apply N1; exact C]|]. intros C. apply N2. intros D. apply C. right. exact D.
Qed.
End Romix.
