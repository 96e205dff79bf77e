From Verif Require Import Base Bytes MathModel MathSpec MathProofs MathProofs2 StreamModel StreamSpec StreamProofs StreamProofs2 LCalc OpModel OpProofs OpProofs2 OpProofs3 ChainModel RCalc ChainSpec ChainProofs ChainProofs2.

(** ** Reading with witnesses skipped *)
Lemma istream_read_len n s : 0 <= n -> len (fst (istream_read n s)) = n.
Proof.
  intros Hn. unfold istream_read. destruct (good s); cbn [negb fst]; [|unfold zeros; rewrite len_repeat; lia].
  destruct (Z.gtb_spec n (len (rest s))); cbn [fst].
  - rewrite len_app. unfold zeros. rewrite len_repeat. lia.
  - unfold len in *. rewrite firstn_length. lia.
Qed.
Lemma read_bytes_len n s : 0 <= n -> good s = true -> len (fst (read_bytes n s)) = n.
Proof.
  intros Hn G. unfold read_bytes. destruct (Z.eqb_spec n 0) as [->|N]; [reflexivity|]. rewrite G. cbn [negb]. unfold do_read, limiter.
  destruct (n >? lim s); cbn [fst]; [unfold zeros; rewrite len_repeat; lia|]. apply istream_read_len, Hn.
Qed.
Lemma read_size_nonneg limit s : bytes_ok (rest s) -> good (snd (read_size limit s)) = true -> 0 <= fst (read_size limit s).
Proof.
  intros Hb G. destruct (read_size limit s) as [v s'] eqn:E. destruct (read_size_exact limit s v s' Hb E G) as (_ & (H & _) & _). cbn. lia.
Qed.

(** Same steps, so the same final state; same verdict on every element read. *)
Lemma skip_element_same s : snd (skip_element s) = snd (read_element s) /\
  (bytes_ok (rest s) -> good (snd (read_element s)) = true -> fst (skip_element s) = nonempty (fst (read_element s))).
Proof.
  unfold skip_element, read_element, bind, ret. destruct (read_size max_bytes s) as [n s1] eqn:E1.
  destruct (read_bytes n s1) as [b s2] eqn:E2. cbn [fst snd]. split; [reflexivity|]. intros Hb G.
  assert (G1 : good s1 = true). { destruct (good s1) eqn:Q; [reflexivity|]. pose proof (read_bytes_sticky n s1 Q) as K. rewrite E2 in K. cbn in K. congruence. }
  pose proof (read_size_nonneg max_bytes s Hb) as P. rewrite E1 in P. cbn [fst snd] in P. specialize (P G1).
  pose proof (read_bytes_len n s1 P G1) as L. rewrite E2 in L. cbn [fst] in L.
  destruct b as [|x b]; [change (len (@nil Z)) with 0 in L; subst n; reflexivity|]. rewrite len_cons in L. pose proof (len_nonneg b).
  destruct (Z.eqb_spec n 0); [lia|reflexivity].
Qed.

Lemma exactL_bytes {A} (r : rd -> A * rd) enc ok s : exactL r enc ok -> bytes_ok (rest s) -> 0 <= lim s <= 2 ^ 64 - 1 ->
  good (snd (r s)) = true -> bytes_ok (rest (snd (r s))) /\ 0 <= lim (snd (r s)) <= 2 ^ 64 - 1.
Proof.
  intros H Hb Hl G. destruct (r s) as [a s'] eqn:E. destruct (H s a s' Hb Hl E G) as (_ & _ & t & Hr & Hr' & _ & HL). cbn [snd].
  split; [|exact HL]. rewrite Hr'. rewrite Hr in Hb. apply bytes_ok_app in Hb. apply Hb.
Qed.

Lemma read_n_skip n : forall s, snd (read_n n skip_element s) = snd (read_n n read_element s) /\
  (bytes_ok (rest s) -> 0 <= lim s <= 2 ^ 64 - 1 -> good (snd (read_n n read_element s)) = true ->
   fst (read_n n skip_element s) = map nonempty (fst (read_n n read_element s))).
Proof.
  induction n as [|n IH]; intros s; [split; reflexivity|]. cbn [read_n].
  destruct (skip_element_same s) as [S1 S2]. pose proof (element_exactL) as X. pose proof (exactL_bytes _ _ _ s X) as XB. unfold bind at 1 3 5 7 9.
  destruct (skip_element s) as [f s1]. destruct (read_element s) as [e s1'] eqn:Ee. cbn [snd fst] in *. subst s1'.
  destruct (IH s1) as [I1 I2]. unfold bind, ret.
  destruct (read_n n skip_element s1) as [fs s2]. destruct (read_n n read_element s1) as [es s2'] eqn:En. cbn [fst snd] in *. subst s2'.
  split; [reflexivity|]. intros Hb Hl G.
  assert (G1 : good s1 = true). { destruct (good s1) eqn:Q; [reflexivity|]. pose proof (read_n_sticky read_element n element_sticky s1 Q) as K. rewrite En in K. cbn in K. congruence. }
  destruct (XB Hb Hl G1) as [B1 L1]. cbn [map]. rewrite (S2 Hb G1), (I2 B1 L1 G). reflexivity.
Qed.
Definition some_element (w : list (list Z)) : bool := existsb nonempty w.
Lemma skip_same s : snd (witness_skip s) = snd (witness_from_data s) /\
  (bytes_ok (rest s) -> 0 <= lim s <= 2 ^ 64 - 1 -> good (snd (witness_from_data s)) = true ->
   fst (witness_skip s) = some_element (fst (witness_from_data s))).
Proof.
  unfold witness_skip, witness_from_data, read_list, bind, ret. pose proof (exactL_bytes _ _ _ s (exact_L _ _ _ (read_size_exact max_bytes))) as XB.
  destruct (read_size max_bytes s) as [n s1]. cbn [snd] in XB. destruct (read_n_skip (Z.to_nat n) s1) as [I1 I2].
  destruct (read_n (Z.to_nat n) skip_element s1) as [fs s2]. destruct (read_n (Z.to_nat n) read_element s1) as [es s2'] eqn:En. cbn [fst snd] in *. subst s2'.
  split; [reflexivity|]. intros Hb Hl G.
  assert (G1 : good s1 = true). { destruct (good s1) eqn:Q; [reflexivity|]. pose proof (read_n_sticky read_element (Z.to_nat n) element_sticky s1 Q) as K. rewrite En in K. cbn in K. congruence. }
  destruct (XB Hb Hl G1) as [B1 L1]. rewrite (I2 B1 L1 G). unfold some_element. clear. induction es as [|e es IH]; [reflexivity|]. cbn. rewrite IH. reflexivity.
Qed.
Definition some_witness_element (l : list input) : bool := existsb (fun i => some_element (in_witness i)) l.
Lemma witnesses_same l : forall s, snd (read_witnesses false l s) = snd (read_witnesses true l s) /\
  fst (fst (read_witnesses false l s)) = l /\ map strip_input (fst (fst (read_witnesses true l s))) = map strip_input l /\
  (bytes_ok (rest s) -> 0 <= lim s <= 2 ^ 64 - 1 -> good (snd (read_witnesses true l s)) = true ->
   snd (fst (read_witnesses false l s)) = some_witness_element (fst (fst (read_witnesses true l s))) /\
   snd (fst (read_witnesses true l s)) = has_witness_data (fst (fst (read_witnesses true l s)))).
Proof.
  induction l as [|i l IH]; intros s; [repeat split|]. cbn [read_witnesses]. destruct (skip_same s) as [S1 S2].
  pose proof (exactL_bytes _ _ _ s witness_exactL) as XB. unfold bind, ret.
  destruct (witness_skip s) as [f s1]. destruct (witness_from_data s) as [w s1'] eqn:Ew. cbn [fst snd] in *. subst s1'.
  destruct (IH s1) as (I1 & I2 & I3 & I4). pose proof (witnesses_sticky true l skip_sticky s1) as K.
  destruct (read_witnesses false l s1) as [[p pf] s2]. destruct (read_witnesses true l s1) as [[q qf] s2']. cbn [fst snd] in *. subst s2' p.
  split; [reflexivity|]. split; [reflexivity|]. split; [cbn [map]; rewrite strip_set, I3; reflexivity|]. intros Hb Hl G.
  assert (G1 : good s1 = true). { destruct (good s1) eqn:Q; [reflexivity|]. rewrite (K eq_refl) in G. discriminate. }
  destruct (XB Hb Hl G1) as [B1 L1]. destruct (I4 B1 L1 G) as [-> ->]. rewrite (S2 Hb Hl G1). split; reflexivity.
Qed.
Lemma parsed_inputs_unwitnessed n : forall s, map strip_input (fst (read_n n input_from_data s)) = fst (read_n n input_from_data s).
Proof.
  induction n as [|n IH]; intros s; [reflexivity|]. cbn [read_n].
  assert (E : forall s, strip_input (fst (input_from_data s)) = fst (input_from_data s)).
  { intros u. unfold input_from_data, bind, ret. destruct (read_hash u) as [a u1]. destruct (read_le 4 u1) as [b u2].
    destruct (script_from_data true u2) as [c u3]. destruct (read_le 4 u3) as [d u4]. reflexivity. }
  unfold bind at 1 3. specialize (E s). destruct (input_from_data s) as [i s1]. cbn [fst] in E. specialize (IH s1). unfold bind, ret.
  destruct (read_n n input_from_data s1) as [l s2]. cbn [fst map] in *. rewrite E, IH. reflexivity.
Qed.
Lemma parsed_ins s : map strip_input (fst (read_ins s)) = fst (read_ins s).
Proof. unfold read_ins, read_list, bind. destruct (read_size max_count s) as [n s1]. apply parsed_inputs_unwitnessed. Qed.

(** The two readings of a segregated tail. *)
Lemma tail_segregated_same v s : bytes_ok (rest s) -> 0 <= lim s <= 2 ^ 64 - 1 ->
  let f := tail_segregated false v s in let t := tail_segregated true v s in
  (good (snd f) = true -> good (snd t) = true /\ snd t = snd f /\ fst f = strip (fst t) /\ some_witness_element (tx_inputs (fst t)) = true) /\
  (good (snd t) = true -> some_witness_element (tx_inputs (fst t)) = true -> snd f = snd t).
Proof.
  intros Hb Hl. cbv zeta. unfold tail_segregated, bind, ret.
  destruct (skip_byte s) as [[] s1] eqn:E1. pose proof (parsed_ins s1) as PI. destruct (read_ins s1) as [ins s2] eqn:E2. destruct (read_outs s2) as [outs s3] eqn:E3.
  cbn [fst] in PI. destruct (witnesses_same ins s3) as (W1 & W2 & W3 & W4). pose proof (witnesses_sticky true ins skip_sticky s3) as SW.
  destruct (read_witnesses false ins s3) as [[p pf] s4]. destruct (read_witnesses true ins s3) as [[q qf] s4']. cbn [fst snd] in *. subst s4' p.
  assert (B4 : good s4 = true -> pf = some_witness_element q /\ qf = has_witness_data q).
  { intros G4. assert (G3 : good s3 = true) by (destruct (good s3); [reflexivity|rewrite SW in G4 by reflexivity; discriminate]).
    assert (G2 : good s2 = true). { destruct (good s2) eqn:Q; [reflexivity|]. pose proof (read_outs_sticky s2 Q) as K. rewrite E3 in K. cbn in K. congruence. }
    assert (G1 : good s1 = true). { destruct (good s1) eqn:Q; [reflexivity|]. pose proof (read_ins_sticky s1 Q) as K. rewrite E2 in K. cbn in K. congruence. }
    destruct (skip_byte_inv s s1 E1 Hl G1) as (_ & b & t & Hr & -> & L1).
    pose proof (exactL_bytes _ _ _ (mkrd (b :: past s) t true (lim s - 1)) read_ins_exactL) as X2. rewrite E2 in X2. cbn [rest lim snd] in X2.
    destruct X2 as [B2 L2]; [rewrite Hr in Hb; inversion Hb; assumption|lia|exact G2|].
    pose proof (exactL_bytes _ _ _ s2 read_outs_exactL) as X3. rewrite E3 in X3. cbn [snd] in X3. destruct (X3 B2 L2 G3) as [B3 L3].
    apply W4; assumption. }
  assert (HE : some_witness_element q = true -> has_witness_data q = true).
  { clear. unfold some_witness_element, has_witness_data. induction q as [|i q IH]; [discriminate|]. cbn [existsb]. intros H. apply orb_true_iff in H as [H|H]; [|rewrite IH by exact H; apply orb_true_r].
    destruct (in_witness i); [discriminate|reflexivity]. }
  unfold invalidate_if. destruct pf; cbn [negb].
  - destruct qf; cbn [negb].
    + destruct (read_le 4 s4) as [lt s5] eqn:E5. cbn [fst snd tx_inputs]. split; [|reflexivity]. intros G5.
      assert (G4 : good s4 = true). { destruct (good s4) eqn:Q; [reflexivity|]. pose proof (read_le_sticky 4 s4 Q) as K. rewrite E5 in K. cbn in K. congruence. }
      destruct (B4 G4) as [P1 P2]. split; [exact G5|]. split; [reflexivity|]. split; [|congruence].
      unfold strip. cbn [tx_version tx_inputs tx_outputs tx_locktime]. rewrite W3, PI. reflexivity.
    + split.
      * destruct (read_le 4 s4) as [lt s5] eqn:E5. cbn [fst snd]. intros G5.
        assert (G4 : good s4 = true). { destruct (good s4) eqn:Q; [reflexivity|]. pose proof (read_le_sticky 4 s4 Q) as K. rewrite E5 in K. cbn in K. congruence. }
        destruct (B4 G4) as [P1 P2]. rewrite HE in P2 by congruence. discriminate.
      * pose proof (read_le_sticky 4 (invalid s4) eq_refl) as K. destruct (read_le 4 (invalid s4)) as [lt s5]. cbn [fst snd] in *. congruence.
  - pose proof (read_le_sticky 4 (invalid s4) eq_refl) as K. destruct (read_le 4 (invalid s4)) as [lt s5] eqn:E5. cbn [fst snd] in *. split; [congruence|].
    destruct qf; cbn [negb].
    + destruct (read_le 4 s4) as [lt' s6] eqn:E6. cbn [fst snd tx_inputs]. intros G6 Q. exfalso.
      assert (G4 : good s4 = true). { destruct (good s4) eqn:Q'; [reflexivity|]. pose proof (read_le_sticky 4 s4 Q') as K'. rewrite E6 in K'. cbn in K'. congruence. }
      destruct (B4 G4) as [P1 _]. congruence.
    + rewrite E5. cbn [fst snd]. congruence.
Qed.
Lemma tx_same s : bytes_ok (rest s) -> 0 <= lim s <= 2 ^ 64 - 1 ->
  (forall t0 s0, tx_from_data false s = (t0, s0) -> good s0 = true -> exists t1, tx_from_data true s = (t1, s0) /\ t0 = strip t1 /\
     (tx_segregated t1 = true -> some_witness_element (tx_inputs t1) = true)) /\
  (forall t1 s1, tx_from_data true s = (t1, s1) -> good s1 = true -> tx_segregated t1 = false \/ some_witness_element (tx_inputs t1) = true ->
     tx_from_data false s = (strip t1, s1)).
Proof.
  intros Hb Hl. rewrite !tx_from_data_tail. unfold bind. destruct (read_le 4 s) as [v s1] eqn:E1.
  pose proof (parsed_ins s1) as PI. destruct (read_ins s1) as [ins s2] eqn:E2. cbn [fst] in PI.
  assert (BL : good s2 = true -> bytes_ok (rest s2) /\ 0 <= lim s2 <= 2 ^ 64 - 1).
  { intros G2. assert (G1 : good s1 = true). { destruct (good s1) eqn:Q; [reflexivity|]. pose proof (read_ins_sticky s1 Q) as K. rewrite E2 in K. cbn in K. congruence. }
    pose proof (exactL_bytes _ _ _ s le4_exactL) as X. rewrite E1 in X. cbn [snd] in X. destruct (X Hb Hl G1) as [B1 L1].
    pose proof (exactL_bytes _ _ _ s1 read_ins_exactL) as X2. rewrite E2 in X2. cbn [snd] in X2. apply X2; assumption. }
  assert (PP : forall s, fst (tail_plain v ins s) = strip (fst (tail_plain v ins s)) /\ tx_segregated (fst (tail_plain v ins s)) = false).
  { intros u. unfold tail_plain, bind, ret. destruct (read_outs u) as [o u1]. destruct (read_le 4 u1) as [lt u2]. cbn [fst]. unfold strip. cbn [tx_version tx_inputs tx_outputs tx_locktime tx_segregated].
    rewrite PI. auto. }
  unfold tail. destruct (len ins =? 0).
  2:{ destruct (tail_plain v ins s2) as [t st] eqn:E. specialize (PP s2). rewrite E in PP. cbn [fst] in PP. destruct PP as [P1 P2]. split.
      - intros t0 s0 [= <- <-] G. exists t. split; [reflexivity|]. split; [exact P1|congruence].
      - intros t1 s1' [= <- <-] G _. congruence. }
  unfold bind. destruct (peek_byte s2) as [b s3] eqn:Ep. destruct (b =? 1).
  2:{ destruct (tail_plain v ins s3) as [t st] eqn:E. specialize (PP s3). rewrite E in PP. cbn [fst] in PP. destruct PP as [P1 P2]. split.
      - intros t0 s0 [= <- <-] G. exists t. split; [reflexivity|]. split; [exact P1|congruence].
      - intros t1 s1' [= <- <-] G _. congruence. }
  assert (BL3 : good s3 = true -> bytes_ok (rest s3) /\ 0 <= lim s3 <= 2 ^ 64 - 1).
  { intros G3. destruct (peek_inv s2 b s3 Ep G3) as (G2 & -> & _). auto. }
  assert (SG : tx_segregated (fst (tail_segregated true v s3)) = true).
  { unfold tail_segregated, bind, ret. destruct (skip_byte s3) as [? ?]. destruct (read_ins r) as [? ?]. destruct (read_outs r0) as [? ?].
    destruct (read_witnesses true l r1) as [? ?]. destruct (invalidate_if _ _) as [? ?]. destruct (read_le 4 r3) as [? ?]. reflexivity. }
  pose proof (tail_segregated_sticky false v s3) as SF. pose proof (tail_segregated_sticky true v s3) as ST.
  destruct (good s3) eqn:G3.
  2:{ split; intros t0 s0 E G.
      - specialize (SF eq_refl). rewrite E in SF. cbn in SF. congruence.
      - specialize (ST eq_refl). rewrite E in ST. cbn in ST. congruence. }
  destruct (BL3 eq_refl) as [B3 L3]. destruct (tail_segregated_same v s3 B3 L3) as [T1 T2].
  destruct (tail_segregated false v s3) as [tf sf]. destruct (tail_segregated true v s3) as [tt' st]. cbn [fst snd] in *. split.
  - intros t0 s0 [= <- <-] G. destruct (T1 G) as (Gt & -> & -> & So). exists tt'. auto.
  - intros t1 s1' [= <- <-] G [C|C]; [congruence|]. specialize (T2 G C). subst sf. destruct (T1 G) as (_ & _ & -> & _). reflexivity.
Qed.
