(** Proofs for the sieve: histories. *)
From Verif Require Import Base MathModel MathSpec MathProofs MathProofs2 BitProofs FilterModel FilterProofs FilterProofs2.

Section Sieve.
Variables N SB : Z.
Hypothesis HS : 1 <= SB < N.
Hypothesis HN : N <= 64.
Let T := filter_type N.
Hypothesis HW : 2 * SB <= bits T.
Let sb := screen_bits N SB.
Variable tbl : list Z.
Hypothesis HT : table_ok N SB tbl.

Let st := FilterProofs2.st N SB HS HN.
Let sbr := sb_range N SB HS HN.

Definition row_of (v : Z) : Z := shift_right T v sb true.
Notation mask := (masks N tbl).
Notation lim := (limit_row SB).

Lemma sieve_enabled : sieve_disabled N SB = false.
Proof. unfold sieve_disabled. lia. Qed.
Lemma lim_facts : lim = screens SB - 1 /\ 2 <= screens SB /\ screens SB = 2 ^ SB.
Proof.
  split; [reflexivity|]. split; [apply (screens_ge N SB HS HN HW)|apply (screens_eq N SB HS HN HW)].
Qed.

Lemma mask_cell r c : mask r c = cell N tbl r c.
Proof. reflexivity. Qed.
Lemma mask_high r c i : inr SB r c -> sb <= i < bits T -> bit (mask r c) i = false.
Proof. intros I Hi. destruct HT as (H & _). apply (H r c I). exact Hi. Qed.

(** Agreement of two values on the bits of a mask. *)
Definition agree (m v e : Z) : Prop := forall i, 0 <= i < sb -> bit m i = true -> bit v i = bit e i.

Lemma column_ok r c v e : inr SB r c ->
  (bit_xor T (bit_and T v (mask r c)) (bit_and T (wrap T e) (mask r c)) =? 0) = true <-> agree (mask r c) v e.
Proof.
  intros I. destruct st as (B & Sg & C & D). fold T in B, Sg, C, D. pose proof sbr as SR. fold sb T in SR.
  rewrite Z.eqb_eq. split.
  - intros E i Hi M.
    assert (X : bit (bit_xor T (bit_and T v (mask r c)) (bit_and T (wrap T e) (mask r c))) i = false).
    { rewrite E. apply Z.testbit_0_l. }
    unfold bit_xor in X. rewrite bit_wrap in X by lia. unfold bit in X. rewrite Z.lxor_spec in X.
    change (Z.testbit ?a ?b) with (bit a b) in X.
    rewrite !bit_and_bit, bit_wrap, M in X by lia. destruct (bit v i), (bit e i); cbn in X; congruence.
  - intros A. apply (bit_ext T); [exact B|apply fits_wrap; exact B|apply fits_0; exact B|].
    intros i Hi. unfold bit_xor. rewrite bit_wrap by lia. unfold bit. rewrite Z.lxor_spec, Z.testbit_0_l.
    change (Z.testbit ?a ?b) with (bit a b).
    rewrite !bit_and_bit, bit_wrap by lia.
    destruct (bit (mask r c) i) eqn:M; [|rewrite !andb_false_r; reflexivity].
    destruct (Z.lt_ge_cases i sb).
    + rewrite A by (auto; lia). rewrite xorb_nilpotent. reflexivity.
    + rewrite mask_high in M by (auto; lia). discriminate.
Qed.

Lemma match_ok r v e : 0 <= r < screens SB ->
  (sieve_match N tbl v e r = true <-> exists c, 0 <= c <= r /\ agree (mask r c) v e).
Proof.
  intros Hr. unfold sieve_match. rewrite existsb_exists. split.
  - intros (c & I & H). apply in_seq in I. exists (Z.of_nat c). split; [lia|].
    apply column_ok; [unfold inr; lia|exact H].
  - intros (c & Hc & H). exists (Z.to_nat c). split; [apply in_seq; lia|].
    cbv zeta. rewrite Z2Nat.id by lia. apply column_ok; [unfold inr; lia|exact H].
Qed.

(** The sieve holds the fingerprints [fs] (at least one). *)
Definition held (fs : list Z) (v : Z) : Prop :=
  fits T v /\ fs <> [] /\ Z.of_nat (length fs) <= screens SB /\
  row_of v = Z.of_nat (length fs) - 1 /\
  (row_of v = lim -> bit v (sb - 1) = false) /\
  (forall c, 0 <= c <= row_of v -> agree (mask (row_of v) c) v (nth (Z.to_nat c) fs 0)).

Lemma empty_bit i : 0 <= i < bits T -> bit (sieve_empty N) i = (i <? N).
Proof. intros H. destruct st as (B & Sg & C & D). unfold sieve_empty. apply unmask_right_bit; fold T; lia. Qed.
Lemma saturated_bit i : 0 <= i < bits T -> bit (sieve_saturated N SB) i = (i <? N) && (sb - 1 <=? i).
Proof.
  intros H. destruct st as (B & Sg & C & D). fold T in B, Sg, C, D. pose proof sbr as SR. fold sb T in SR.
  unfold sieve_saturated. fold T. rewrite bit_and_bit, empty_bit by lia.
  change (sentinel N SB) with (sb - 1). rewrite mask_right_bit by lia. reflexivity.
Qed.
Lemma empty_fits : fits T (sieve_empty N).
Proof. destruct st as (B & _). apply fits_wrap. exact B. Qed.
Lemma saturated_fits : fits T (sieve_saturated N SB).
Proof. destruct st as (B & _). apply fits_wrap. exact B. Qed.

Lemma row_bit v i : 0 <= i < bits T -> bit (row_of v) i = (i + sb <? bits T) && bit v (i + sb).
Proof.
  intros H. destruct st as (B & Sg & C & D). fold T in B, Sg, C, D. pose proof sbr as SR. fold sb T in SR.
  unfold row_of. rewrite shift_right_bit by lia. replace (bits T <=? sb) with false by lia.
  rewrite andb_false_r. rewrite Z.mod_small by lia. reflexivity.
Qed.
Lemma row_fits v : fits T (row_of v).
Proof. destruct st as (B & _). apply shift_right_fits. exact B. Qed.

Lemma lim_bit i : 0 <= i < bits T -> bit lim i = (i <? SB).
Proof.
  intros Hi. destruct lim_facts as (L & _ & E). rewrite L, E.
  replace (2 ^ SB - 1) with (Z.ones SB) by (rewrite Z.ones_equiv; lia).
  unfold bit. destruct (Z.ltb_spec i SB); [apply Z.ones_spec_low|apply Z.ones_spec_high]; lia.
Qed.
Lemma pow_fits n : 0 <= n <= bits T -> fits T (2 ^ n - 1).
Proof.
  intros H. destruct st as (B & Sg & C & D). fold T in B, Sg, C, D. unfold fits, imin, imax. rewrite Sg.
  assert (2 ^ n <= 2 ^ bits T) by (apply Z.pow_le_mono_r; lia). pose proof (pow2_pos n). lia.
Qed.
Lemma lim_fits : fits T lim.
Proof.
  destruct lim_facts as (L & _ & E). rewrite L, E. apply pow_fits.
  destruct st as (B & Sg & C & D). fold T in B, Sg, C, D. lia.
Qed.
Lemma row_empty : row_of (sieve_empty N) = lim.
Proof.
  destruct st as (B & Sg & C & D). fold T in B, Sg, C, D. pose proof sbr as SR. fold sb T in SR.
  assert (SE : sb = N - SB) by reflexivity.
  apply (bit_ext T); [exact B|apply row_fits|apply lim_fits|]. intros i Hi.
  rewrite row_bit, lim_bit by lia.
  destruct (Z.ltb_spec (i + sb) (bits T)); cbn [andb]; [rewrite empty_bit by lia|]; lia.
Qed.
Lemma row_saturated : row_of (sieve_saturated N SB) = lim.
Proof.
  destruct st as (B & Sg & C & D). fold T in B, Sg, C, D. pose proof sbr as SR. fold sb T in SR.
  assert (SE : sb = N - SB) by reflexivity.
  apply (bit_ext T); [exact B|apply row_fits|apply lim_fits|]. intros i Hi.
  rewrite row_bit, lim_bit by lia.
  destruct (Z.ltb_spec (i + sb) (bits T)); cbn [andb]; [rewrite saturated_bit by lia|]; lia.
Qed.

Lemma held_not_special fs v : held fs v -> v <> sieve_empty N /\ v <> sieve_saturated N SB.
Proof.
  intros (F & NE & L & R & Se & A). pose proof sbr as SR. fold sb T in SR.
  destruct st as (B & Sg & C & D). fold T in B, Sg, C, D.
  assert (SE : sb = N - SB) by reflexivity.
  split; intros ->.
  - specialize (Se row_empty). rewrite empty_bit in Se by lia. lia.
  - specialize (Se row_saturated). rewrite saturated_bit in Se by lia. lia.
Qed.
Lemma empty_not_saturated : 2 <= sb -> sieve_empty N <> sieve_saturated N SB.
Proof.
  intros H2 E. pose proof sbr as SR. fold sb T in SR.
  destruct st as (B & Sg & C & D). fold T in B, Sg, C, D. assert (SE : sb = N - SB) by reflexivity.
  assert (X : bit (sieve_empty N) 0 = bit (sieve_saturated N SB) 0) by (rewrite E; reflexivity).
  rewrite empty_bit, saturated_bit in X by lia. lia.
Qed.

(** sieve_store. *)
Lemma store_bit v e r i : 0 <= r < screens SB -> 0 <= i < bits T ->
  bit (sieve_store N SB tbl v e r) i =
  if i <? sb then
    (bit v i && negb (bit (mask r r) i) && negb ((r =? lim) && (i =? sb - 1)))
    || (bit e i && bit (mask r r) i)
  else bit r (i - sb).
Proof.
  intros Hr Hi. destruct st as (B & Sg & C & D). fold T in B, Sg, C, D. pose proof sbr as SR. fold sb T in SR.
  assert (SE : sb = N - SB) by reflexivity.
  assert (I : inr SB r r) by (unfold inr; lia).
  unfold sieve_store. cbv zeta. fold T. fold sb. change (sentinel N SB) with (sb - 1).
  rewrite bit_or_bit, shift_left_bit by lia.
  replace (bits T <=? sb) with false by lia. rewrite andb_false_r. rewrite Z.mod_small by lia.
  rewrite bit_or_bit, !bit_and_bit, bit_wrap by lia.
  assert (U : bit (if r =? lim then set_right T (bit_and T (bit_not T (mask r r)) (select_mask N SB)) (sb - 1) false
                   else bit_and T (bit_not T (mask r r)) (select_mask N SB)) i =
              negb (bit (mask r r) i) && (i <? sb) && negb ((r =? lim) && (i =? sb - 1))).
  { assert (U0 : bit (bit_and T (bit_not T (mask r r)) (select_mask N SB)) i = negb (bit (mask r r) i) && (i <? sb)).
    { rewrite bit_and_bit, bit_not_bit by lia. f_equal. unfold select_mask, first_mask. fold T. fold sb.
      apply unmask_right_bit; lia. }
    destruct (r =? lim); cbn [andb].
    - rewrite set_right_bit by lia. destruct (i =? sb - 1); cbn [negb].
      + rewrite andb_false_r. reflexivity.
      + rewrite U0, andb_true_r. reflexivity.
    - rewrite U0. cbn [negb]. rewrite andb_true_r. reflexivity. }
  rewrite U. destruct (Z.ltb_spec i sb).
  - replace (sb <=? i) with false by lia. cbn [andb orb]. rewrite andb_true_r, !andb_assoc. reflexivity.
  - replace (sb <=? i) with true by lia. cbn [andb].
    rewrite mask_high by (auto; lia). rewrite !andb_false_r. cbn. rewrite ?andb_false_r, ?orb_false_r. reflexivity.
Qed.

Lemma small_bit r i : 0 <= r < screens SB -> SB <= i -> bit r i = false.
Proof.
  intros Hr Hi. destruct lim_facts as (_ & _ & E). rewrite E in Hr.
  apply (testbit_small r SB i); lia.
Qed.

Lemma store_row v e r : 0 <= r < screens SB -> row_of (sieve_store N SB tbl v e r) = r.
Proof.
  intros Hr. destruct st as (B & Sg & C & D). fold T in B, Sg, C, D. pose proof sbr as SR. fold sb T in SR.
  assert (SE : sb = N - SB) by reflexivity.
  assert (FR : fits T r).
  { pose proof lim_fits as [_ X]. destruct lim_facts as (L & _). unfold fits, imin. rewrite Sg. lia. }
  apply (bit_ext T); [exact B|apply row_fits|exact FR|]. intros i Hi.
  rewrite row_bit by lia. destruct (Z.ltb_spec (i + sb) (bits T)); cbn [andb].
  - rewrite store_bit by lia. replace (i + sb <? sb) with false by lia.
    replace (i + sb - sb) with i by lia. reflexivity.
  - symmetry. apply small_bit; lia.
Qed.
Lemma store_fits v e r : fits T (sieve_store N SB tbl v e r).
Proof. destruct st as (B & _). apply fits_wrap. exact B. Qed.

Lemma store_sentinel v e r : 0 <= r < screens SB -> r = lim -> bit (sieve_store N SB tbl v e r) (sb - 1) = false.
Proof.
  intros Hr E. destruct st as (B & Sg & C & D). fold T in B, Sg, C, D. pose proof sbr as SR. fold sb T in SR.
  rewrite store_bit by lia. replace (sb - 1 <? sb) with true by lia.
  replace (r =? lim) with true by lia. rewrite Z.eqb_refl. cbn [andb negb].
  rewrite andb_false_r. cbn [orb].
  destruct HT as (_ & _ & _ & _ & H5).
  replace (bit (mask r r) (sb - 1)) with false; [apply andb_false_r|].
  symmetry. rewrite E. destruct lim_facts as (L & G & _). rewrite L. apply H5. lia.
Qed.

Lemma store_new v e r : 0 <= r < screens SB -> agree (mask r r) (sieve_store N SB tbl v e r) e.
Proof.
  intros Hr i Hi M. destruct st as (B & Sg & C & D). fold T in B, Sg, C, D. pose proof sbr as SR. fold sb T in SR.
  rewrite store_bit by lia. replace (i <? sb) with true by lia. rewrite M. cbn [negb].
  rewrite andb_false_r. cbn. apply andb_true_r.
Qed.
Lemma store_old v e r c f : 0 <= r < screens SB -> 0 <= c < r -> agree (mask (r - 1) c) v f ->
  agree (mask r c) (sieve_store N SB tbl v e r) f.
Proof.
  intros Hr Hc A i Hi M. destruct st as (B & Sg & C & D). fold T in B, Sg, C, D. pose proof sbr as SR. fold sb T in SR.
  destruct HT as (H1 & H2 & H3 & H4 & H5).
  assert (Mn : bit (mask r r) i = false).
  { apply (H2 r c r i); [unfold inr; lia|unfold inr; lia|lia|exact Hi|exact M]. }
  rewrite store_bit by lia. replace (i <? sb) with true by lia. rewrite Mn. cbn [negb].
  rewrite andb_true_r, andb_false_r, orb_false_r.
  replace ((r =? lim) && (i =? sb - 1)) with false.
  - cbn [negb]. rewrite andb_true_r. apply A; [exact Hi|].
    apply (H3 r c); [unfold inr; lia|lia|exact Hi|exact M].
  - symmetry. apply not_true_is_false. intros X.
    destruct lim_facts as (L & G & _).
    assert (r = screens SB - 1) by lia. assert (i = sb - 1) by lia. subst r i.
    change (mask (screens SB - 1) c) with (cell N tbl (screens SB - 1) c) in M.
    rewrite H5 in M by lia. discriminate.
Qed.

(** Cases of a reachable state, for a history of accepted fingerprints. *)
Inductive state : list Z -> Z -> Prop :=
| s_empty : state [] (sieve_empty N)
| s_held fs v : held fs v -> state fs v
| s_sat fs : Z.of_nat (length fs) = screens SB + 1 -> state fs (sieve_saturated N SB).

Lemma screened_empty e : sieve_is_screened_t N SB tbl (sieve_empty N) e = false.
Proof.
  unfold sieve_is_screened_t. rewrite sieve_enabled. fold T sb.
  change (shift_right T (sieve_empty N) sb true) with (row_of (sieve_empty N)).
  rewrite row_empty, !Z.eqb_refl. reflexivity.
Qed.
Lemma screened_saturated e : 2 <= sb -> sieve_is_screened_t N SB tbl (sieve_saturated N SB) e = true.
Proof.
  intros H2. unfold sieve_is_screened_t. rewrite sieve_enabled. fold T sb.
  change (shift_right T (sieve_saturated N SB) sb true) with (row_of (sieve_saturated N SB)).
  rewrite row_saturated, !Z.eqb_refl. pose proof (empty_not_saturated H2).
  destruct (Z.eqb_spec (sieve_saturated N SB) (sieve_empty N)); [congruence|]. reflexivity.
Qed.
Lemma screened_held fs v e : held fs v ->
  (sieve_is_screened_t N SB tbl v e = true <->
   exists c, 0 <= c < Z.of_nat (length fs) /\
     agree (mask (Z.of_nat (length fs) - 1) c) (nth (Z.to_nat c) fs 0) e).
Proof.
  intros H. destruct (held_not_special fs v H) as [NE NS]. destruct H as (F & NN & L & R & Se & A).
  unfold sieve_is_screened_t. rewrite sieve_enabled. fold T sb.
  change (shift_right T v sb true) with (row_of v).
  destruct (Z.eqb_spec v (sieve_empty N)); [congruence|]. rewrite andb_false_r.
  destruct (Z.eqb_spec v (sieve_saturated N SB)); [congruence|]. rewrite andb_false_r.
  assert (length fs <> 0%nat) by (destruct fs; cbn; congruence).
  rewrite match_ok by lia. rewrite R in A |- *.
  split; intros (c & Hc & X); exists c; (split; [lia|]); intros i Hi M.
  - rewrite <- (A c ltac:(lia) i Hi M). apply X; assumption.
  - rewrite (A c ltac:(lia) i Hi M). apply X; assumption.
Qed.

Lemma store_held v e r fs : 0 <= r < screens SB -> length fs = Z.to_nat r ->
  (0 < r -> held fs v) -> held (fs ++ [e]) (sieve_store N SB tbl v e r).
Proof.
  intros Hr Lf H.
  assert (Ln : Z.of_nat (length (fs ++ [e])) = r + 1) by (rewrite app_length; cbn; lia).
  unfold held. rewrite store_row by exact Hr.
  split; [apply store_fits|]. split; [destruct fs; discriminate|]. split; [lia|]. split; [lia|].
  split; [apply store_sentinel; exact Hr|].
  intros c Hc. destruct (Z.eq_dec c r) as [->|].
  - rewrite app_nth2 by lia. replace (Z.to_nat r - length fs)%nat with O by lia. cbn [nth].
    apply store_new. exact Hr.
  - rewrite app_nth1 by lia. apply store_old; [exact Hr|lia|].
    destruct H as (F & NN & L & R & Se & A); [lia|].
    rewrite Lf in R. replace (row_of v) with (r - 1) in A by lia. apply A. lia.
Qed.

Lemma screen_step fs v e : 2 <= sb -> state fs v ->
  (sieve_is_screened_t N SB tbl v e = true -> sieve_screen_t N SB tbl v e = v) /\
  (sieve_is_screened_t N SB tbl v e = false ->
     state (fs ++ [e]) (sieve_screen_t N SB tbl v e) /\ sieve_screen_t N SB tbl v e <> v).
Proof.
  intros H2 St. pose proof (screened_saturated) as SS. pose proof lim_facts as (L & G & _).
  assert (X : sieve_screen_t N SB tbl v e =
    if row_of v =? lim then
      if v =? sieve_empty N then sieve_store N SB tbl v e 0
      else if negb (sieve_is_screened_t N SB tbl v e) then sieve_saturated N SB else v
    else if sieve_is_screened_t N SB tbl v e then v
    else sieve_store N SB tbl v e (row_of v + 1)).
  { unfold sieve_screen_t. rewrite sieve_enabled. reflexivity. }
  rewrite X. clear X. inversion St as [E1 E2|? ? H E1 E2|? H E1 E2]; subst.
  - rewrite screened_empty, row_empty, !Z.eqb_refl. split; [discriminate|]. intros _.
    assert (Hh : held ([] ++ [e]) (sieve_store N SB tbl (sieve_empty N) e 0)).
    { apply store_held; [lia|reflexivity|lia]. }
    split; [apply s_held; exact Hh|]. apply (held_not_special _ _ Hh).
  - destruct (held_not_special fs v H) as [NE NS]. pose proof H as (F & NN & Ln & R & Se & A).
    destruct (Z.eqb_spec v (sieve_empty N)); [congruence|].
    assert (length fs <> 0%nat) by (destruct fs; cbn; congruence).
    destruct (Z.eqb_spec (row_of v) lim) as [Er|Er].
    + split; intros S; rewrite S; cbn [negb]; [reflexivity|].
      split; [|congruence]. apply s_sat. rewrite app_length. cbn [length]. lia.
    + split; intros S; rewrite S; [reflexivity|].
      assert (Hh : held (fs ++ [e]) (sieve_store N SB tbl v e (row_of v + 1))).
      { apply store_held; [lia|lia|]. intros _. exact H. }
      split; [apply s_held; exact Hh|]. intros E.
      assert (row_of (sieve_store N SB tbl v e (row_of v + 1)) = row_of v) by (rewrite E; reflexivity).
      rewrite store_row in H1 by lia. lia.
  - rewrite SS by exact H2. rewrite row_saturated, Z.eqb_refl. cbn [negb].
    pose proof (empty_not_saturated H2).
    destruct (Z.eqb_spec (sieve_saturated N SB) (sieve_empty N)); [congruence|].
    split; [reflexivity|discriminate].
Qed.

Lemma step_keeps fs v e f : 2 <= sb -> state fs v ->
  sieve_is_screened_t N SB tbl v f = true ->
  sieve_is_screened_t N SB tbl (sieve_screen_t N SB tbl v e) f = true.
Proof.
  intros H2 St Sc. destruct (screen_step fs v e H2 St) as [K1 K2].
  destruct (sieve_is_screened_t N SB tbl v e) eqn:E.
  - rewrite K1 by reflexivity. exact Sc.
  - destruct K2 as [St' Ne]; [reflexivity|].
    inversion St' as [E1 E2|? ? H E1 E2|? H E1 E2]; subst.
    + destruct fs; discriminate.
    + inversion St as [E1 E2|? ? H' E1 E2|? H' E1 E2]; subst.
      * rewrite screened_empty in Sc. discriminate.
      * pose proof H' as (F & NN & Ln & R & Se & A).
        apply (screened_held _ _ _ H') in Sc. destruct Sc as (c & Hc & Ag).
        apply (screened_held _ _ _ H). exists c. rewrite app_length. cbn [length].
        split; [lia|]. rewrite app_nth1 by lia.
        replace (Z.of_nat (length fs + 1) - 1) with (Z.of_nat (length fs)) by lia.
        pose proof H as (_ & _ & Ln' & _). rewrite app_length in Ln'. cbn [length] in Ln'.
        intros i Hi M. apply Ag; [exact Hi|]. destruct HT as (_ & _ & H3 & _).
        apply (H3 (Z.of_nat (length fs)) c); [unfold inr; lia|lia|exact Hi|exact M].
      * pose proof H as (_ & _ & Ln' & _). rewrite app_length in Ln'. lia.
    + apply screened_saturated. exact H2.
Qed.

Lemma step_adds fs v e : 2 <= sb -> state fs v ->
  sieve_is_screened_t N SB tbl (sieve_screen_t N SB tbl v e) e = true.
Proof.
  intros H2 St. destruct (screen_step fs v e H2 St) as [K1 K2].
  destruct (sieve_is_screened_t N SB tbl v e) eqn:E.
  - rewrite K1 by reflexivity. exact E.
  - destruct K2 as [St' Ne]; [reflexivity|].
    inversion St' as [E1 E2|? ? H E1 E2|? H E1 E2]; subst.
    + destruct fs; discriminate.
    + apply (screened_held _ _ _ H). exists (Z.of_nat (length fs)). rewrite app_length. cbn [length].
      split; [lia|]. rewrite app_nth2 by lia.
      replace (Z.to_nat (Z.of_nat (length fs)) - length fs)%nat with O by lia. intros i Hi M. reflexivity.
    + apply screened_saturated. exact H2.
Qed.
End Sieve.
