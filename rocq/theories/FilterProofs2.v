(** Proofs for the sieve: the mask table. *)
From Verif Require Import Base MathModel MathSpec MathProofs MathProofs2 BitProofs FilterModel FilterProofs.

Lemma set_nth_length n v t : length (set_nth n v t) = length t.
Proof. revert n; induction t as [|x t IH]; intros [|n]; cbn; congruence. Qed.
Lemma set_nth_nth n m v t d : (n < length t)%nat ->
  nth m (set_nth n v t) d = if Nat.eqb m n then v else nth m t d.
Proof.
  revert n m; induction t as [|x t IH]; intros n m H; cbn in H; [lia|].
  destruct n as [|n], m as [|m]; cbn; try reflexivity.
  apply IH. lia.
Qed.
Lemma tget_tset t i j v : 0 <= i < Z.of_nat (length t) -> 0 <= j ->
  tget (tset t i v) j = if j =? i then v else tget t j.
Proof.
  intros Hi Hj. unfold tget, tset. rewrite set_nth_nth by lia.
  destruct (Nat.eqb_spec (Z.to_nat j) (Z.to_nat i)), (Z.eqb_spec j i); try reflexivity; lia.
Qed.
Lemma tset_length t i v : length (tset t i v) = length t.
Proof. apply set_nth_length. Qed.

Lemma countr_zero_low n i v : countr_zero_from n i v < i + Z.of_nat n ->
  Z.testbit v (countr_zero_from n i v) = true.
Proof.
  revert i; induction n as [|n IH]; intros i H; cbn in *; [lia|].
  destruct (Z.testbit v i) eqn:E; [exact E|]. apply IH. lia.
Qed.
Lemma countr_zero_ge n i v : i <= countr_zero_from n i v.
Proof.
  revert i; induction n as [|n IH]; intros i; cbn; [lia|].
  destruct (Z.testbit v i); [lia|]. specialize (IH (i + 1)). lia.
Qed.

Section Sieve.
Variables N SB : Z.
Hypothesis HS : 1 <= SB < N.
Hypothesis HN : N <= 64.
Let T := filter_type N.
Hypothesis HW : 2 * SB <= bits T.

Lemma st : 0 < bits T /\ sg T = false /\ N <= bits T /\ bits T <= 64.
Proof. apply filter_type_facts. lia. Qed.

Lemma screens_eq : screens SB = 2 ^ SB.
Proof.
  unfold screens, shift_left. destruct st as (B & Sg & C & D).
  change (bits u64) with 64. replace (64 <=? SB) with false by lia. cbn [andb].
  rewrite Z.mod_small by lia. rewrite Z.shiftl_mul_pow2 by lia.
  replace (wrap (unsigned_of u64) 1) with 1 by reflexivity.
  rewrite Z.mul_1_l. apply wrap_fits; [reflexivity|].
  unfold fits. change (imin u64) with 0. change (imax u64) with (2 ^ 64 - 1).
  assert (2 ^ SB < 2 ^ 64) by (apply Z.pow_lt_mono_r; lia).
  pose proof (pow2_pos SB). lia.
Qed.
Lemma screens_ge : 2 <= screens SB.
Proof. rewrite screens_eq. change 2 with (2 ^ 1) at 1. apply Z.pow_le_mono_r; lia. Qed.

Lemma offset_eq r : 0 <= r < screens SB -> offset N r = r * (r + 1) / 2.
Proof.
  intros H. unfold offset. fold T. destruct st as (B & Sg & C & D).
  rewrite screens_eq in H.
  assert (r * (r + 1) <= imax T).
  { unfold imax. rewrite Sg.
    assert (2 ^ (2 * SB) <= 2 ^ bits T) by (apply Z.pow_le_mono_r; lia).
    replace (2 * SB) with (SB + SB) in H0 by lia. rewrite Z.pow_add_r in H0 by lia. nia. }
  destruct (Z.gtb_spec (r * (r + 1)) (imax T)); [lia|reflexivity].
Qed.

Lemma tri_step r : 0 <= r -> (r + 1) * (r + 1 + 1) / 2 = r * (r + 1) / 2 + (r + 1).
Proof.
  intros H. replace ((r + 1) * (r + 1 + 1)) with (r * (r + 1) + (r + 1) * 2) by lia.
  apply Z.div_add. lia.
Qed.
Lemma tri_mono r n : 0 <= r -> r * (r + 1) / 2 + (r + 1) <= (r + 1 + Z.of_nat n) * (r + 1 + Z.of_nat n + 1) / 2.
Proof.
  intros H. induction n as [|n IH].
  - rewrite Z.add_0_r. rewrite tri_step by lia. lia.
  - replace (r + 1 + Z.of_nat (S n)) with (r + 1 + Z.of_nat n + 1) by lia.
    rewrite tri_step by lia. lia.
Qed.
Lemma offset_lt r r' : 0 <= r < r' -> r' < screens SB -> offset N r + (r + 1) <= offset N r'.
Proof.
  intros H H'. rewrite !offset_eq by lia.
  pose proof (tri_mono r (Z.to_nat (r' - r - 1)) ltac:(lia)) as M.
  replace (r + 1 + Z.of_nat (Z.to_nat (r' - r - 1))) with r' in M by lia. exact M.
Qed.
Lemma offset_nonneg r : 0 <= r < screens SB -> 0 <= offset N r.
Proof. intros H. rewrite offset_eq by lia. apply Z.div_pos; nia. Qed.

Definition len_ok (t : list Z) : Prop := Z.of_nat (length t) = mask_count SB.
Lemma index_ok r c : 0 <= r < screens SB -> 0 <= c <= r -> 0 <= offset N r + c < mask_count SB.
Proof.
  intros H Hc. pose proof (offset_nonneg r H). split; [lia|].
  unfold mask_count. rewrite offset_eq by lia.
  pose proof (tri_mono r (Z.to_nat (screens SB - r - 1)) ltac:(lia)) as M.
  replace (r + 1 + Z.of_nat (Z.to_nat (screens SB - r - 1))) with (screens SB) in M by lia. lia.
Qed.
Lemma index_inj r c r' c' : 0 <= r < screens SB -> 0 <= r' < screens SB -> 0 <= c <= r -> 0 <= c' <= r' ->
  offset N r + c = offset N r' + c' -> r = r' /\ c = c'.
Proof.
  intros H H' Hc Hc' E. destruct (Z.lt_trichotomy r r') as [L|[->|L]]; [|lia|].
  - pose proof (offset_lt r r' ltac:(lia) ltac:(lia)). lia.
  - pose proof (offset_lt r' r ltac:(lia) ltac:(lia)). lia.
Qed.

(** Cell (r, c) of a table. *)
Definition cell (t : list Z) (r c : Z) : Z := tget t (offset N r + c).
Definition inr (r c : Z) : Prop := 0 <= r < screens SB /\ 0 <= c <= r.

Lemma cell_set t r c v r' c' : len_ok t -> inr r c -> inr r' c' ->
  cell (tset t (offset N r + c) v) r' c' = if (r' =? r) && (c' =? c) then v else cell t r' c'.
Proof.
  intros L [H1 H2] [H3 H4]. unfold cell. pose proof (index_ok r c H1 H2). pose proof (index_ok r' c' H3 H4).
  rewrite tget_tset by (unfold len_ok in L; lia).
  destruct (Z.eqb_spec (offset N r' + c') (offset N r + c)) as [E|E].
  - destruct (index_inj r' c' r c H3 H1 H4 H2 E) as [-> ->]. rewrite !Z.eqb_refl. reflexivity.
  - destruct (Z.eqb_spec r' r), (Z.eqb_spec c' c); subst; try reflexivity. exfalso. apply E. reflexivity.
Qed.
Lemma len_ok_set t i v : len_ok t -> len_ok (tset t i v).
Proof. unfold len_ok. rewrite tset_length. auto. Qed.

(** Bits of a mask: only screen bits. *)
Let sb := screen_bits N SB.
Lemma sb_range : 1 <= sb < bits T.
Proof. destruct st as (B & Sg & C & D). subst sb. unfold screen_bits. lia. Qed.
Definition mask_ok (m : Z) : Prop := fits T m /\ forall i, sb <= i < bits T -> bit m i = false.

(** A row whose masks partition the screen bits. *)
Definition part (t : list Z) (r : Z) : Prop :=
  (forall c, 0 <= c <= r -> mask_ok (cell t r c)) /\
  (forall c c' i, 0 <= c <= r -> 0 <= c' <= r -> c <> c' -> 0 <= i < sb ->
     bit (cell t r c) i = true -> bit (cell t r c') i = false) /\
  (forall i, 0 <= i < sb -> exists c, 0 <= c <= r /\ bit (cell t r c) i = true).
Definition subset (a b : Z) : Prop := forall i, 0 <= i < sb -> bit a i = true -> bit b i = true.

Lemma move_ok row col n t : len_ok t -> 0 <= row < screens SB -> 0 <= col < row -> part t row ->
  let t' := move_bits N SB row col n t in
  len_ok t' /\ part t' row /\
  (forall c, 0 <= c < row -> subset (cell t' row c) (cell t row c)) /\
  (forall r c, inr r c -> r <> row -> cell t' r c = cell t r c).
Proof.
  destruct st as (B & Sg & C & D). pose proof sb_range as SBR.
  revert t. induction n as [|n IH]; intros t L HR HC P; cbn [move_bits].
  { cbv zeta. split; [exact L|]. split; [exact P|]. split; [|reflexivity].
    intros c Hc i Hi X. exact X. }
  fold sb. fold T.
  set (b := right_zeros N (tget t (offset N row + col))).
  destruct (Z.ltb_spec b sb) as [Hb|Hb].
  2:{ cbv zeta. split; [exact L|]. split; [exact P|]. split; [|reflexivity].
      intros c Hc i Hi X. exact X. }
  assert (B0 : 0 <= b) by apply countr_zero_ge.
  assert (BT : bit (cell t row col) b = true).
  { unfold bit, cell. apply countr_zero_low. unfold W. fold T.
    change (b < 0 + Z.of_nat (Z.to_nat (bits T))). lia. }
  set (t1 := tset t (offset N row + col) _).
  set (t2 := tset t1 (offset N row + row) _).
  assert (IC : inr row col) by (unfold inr; lia).
  assert (IR : inr row row) by (unfold inr; lia).
  assert (L1 : len_ok t1) by (apply len_ok_set; exact L).
  assert (L2 : len_ok t2) by (apply len_ok_set; exact L1).
  assert (C2 : forall r c, inr r c -> cell t2 r c =
            if (r =? row) && (c =? row) then set_right T (cell t row row) b true
            else if (r =? row) && (c =? col) then set_right T (cell t row col) b false
            else cell t r c).
  { intros r c I. unfold t2. rewrite cell_set by assumption.
    destruct ((r =? row) && (c =? row)).
    - unfold t1. change (tget ?x (offset N row + row)) with (cell x row row).
      rewrite cell_set by assumption. replace (row =? col) with false by lia.
      rewrite andb_false_r. reflexivity.
    - unfold t1. rewrite cell_set by assumption. reflexivity. }
  assert (C2' : forall c, 0 <= c <= row -> cell t2 row c =
            if c =? row then set_right T (cell t row row) b true
            else if c =? col then set_right T (cell t row col) b false
            else cell t row c).
  { intros c Hc. rewrite C2 by (unfold inr; lia). rewrite Z.eqb_refl. reflexivity. }
  assert (CB : forall c i, 0 <= c <= row -> 0 <= i < bits T -> bit (cell t2 row c) i =
            if i =? b then c =? row else bit (cell t row c) i).
  { intros c i Hc Hi. destruct P as (P1 & P2 & P3). rewrite C2' by assumption.
    destruct (Z.eqb_spec c row) as [->|].
    - rewrite set_right_bit by lia. reflexivity.
    - destruct (Z.eqb_spec c col) as [->|].
      + rewrite set_right_bit by lia. reflexivity.
      + destruct (Z.eqb_spec i b) as [->|]; [|reflexivity].
        apply (P2 col c); auto; lia. }
  assert (P' : part t2 row).
  { destruct P as (P1 & P2 & P3). split; [|split].
    - intros c Hc. split.
      + rewrite C2' by assumption. destruct (c =? row); [apply fits_wrap; exact B|].
        destruct (c =? col); [apply fits_wrap; exact B|]. apply P1; assumption.
      + intros i Hi. rewrite CB by lia. destruct (Z.eqb_spec i b); [lia|].
        apply P1; [assumption|lia].
    - intros c c' i Hc Hc' Hne Hi. rewrite !CB by lia. destruct (Z.eqb_spec i b).
      + intros X. lia.
      + apply P2; assumption.
    - intros i Hi. destruct (Z.eqb_spec i b) as [->|Hne].
      + exists row. split; [lia|]. rewrite CB by lia. rewrite Z.eqb_refl. lia.
      + destruct (P3 i Hi) as (c & Hc & X). exists c. split; [exact Hc|].
        rewrite CB by lia. destruct (Z.eqb_spec i b); [lia|exact X]. }
  specialize (IH t2 L2 HR HC P'). cbv zeta in IH |- *.
  destruct IH as (I1 & I2 & I3 & I4). split; [exact I1|]. split; [exact I2|]. split.
  - intros c Hc i Hi X. apply (I3 c Hc i Hi) in X. rewrite CB in X by lia.
    destruct (Z.eqb_spec i b); [lia|exact X].
  - intros r c I Hne. rewrite I4 by assumption. rewrite C2 by assumption.
    replace (r =? row) with false by lia. reflexivity.
Qed.

Lemma copy_ok row t : len_ok t -> 1 <= row < screens SB ->
  let t' := copy_row N row t in
  len_ok t' /\ (forall c, 0 <= c < row -> cell t' row c = cell t (row - 1) c) /\
  cell t' row row = cell t row row /\
  (forall r c, inr r c -> r <> row -> cell t' r c = cell t r c).
Proof.
  intros L HR. cbv zeta. unfold copy_row.
  assert (G : forall n, Z.of_nat n <= row ->
    let t' := fold_left (fun t c => let col := Z.of_nat c in
               tset t (offset N row + col) (tget t (offset N (row - 1) + col))) (seq 0 n) t in
    len_ok t' /\ (forall c, 0 <= c < Z.of_nat n -> cell t' row c = cell t (row - 1) c) /\
    (forall c, Z.of_nat n <= c <= row -> cell t' row c = cell t row c) /\
    (forall r c, inr r c -> r <> row -> cell t' r c = cell t r c)).
  { induction n as [|n IH]; intros Hn.
    - cbn [seq fold_left]. cbv zeta. split; [exact L|]. split; [intros; lia|]. split; reflexivity.
    - rewrite seq_S, fold_left_app. cbn [fold_left plus].
      specialize (IH ltac:(lia)). cbv zeta in IH |- *.
      set (t1 := fold_left _ (seq 0 n) t) in *. destruct IH as (I1 & I2 & I3 & I4).
      change (tget t1 (offset N (row - 1) + Z.of_nat n)) with (cell t1 (row - 1) (Z.of_nat n)).
      assert (IC : inr row (Z.of_nat n)) by (unfold inr; lia).
      split; [apply len_ok_set; exact I1|]. split; [|split].
      + intros c Hc. rewrite cell_set by (try assumption; unfold inr; lia). rewrite Z.eqb_refl. cbn [andb].
        destruct (Z.eqb_spec c (Z.of_nat n)) as [->|].
        * rewrite I4 by (unfold inr; lia). reflexivity.
        * apply I2. lia.
      + intros c Hc. rewrite cell_set by (try assumption; unfold inr; lia).
        replace (c =? Z.of_nat n) with false by lia. rewrite andb_false_r. apply I3. lia.
      + intros r c I Hne. rewrite cell_set by assumption.
        replace (r =? row) with false by lia. cbn [andb]. apply I4; assumption. }
  destruct (G (Z.to_nat row) ltac:(lia)) as (I1 & I2 & I3 & I4).
  split; [exact I1|]. split; [intros; apply I2; lia|]. split; [apply I3; lia|exact I4].
Qed.

Definition zero_row (t : list Z) (r : Z) : Prop := forall c, 0 <= c <= r -> cell t r c = 0.

Lemma row_ok row t : len_ok t -> 1 <= row < screens SB -> part t (row - 1) -> zero_row t row ->
  let t' := make_row N SB t row in
  len_ok t' /\ part t' row /\
  (forall c, 0 <= c < row -> subset (cell t' row c) (cell t (row - 1) c)) /\
  (forall r c, inr r c -> r <> row -> cell t' r c = cell t r c).
Proof.
  destruct st as (B & Sg & C & D). pose proof sb_range as SBR.
  intros L HR P Zr. cbv zeta. unfold make_row.
  destruct (copy_ok row t L HR) as (L1 & C1 & C2 & C3).
  set (t1 := copy_row N row t) in *.
  assert (P1 : part t1 row).
  { destruct P as (Q1 & Q2 & Q3).
    assert (Z0 : cell t1 row row = 0) by (rewrite C2; apply Zr; lia).
    split; [|split].
    - intros c Hc. destruct (Z.eq_dec c row) as [->|].
      + rewrite Z0. split; [apply fits_0; exact B|]. intros i Hi. apply Z.testbit_0_l.
      + rewrite C1 by lia. apply Q1. lia.
    - intros c c' i Hc Hc' Hne Hi. destruct (Z.eq_dec c row) as [->|].
      + rewrite Z0. unfold bit at 1. rewrite Z.testbit_0_l. discriminate.
      + destruct (Z.eq_dec c' row) as [->|].
        * rewrite Z0. intros _. apply Z.testbit_0_l.
        * rewrite !C1 by lia. apply Q2; lia.
    - intros i Hi. destruct (Q3 i Hi) as (c & Hc & X). exists c. split; [lia|].
      rewrite C1 by lia. exact X. }
  assert (G : forall cols t2, Forall (fun c => 0 <= c < row) cols ->
     len_ok t2 -> part t2 row ->
     let t' := fold_left (split_col N SB row) cols t2 in
     len_ok t' /\ part t' row /\
     (forall c, 0 <= c < row -> subset (cell t' row c) (cell t2 row c)) /\
     (forall r c, inr r c -> r <> row -> cell t' r c = cell t2 r c)).
  { induction cols as [|col cols IH]; intros t2 F L2 P2; cbn [fold_left].
    - cbv zeta. split; [exact L2|]. split; [exact P2|]. split; [|reflexivity].
      intros c Hc i Hi X. exact X.
    - inversion F as [|? ? Hc F']; subst. unfold split_col at 2.
      set (n := Z.to_nat _).
      destruct (move_ok row col n t2 L2 ltac:(lia) Hc P2) as (M1 & M2 & M3 & M4).
      set (t3 := move_bits N SB row col n t2) in *.
      specialize (IH t3 F' M1 M2). cbv zeta in IH |- *. destruct IH as (I1 & I2 & I3 & I4).
      split; [exact I1|]. split; [exact I2|]. split.
      + intros c Hc' i Hi X. apply (M3 c Hc' i Hi). apply (I3 c Hc' i Hi). exact X.
      + intros r c I Hne. rewrite I4, M4 by assumption. reflexivity. }
  specialize (G (map Z.of_nat (rev (seq 0 (Z.to_nat row)))) t1).
  destruct G as (I1 & I2 & I3 & I4).
  - apply Forall_forall. intros x Hx. apply in_map_iff in Hx. destruct Hx as (k & <- & Hk).
    apply in_rev in Hk. apply in_seq in Hk. lia.
  - exact L1.
  - exact P1.
  - split; [exact I1|]. split; [exact I2|]. split.
    + intros c Hc i Hi X. apply (I3 c Hc i Hi) in X. rewrite C1 in X by lia. exact X.
    + intros r c I Hne. rewrite I4, C3 by assumption. reflexivity.
Qed.

Lemma first_ok : len_ok (first_table N SB) /\ part (first_table N SB) 0 /\
  forall r, 1 <= r < screens SB -> zero_row (first_table N SB) r.
Proof.
  destruct st as (B & Sg & C & D). pose proof sb_range as SBR. pose proof screens_ge as SG.
  assert (MC : 0 <= mask_count SB) by (unfold mask_count; apply Z.div_pos; nia).
  assert (L0 : len_ok (repeat 0 (Z.to_nat (mask_count SB)))).
  { unfold len_ok. rewrite repeat_length. lia. }
  assert (O0 : offset N 0 = 0) by (rewrite offset_eq by lia; reflexivity).
  assert (Z0 : forall r c, cell (repeat 0 (Z.to_nat (mask_count SB))) r c = 0).
  { intros. unfold cell, tget. apply nth_repeat. }
  assert (FT : first_table N SB = tset (repeat 0 (Z.to_nat (mask_count SB))) (offset N 0 + 0) (first_mask N SB)).
  { unfold first_table. rewrite O0. reflexivity. }
  rewrite FT.
  split; [apply len_ok_set; exact L0|]. split.
  - assert (E : cell (tset (repeat 0 (Z.to_nat (mask_count SB))) (offset N 0 + 0) (first_mask N SB)) 0 0 = first_mask N SB).
    { rewrite cell_set by (try assumption; unfold inr; lia). reflexivity. }
    split; [|split].
    + intros c Hc. replace c with 0 by lia. rewrite E. split.
      * apply fits_wrap. exact B.
      * intros i Hi. unfold first_mask. fold T. fold sb. rewrite unmask_right_bit by lia. lia.
    + intros; lia.
    + intros i Hi. exists 0. split; [lia|]. rewrite E. unfold first_mask. fold T. fold sb.
      rewrite unmask_right_bit by lia. lia.
  - intros r Hr c Hc. rewrite cell_set by (try assumption; unfold inr; lia).
    replace (r =? 0) with false by lia. apply Z0.
Qed.

(** The table before the sentinel is removed from the last row. *)
Lemma rows_ok n : 1 + Z.of_nat n <= screens SB ->
  let t := fold_left (make_row N SB) (map Z.of_nat (seq 1 n)) (first_table N SB) in
  len_ok t /\ (forall r, 0 <= r <= Z.of_nat n -> part t r) /\
  (forall r c, 1 <= r <= Z.of_nat n -> 0 <= c < r -> subset (cell t r c) (cell t (r - 1) c)) /\
  (forall r, Z.of_nat n < r < screens SB -> zero_row t r).
Proof.
  destruct first_ok as (F1 & F2 & F3). pose proof screens_ge as SG.
  induction n as [|n IH]; intros Hn.
  - cbn [seq map fold_left]. cbv zeta. split; [exact F1|]. split.
    + intros r Hr. replace r with 0 by lia. exact F2.
    + split; [intros; lia|]. intros r Hr. apply F3. lia.
  - rewrite seq_S, map_app, fold_left_app. cbn [map fold_left].
    specialize (IH ltac:(lia)). cbv zeta in IH |- *.
    set (t := fold_left (make_row N SB) (map Z.of_nat (seq 1 n)) (first_table N SB)) in *.
    destruct IH as (I1 & I2 & I3 & I4).
    replace (Z.of_nat (1 + n)) with (Z.of_nat (S n)) by lia.
    set (row := Z.of_nat (S n)) in *.
    assert (RR : 1 <= row < screens SB) by lia.
    destruct (row_ok row t I1 RR) as (R1 & R2 & R3 & R4).
    { replace (row - 1) with (Z.of_nat n) by lia. apply I2. lia. }
    { apply I4. lia. }
    set (t' := make_row N SB t row) in *.
    assert (FR : forall r, 0 <= r < screens SB -> r <> row -> forall c, 0 <= c <= r -> cell t' r c = cell t r c).
    { intros r Hr Hne c Hc. apply R4; [unfold inr; lia|exact Hne]. }
    split; [exact R1|]. split; [|split].
    + intros r Hr. destruct (Z.eq_dec r row) as [->|]; [exact R2|].
      destruct (I2 r ltac:(lia)) as (P1 & P2 & P3). split; [|split].
      * intros c Hc. rewrite FR by lia. auto.
      * intros c c' i Hc Hc'. rewrite !FR by lia. apply P2; assumption.
      * intros i Hi. destruct (P3 i Hi) as (c & Hc & X). exists c. split; [exact Hc|].
        rewrite FR by lia. exact X.
    + intros r c Hr Hc. destruct (Z.eq_dec r row) as [->|].
      * rewrite (FR (row - 1)) by lia. apply R3. lia.
      * rewrite !FR by lia. apply I3; lia.
    + intros r Hr c Hc. rewrite FR by lia. apply I4; lia.
Qed.

(** The finished table. *)
Definition table_ok (t : list Z) : Prop :=
  (forall r c, inr r c -> mask_ok (cell t r c)) /\
  (forall r c c' i, inr r c -> inr r c' -> c <> c' -> 0 <= i < sb ->
     bit (cell t r c) i = true -> bit (cell t r c') i = false) /\
  (forall r c, inr r c -> c < r -> subset (cell t r c) (cell t (r - 1) c)) /\
  (forall r i, 0 <= r < screens SB -> 0 <= i < sb -> (r = screens SB - 1 -> i <> sb - 1) ->
     exists c, 0 <= c <= r /\ bit (cell t r c) i = true) /\
  (forall c, 0 <= c < screens SB -> bit (cell t (screens SB - 1) c) (sb - 1) = false).

Lemma generated_ok : table_ok (generate_masks N SB).
Proof.
  destruct st as (B & Sg & C & D). pose proof sb_range as SBR. pose proof screens_ge as SG.
  pose proof (rows_ok (Z.to_nat (screens SB - 1)) ltac:(lia)) as R. cbv zeta in R.
  unfold generate_masks. fold T.
  set (t := fold_left (make_row N SB) (map Z.of_nat (seq 1 (Z.to_nat (screens SB - 1)))) (first_table N SB)) in *.
  destruct R as (I1 & I2 & I3 & _).
  replace (Z.of_nat (Z.to_nat (screens SB - 1))) with (screens SB - 1) in * by lia.
  set (last := screens SB - 1) in *.
  change (sentinel N SB) with (sb - 1).
  assert (G : forall n, Z.of_nat n <= screens SB ->
    let t' := fold_left (fun t c => let i := offset N last + Z.of_nat c in
               tset t i (set_right T (tget t i) (sb - 1) false)) (seq 0 n) t in
    len_ok t' /\
    (forall r c, inr r c -> cell t' r c =
       if (r =? last) && (c <? Z.of_nat n) then set_right T (cell t r c) (sb - 1) false else cell t r c)).
  { induction n as [|n IH]; intros Hn.
    - cbn [seq fold_left]. cbv zeta. split; [exact I1|]. intros r c [A A'].
      replace (c <? Z.of_nat 0) with false by lia. rewrite andb_false_r. reflexivity.
    - rewrite seq_S, fold_left_app. cbn [fold_left plus].
      specialize (IH ltac:(lia)). cbv zeta in IH |- *.
      set (t1 := fold_left _ (seq 0 n) t) in *. destruct IH as (J1 & J2).
      change (tget t1 (offset N last + Z.of_nat n)) with (cell t1 last (Z.of_nat n)).
      assert (IC : inr last (Z.of_nat n)) by (unfold inr; lia).
      split; [apply len_ok_set; exact J1|]. intros r c I. rewrite cell_set by assumption.
      rewrite !J2 by assumption.
      destruct (Z.eqb_spec r last) as [->|]; cbn [andb]; [|reflexivity].
      destruct (Z.eqb_spec c (Z.of_nat n)) as [->|].
      + rewrite Z.eqb_refl. replace (Z.of_nat n <? Z.of_nat n) with false by lia.
        replace (Z.of_nat n <? Z.of_nat (S n)) with true by lia. reflexivity.
      + destruct (Z.ltb_spec c (Z.of_nat n)), (Z.ltb_spec c (Z.of_nat (S n))); try reflexivity; lia. }
  destruct (G (Z.to_nat (screens SB)) ltac:(lia)) as (J1 & J2).
  set (t' := fold_left _ (seq 0 (Z.to_nat (screens SB))) t) in *.
  assert (E : forall r c i, inr r c -> 0 <= i < bits T -> bit (cell t' r c) i =
     if (r =? last) && (i =? sb - 1) then false else bit (cell t r c) i).
  { intros r c i I Hi. rewrite J2 by assumption. destruct I as [I I'].
    destruct (Z.eqb_spec r last) as [->|]; cbn [andb]; [|reflexivity].
    replace (c <? Z.of_nat (Z.to_nat (screens SB))) with true by lia.
    rewrite set_right_bit by lia. reflexivity. }
  assert (SBT : forall i, 0 <= i < sb -> 0 <= i < bits T) by (intros; lia).
  split; [|split; [|split; [|split]]].
  - intros r c I. destruct (I2 r) as (P1 & P2 & P3); [destruct I; lia|]. split.
    + rewrite J2 by assumption. destruct (_ && _); [apply fits_wrap; exact B|].
      apply P1. destruct I; lia.
    + intros i Hi. rewrite E by (try assumption; lia). destruct (_ && _); [reflexivity|].
      apply P1; [destruct I; lia|exact Hi].
  - intros r c c' i I I' Hne Hi. rewrite !E by (try assumption; auto). destruct (_ && _); [discriminate|].
    destruct (I2 r) as (P1 & P2 & P3); [destruct I; lia|]. destruct I, I'. apply P2; auto.
  - intros r c I Hc i Hi. assert (I' : inr (r - 1) c) by (destruct I; unfold inr; lia).
    rewrite !E by (try assumption; auto).
    replace (r - 1 =? last) with false by (destruct I; lia). cbn [andb].
    destruct (_ && _); [discriminate|]. apply I3; destruct I; lia.
  - intros r i Hr Hi HL. destruct (I2 r ltac:(lia)) as (P1 & P2 & P3).
    destruct (P3 i Hi) as (c & Hc & X). exists c. split; [exact Hc|].
    rewrite E by (try (unfold inr; lia); auto).
    destruct (Z.eqb_spec r last); cbn [andb]; [|exact X].
    destruct (Z.eqb_spec i (sb - 1)); [exfalso; apply HL; auto; lia|exact X].
  - intros c Hc. rewrite E by (try (unfold inr; lia); lia). rewrite !Z.eqb_refl. reflexivity.
Qed.
End Sieve.
