(** The composition table. *)
From Verif Require Import Base UniData UniModel UniSpec UniProofs UniTables UniTables2.
From Coq Require Import FMapPositive.

Lemma pairs_length : length composition_pairs = Z.to_nat 2823.
Proof. vm_cast_no_check (eq_refl (Z.to_nat 2823)). Qed.
Lemma pairs_read i : 0 <= i < 2823 -> exists v, at_ composition_pairs i = Some v.
Proof.
  intro H. unfold at_. replace (i <? 0) with false by lia. destruct (nth_error composition_pairs (Z.to_nat i)) as [v|] eqn:E; [exists v; reflexivity|].
  apply nth_error_None in E. rewrite pairs_length in E. lia.
Qed.
Definition pair_row (m a b y : Z) : Prop :=
  0 <= m < 941 /\ at_ composition_pairs (m * 3) = Some a /\ at_ composition_pairs (m * 3 + 1) = Some b /\ at_ composition_pairs (m * 3 + 2) = Some y.
Lemma row_exists m : 0 <= m < 941 -> exists a b y, pair_row m a b y.
Proof.
  intro H. destruct (pairs_read (m * 3)) as [a A]; [lia|]. destruct (pairs_read (m * 3 + 1)) as [b B]; [lia|]. destruct (pairs_read (m * 3 + 2)) as [y Y]; [lia|].
  exists a, b, y. repeat split; try assumption; lia.
Qed.
Lemma row_lib m a b y : pair_row m a b y -> row (mk composition_pairs) m = (a, b, y).
Proof. intros (_ & A & B & Y). unfold row. rewrite !get_at, A, B, Y. reflexivity. Qed.
Lemma search_ok f : forall lo hi a b, 0 <= lo <= hi -> hi <= 941 -> hi - lo < Z.of_nat f ->
  exists y, pair_search (at_ composition_pairs) f lo hi a b = Some y /\ (y = 0 \/ exists m, pair_row m a b y).
Proof.
  induction f as [|f IH]; intros lo hi a b L H F; [lia|]. cbn [pair_search].
  destruct (Z.ltb_spec lo hi) as [K|K]; [|exists 0; auto]. cbv zeta. set (m := (lo + hi) / 2).
  assert (M : lo <= m < hi) by (subst m; split; [apply Z.div_le_lower_bound; lia|apply Z.div_lt_upper_bound; lia]). clearbody m.
  destruct (row_exists m) as (al & br & y & R); [lia|]. pose proof R as (_ & A & B & Y). rewrite A. cbn [obind]. rewrite B. cbn [obind].
  destruct ((al <? a) || ((al =? a) && (br <? b))) eqn:E1; [apply IH; lia|].
  destruct ((a <? al) || ((al =? a) && (b <? br))) eqn:E2; [apply IH; lia|].
  exists y. split; [exact Y|]. right. exists m. assert (al = a) by lia. assert (br = b) by lia. subst. exact R.
Qed.

(** The rows are sorted, so the search finds every row. *)
Definition key (m : Z) : Z := match at_ composition_pairs (m * 3), at_ composition_pairs (m * 3 + 1) with Some a, Some b => a * 2 ^ 21 + b | _, _ => 0 end.
Definition check_sorted (Q : PositiveMap.t Z) : bool :=
  forallb (fun m => match get Q (m * 3), get Q (m * 3 + 1), get Q (m * 3 + 3), get Q (m * 3 + 4) with
    | Some a, Some b, Some a', Some b' => (0 <=? b) && (b <? 2 ^ 21) && (0 <=? b') && (b' <? 2 ^ 21) && (a * 2 ^ 21 + b <? a' * 2 ^ 21 + b')
    | _, _, _, _ => false end) (zrange 940).
Lemma check_sorted_read Q : check_sorted Q = true -> forall m, 0 <= m < 940 ->
  match get Q (m * 3), get Q (m * 3 + 1), get Q (m * 3 + 3), get Q (m * 3 + 4) with
    | Some a, Some b, Some a', Some b' => (0 <=? b) && (b <? 2 ^ 21) && (0 <=? b') && (b' <? 2 ^ 21) && (a * 2 ^ 21 + b <? a' * 2 ^ 21 + b')
    | _, _, _, _ => false end = true.
Proof. unfold check_sorted. intros K m H. exact (forallb_zrange _ _ m K ltac:(lia)). Qed.
Lemma sorted_checked : check_sorted (mk composition_pairs) = true.
Proof. vm_cast_no_check (eq_refl true). Qed.
Lemma key_next m : 0 <= m < 940 -> key m < key (m + 1).
Proof.
  intro H. pose proof (check_sorted_read _ sorted_checked m H) as X. rewrite !get_at in X. unfold key.
  replace ((m + 1) * 3) with (m * 3 + 3) by lia. replace (m * 3 + 3 + 1) with (m * 3 + 4) by lia.
  destruct (at_ composition_pairs (m * 3)); [|discriminate]. destruct (at_ composition_pairs (m * 3 + 1)); [|discriminate].
  destruct (at_ composition_pairs (m * 3 + 3)); [|discriminate]. destruct (at_ composition_pairs (m * 3 + 4)); [|discriminate].
  apply andb_prop in X as [_ X]. apply Z.ltb_lt in X. exact X.
Qed.
Lemma second_range m a b y : pair_row m a b y -> 0 <= b < 2 ^ 21.
Proof.
  intros (H & A & B & _). destruct (Z.eq_dec m 940) as [->|N].
  - pose proof (check_sorted_read _ sorted_checked 939 ltac:(lia)) as X. rewrite !get_at in X.
    change (939 * 3 + 4) with (940 * 3 + 1) in X. rewrite B in X.
    destruct (at_ composition_pairs (939 * 3)); [|discriminate]. destruct (at_ composition_pairs (939 * 3 + 1)); [|discriminate].
    destruct (at_ composition_pairs (939 * 3 + 3)); [|discriminate]. lia.
  - pose proof (check_sorted_read _ sorted_checked m ltac:(lia)) as X. rewrite !get_at in X. rewrite A, B in X.
    destruct (at_ composition_pairs (m * 3 + 3)); [|discriminate]. destruct (at_ composition_pairs (m * 3 + 4)); [|discriminate]. lia.
Qed.
Lemma key_mono n m : 0 <= m -> m + Z.of_nat n < 941 -> (0 < n)%nat -> key m < key (m + Z.of_nat n).
Proof.
  intros H. induction n as [|n IH]; [lia|]. intros L _. destruct n as [|n]; [apply key_next; lia|].
  specialize (IH ltac:(lia) ltac:(lia)). pose proof (key_next (m + Z.of_nat (S n)) ltac:(lia)) as K.
  replace (m + Z.of_nat (S n) + 1) with (m + Z.of_nat (S (S n))) in K by lia. lia.
Qed.
Lemma search_finds f : forall lo hi a b y m, 0 <= lo -> hi <= 941 -> hi - lo < Z.of_nat f -> lo <= m < hi -> pair_row m a b y ->
  pair_search (at_ composition_pairs) f lo hi a b = Some y.
Proof.
  induction f as [|f IH]; intros lo hi a b y m L H F M R; [lia|]. cbn [pair_search].
  replace (lo <? hi) with true by lia. cbv zeta. set (c := (lo + hi) / 2).
  assert (C : lo <= c < hi) by (subst c; split; [apply Z.div_le_lower_bound; lia|apply Z.div_lt_upper_bound; lia]). clearbody c.
  destruct (row_exists c) as (al & br & z & Rc); [lia|]. pose proof Rc as (_ & A & B & Y). rewrite A. cbn [obind]. rewrite B. cbn [obind].
  pose proof R as (_ & A' & B' & Y').
  assert (Kc : key c = al * 2 ^ 21 + br) by (unfold key; rewrite A, B; reflexivity).
  assert (Km : key m = a * 2 ^ 21 + b) by (unfold key; rewrite A', B'; reflexivity).
  pose proof (second_range _ _ _ _ R). pose proof (second_range _ _ _ _ Rc). change (2 ^ 21) with 2097152 in *.
  destruct ((al <? a) || ((al =? a) && (br <? b))) eqn:E1.
  - apply (IH _ _ _ _ _ m); try lia; [|exact R]. assert (key c < key m) by lia.
    destruct (Z.ltb_spec m c) as [Q|Q]; [|destruct (Z.eq_dec c m) as [->|]; lia].
    pose proof (key_mono (Z.to_nat (c - m)) m ltac:(lia) ltac:(lia) ltac:(lia)) as T. replace (m + Z.of_nat (Z.to_nat (c - m))) with c in T by lia. lia.
  - destruct ((a <? al) || ((al =? a) && (b <? br))) eqn:E2.
    + apply (IH _ _ _ _ _ m); try lia; [|exact R]. assert (key m < key c) by lia.
      destruct (Z.ltb_spec c m) as [Q|Q]; [|destruct (Z.eq_dec c m) as [->|]; lia].
      pose proof (key_mono (Z.to_nat (m - c)) c ltac:(lia) ltac:(lia) ltac:(lia)) as T. replace (c + Z.of_nat (Z.to_nat (m - c))) with m in T by lia. lia.
    + assert (key c = key m) by lia. assert (E : c = m).
      { destruct (Z.lt_trichotomy c m) as [Q|[Q|Q]]; [|exact Q|].
        - pose proof (key_mono (Z.to_nat (m - c)) c ltac:(lia) ltac:(lia) ltac:(lia)) as T. replace (c + Z.of_nat (Z.to_nat (m - c))) with m in T by lia. lia.
        - pose proof (key_mono (Z.to_nat (c - m)) m ltac:(lia) ltac:(lia) ltac:(lia)) as T. replace (m + Z.of_nat (Z.to_nat (c - m))) with c in T by lia. lia. }
      subst c. exact Y'.
Qed.

(** The facts about each row. *)
Lemma mdec_dec k p l : mdec (mk decomposition_pool) (mk decomposition_index1) (mk decomposition_index2) k p = Some l -> dec k p = l.
Proof. rewrite mdec_lib. unfold dec. intros ->. reflexivity. Qed.
Lemma check_row_read P I J D1 D2 C Q m a b y : row Q m = (a, b, y) -> check_row P I J D1 D2 C Q m = true ->
  mcls D1 D2 C y = 0 /\ 128 <= b /\ (0 <= y /\ valid_point y = true)
  /\ (forall k, exists ly la lb, mdec P I J k y = Some ly /\ mdec P I J k a = Some la /\ mdec P I J k b = Some lb /\ ly = la ++ lb)
  /\ (mcls D1 D2 C b <> 0 -> in_hangul y = false).
Proof.
  unfold check_row. intros -> H. apply andb_prop in H as [H H5]. apply andb_prop in H as [H H4]. apply andb_prop in H as [H H3]. apply andb_prop in H as [H1 H2].
  split; [lia|]. split; [lia|]. split; [split; [lia|apply andb_prop in H3; apply H3]|]. split.
  - intro k. cbn [forallb] in H4. apply andb_prop in H4 as [K1 K2]. apply andb_prop in K2 as [K2 _].
    assert (K : match mdec P I J k y, mdec P I J k a, mdec P I J k b with Some ly, Some la, Some lb => leqb ly (la ++ lb) | _, _, _ => false end = true) by (destruct k; assumption).
    destruct (mdec P I J k y) as [ly|]; [|discriminate]. destruct (mdec P I J k a) as [la|]; [|discriminate]. destruct (mdec P I J k b) as [lb|]; [|discriminate].
    exists ly, la, lb. repeat split. apply leqb_ok, K.
  - intro N. destruct (in_hangul y); [|reflexivity]. destruct (Z.eqb_spec (mcls D1 D2 C b) 0); [contradiction|discriminate].
Qed.
Lemma row_facts m a b y : pair_row m a b y ->
  canonical_class y = 0 /\ 128 <= b /\ (0 <= y /\ valid_point y = true) /\ (forall k, dec k y = dec k a ++ dec k b) /\ (canonical_class b <> 0 -> in_hangul y = false).
Proof.
  intro R. pose proof R as (H & _). pose proof (proj1 (check_rows_read _ _ _ _ _ _ _ rows_checked) m H) as X.
  destruct (check_row_read _ _ _ _ _ _ _ _ _ _ _ (row_lib _ _ _ _ R) X) as (X1 & X2 & X3 & X4 & X5). rewrite mcls_lib in X1, X5.
  split; [assumption|]. split; [assumption|]. split; [assumption|]. split; [|assumption]. intro k. destruct (X4 k) as (ly & la & lb & A & B & D & E).
  rewrite (mdec_dec _ _ _ A), (mdec_dec _ _ _ B), (mdec_dec _ _ _ D). exact E.
Qed.
Lemma rows_apart m a b y m' a' b' y' : pair_row m a b y -> pair_row m' a' b' y' -> canonical_class b <> 0 -> canonical_class b' = 0 -> y <> a'.
Proof.
  intros R R' C C'. pose proof (proj2 (check_rows_read _ _ _ _ _ _ _ rows_checked) m m' (proj1 R) (proj1 R')) as X.
  rewrite (row_lib _ _ _ _ R), (row_lib _ _ _ _ R') in X. cbn [fst snd] in X. rewrite !mcls_lib in X. apply X; assumption.
Qed.

(** The three ways a pair composes. *)
Inductive composes (a b : Z) : Z -> Prop :=
| compose_lv : leading_base <= a < leading_base + 19 -> vowel_base <= b < vowel_base + 21 ->
    composes a b (syllable_base + (a - leading_base) * 588 + (b - vowel_base) * 28)
| compose_lvt : syllable_base <= a < syllable_base + 11172 -> (a - syllable_base) mod 28 = 0 -> trailing_base < b < trailing_base + 28 ->
    composes a b (a + (b - trailing_base))
| compose_row : forall m y, pair_row m a b y -> composes a b y.
Lemma composition_ok a b : composition a b = 0 \/ composes a b (composition a b).
Proof.
  unfold composition, lib_composition_lookup, composition_lookup. change leading_count with 19. change vowel_count with 21. change nucleus_count with 588.
  change trailing_count with 28. change syllable_count with 11172.
  destruct ((leading_base <=? a) && (a <? leading_base + 19) && (vowel_base <=? b) && (b <? vowel_base + 21)) eqn:E1; [right; apply compose_lv; lia|].
  destruct ((syllable_base <=? a) && (a <? syllable_base + 11172) && ((a - syllable_base) mod 28 =? 0) && (trailing_base <? b) && (b <? trailing_base + 28)) eqn:E2; [right; apply compose_lvt; lia|].
  destruct (search_ok (S (Z.to_nat 941)) 0 941 a b ltac:(lia) ltac:(lia) ltac:(lia)) as (y & E & [Y|(m & R)]); rewrite E; [left; exact Y|right]. eapply compose_row, R.
Qed.
Lemma jamo_dec p k : (leading_base <= p < leading_base + 19) \/ (vowel_base <= p < vowel_base + 21) \/ (trailing_base <= p < trailing_base + 28) -> dec k p = [p].
Proof. intro H. apply fixed_dec, (proj1 (jamo_ok p H)). Qed.
Lemma syllable_dec p k : syllable_base <= p < syllable_base + 11172 -> dec k p = hangul_decompose p.
Proof. intro H. unfold dec. rewrite dec1. change syllable_count with 11172. replace ((syllable_base <=? p) && (p <? syllable_base + 11172)) with true by lia. reflexivity. Qed.
Lemma lv_parts a b : leading_base <= a < leading_base + 19 -> vowel_base <= b < vowel_base + 21 ->
  let y := syllable_base + (a - leading_base) * 588 + (b - vowel_base) * 28 in
  syllable_base <= y < syllable_base + 11172 /\ (y - syllable_base) mod 28 = 0 /\ hangul_decompose y = [a; b].
Proof.
  intros A B y. assert (Y : y - syllable_base = (a - leading_base) * 588 + (b - vowel_base) * 28) by (subst y; lia).
  assert (M : (y - syllable_base) mod 28 = 0) by (rewrite Y; replace ((a - leading_base) * 588 + (b - vowel_base) * 28) with (((a - leading_base) * 21 + (b - vowel_base)) * 28) by lia; apply Z.mod_mul; lia).
  split; [lia|]. split; [exact M|]. unfold hangul_decompose. change trailing_count with 28. change nucleus_count with 588. rewrite M. cbn [Z.eqb app].
  replace ((y - syllable_base) / 588) with (a - leading_base) by (apply Z.div_unique with (r := (b - vowel_base) * 28); [left; lia|lia]).
  replace ((y - syllable_base) mod 588) with ((b - vowel_base) * 28) by (apply Z.mod_unique with (q := a - leading_base); [left; lia|lia]).
  rewrite Z.div_mul by lia. rewrite !Zplus_minus. reflexivity.
Qed.
Lemma lvt_parts a b : syllable_base <= a < syllable_base + 11172 -> (a - syllable_base) mod 28 = 0 -> trailing_base < b < trailing_base + 28 ->
  let y := a + (b - trailing_base) in
  syllable_base <= y < syllable_base + 11172 /\ hangul_decompose y = hangul_decompose a ++ [b].
Proof.
  intros A M B y. apply Z.mod_divide in M as [q Q]; [|lia]. set (t := b - trailing_base) in *. assert (T : 0 < t < 28) by (subst t; lia).
  assert (Rg : syllable_base <= y < syllable_base + 11172) by (subst y; lia). split; [exact Rg|].
  unfold hangul_decompose. change trailing_count with 28. change nucleus_count with 588.
  replace (y - syllable_base) with (a - syllable_base + t) by (subst y; lia). rewrite Q.
  assert (Q1 : 0 <= q mod 21 < 21) by (apply Z.mod_pos_bound; lia). pose proof (Z.div_mod q 21 ltac:(lia)) as D.
  replace ((q * 28 + t) / 588) with (q / 21) by (apply Z.div_unique with (r := q mod 21 * 28 + t); [left; lia|lia]).
  replace ((q * 28) / 588) with (q / 21) by (apply Z.div_unique with (r := q mod 21 * 28); [left; lia|lia]).
  replace ((q * 28 + t) mod 588) with (q mod 21 * 28 + t) by (apply Z.mod_unique with (q := q / 21); [left; lia|lia]).
  replace ((q * 28) mod 588) with (q mod 21 * 28) by (apply Z.mod_unique with (q := q / 21); [left; lia|lia]).
  replace ((q * 28 + t) mod 28) with t by (apply Z.mod_unique with (q := q); [left; lia|lia]). rewrite Z.mod_mul by lia.
  replace ((q mod 21 * 28 + t) / 28) with (q mod 21) by (apply Z.div_unique with (r := t); [left; lia|lia]). rewrite Z.div_mul by lia.
  replace (t =? 0) with false by lia. cbn [Z.eqb app]. subst t. rewrite !Zplus_minus. reflexivity.
Qed.
Lemma composes_facts a b y : composes a b y -> canonical_class y = 0 /\ forall k, dec k y = dec k a ++ dec k b.
Proof.
  intros [A B|A M B|m z R].
  - destruct (lv_parts a b A B) as (Y & M & E). split; [apply syllable_class; exact Y|]. intro k.
    rewrite (syllable_dec _ k Y), E, !jamo_dec by auto. reflexivity.
  - destruct (lvt_parts a b A M B) as (Y & E). split; [apply syllable_class; exact Y|]. intro k.
    rewrite (syllable_dec _ k Y), E, (syllable_dec a k A), (jamo_dec b k) by (right; right; lia). reflexivity.
  - destruct (row_facts _ _ _ _ R) as (F1 & _ & _ & F4 & _). split; assumption.
Qed.
Lemma composition_apart a b c : canonical_class b <> 0 -> composition a b <> 0 -> canonical_class c = 0 -> composition (composition a b) c = 0.
Proof.
  intros C N D. destruct (composition_ok a b) as [Z0|K]; [contradiction|].
  remember (composition a b) as y eqn:Ey. destruct (composition_ok y c) as [|L]; [assumption|exfalso].
  destruct K as [A B|A M B|m z R].
  - apply C. apply jamo_ok. auto.
  - apply C. apply jamo_ok. right. right. lia.
  - destruct (row_facts _ _ _ _ R) as (_ & _ & _ & _ & F). specialize (F C). unfold in_hangul in F. change leading_count with 19 in F. change syllable_count with 11172 in F.
    destruct L as [A B|A M B|m' z' R']; [lia|lia|]. match type of R' with pair_row _ ?z0 _ ?w => exact (rows_apart m a b z0 m' z0 c w R R' C D eq_refl) end.
Qed.
Lemma composition_sound k a b : composition a b <> 0 -> canonical_class (composition a b) = 0 /\ equivalent canonical_class (dec k) [composition a b] [a; b].
Proof.
  intro N. destruct (composition_ok a b) as [|K]; [contradiction|]. destruct (composes_facts _ _ _ K) as [F1 F2]. split; [exact F1|].
  eapply eq_trans; [apply equiv_flat|]. apply eq_sym. eapply eq_trans; [apply equiv_flat|]. cbn [flat_map]. rewrite !app_nil_r, (F2 k). apply eq_refl_.
Qed.
Lemma composition_valid a b : composition a b <> 0 -> 0 <= composition a b /\ valid_point (composition a b) = true.
Proof.
  intro N. destruct (composition_ok a b) as [|K]; [contradiction|]. destruct K as [A B|A M B|m z R].
  - destruct (lv_parts a b A B) as (Y & _). unfold valid_point, max_unicode_point, syllable_base in *. lia.
  - destruct (lvt_parts a b A M B) as (Y & _). unfold valid_point, max_unicode_point, syllable_base in *. lia.
  - apply (row_facts _ _ _ _ R).
Qed.
Lemma composition_second a b : b < 128 -> composition a b = 0.
Proof.
  intro B. destruct (composition_ok a b) as [|K]; [assumption|exfalso]. destruct K as [A B'|A M B'|m z R]; [unfold vowel_base in *; lia|unfold trailing_base in *; lia|].
  destruct (row_facts _ _ _ _ R) as (_ & F & _). lia.
Qed.
Lemma composition_negative_first a b : a < 0 -> composition a b = 0 \/ exists m y, pair_row m a b y.
Proof. intro A. destruct (composition_ok a b) as [|K]; [left; assumption|right]. destruct K as [A' B'|A' M B'|m z R]; [unfold leading_base in *; lia|unfold syllable_base in *; lia|eauto]. Qed.
(** Reads inside the tables. *)
Lemma sizes : (length unicode_data1, length unicode_data2, length combining_index) = (Z.to_nat 8704, Z.to_nat 34176, Z.to_nat 342).
Proof. vm_cast_no_check (eq_refl (Z.to_nat 8704, Z.to_nat 34176, Z.to_nat 342)). Qed.
Lemma data_ranges : Forall (fun v => 0 <= v < 267) unicode_data1 /\ Forall (fun v => 0 <= v < 342) unicode_data2.
Proof.
  assert (F : forallb (fun v => (0 <=? v) && (v <? 267)) unicode_data1 = true) by (vm_cast_no_check (eq_refl true)).
  assert (G : forallb (fun v => (0 <=? v) && (v <? 342)) unicode_data2 = true) by (vm_cast_no_check (eq_refl true)).
  split; apply Forall_forall; intros x I; [pose proof (proj1 (forallb_forall _ _) F x I)|pose proof (proj1 (forallb_forall _ _) G x I)]; cbn beta in *; lia.
Qed.
Lemma at_some l i : 0 <= i < Z.of_nat (length l) -> exists v, at_ l i = Some v.
Proof.
  intro H. unfold at_. replace (i <? 0) with false by lia. destruct (nth_error l (Z.to_nat i)) as [v|] eqn:E; [exists v; reflexivity|].
  apply nth_error_None in E. lia.
Qed.
Lemma class_read p : 0 <= p -> exists c, lib_get_canonical p = Some c.
Proof.
  intro H. unfold lib_get_canonical, get_canonical. destruct (Z.ltb_spec max_unicode_point p) as [L|L]; [eauto|].
  pose proof sizes as S. assert (S1 : length unicode_data1 = Z.to_nat 8704) by congruence. assert (S2 : length unicode_data2 = Z.to_nat 34176) by congruence.
  assert (S3 : length combining_index = Z.to_nat 342) by congruence. clear S.
  destruct data_ranges as [R1 R2]. pose proof (shiftr_range p ltac:(lia)).
  destruct (at_some unicode_data1 (Z.shiftr p 7)) as [a A]; [rewrite S1; lia|]. rewrite A. cbn [obind].
  pose proof (at_forall _ _ _ _ R1 A) as A'. cbn beta in A'. pose proof (land_range p) as Lr. rewrite Z.shiftl_mul_pow2 by lia. change (2 ^ 7) with 128.
  destruct (at_some unicode_data2 (a * 128 + Z.land p 127)) as [b B]; [rewrite S2; lia|]. rewrite B. cbn [obind].
  pose proof (at_forall _ _ _ _ R2 B) as B'. cbn beta in B'. apply at_some. rewrite S3. lia.
Qed.
Lemma lookup_read a b : exists y, lib_composition_lookup a b = Some y.
Proof.
  unfold lib_composition_lookup, composition_lookup. destruct (_ && _); [eauto|]. destruct (_ && _); [eauto|].
  destruct (search_ok (S (Z.to_nat 941)) 0 941 a b ltac:(lia) ltac:(lia) ltac:(lia)) as (y & E & _). eauto.
Qed.
