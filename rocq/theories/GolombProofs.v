From Verif Require Import Base Bytes MathModel MathSpec MathProofs BitProofs StreamModel StreamSpec StreamProofs StreamProofs2 BitStreamModel BitStreamSpec BitStreamProofs BitStreamProofs2 OpModel ChainModel ChainProofs4 ValidModel GolombModel GolombSpec.
From Coq Require Import Permutation.

Lemma add64_small a b : 0 <= a -> 0 <= b -> a + b < 2 ^ 64 -> add64 a b = a + b.
Proof. intros. unfold add64. apply wrap_fits; [reflexivity|]. apply fits64. lia. Qed.
Definition ecode (P d : Z) : list bool := repeat true (Z.to_nat (if 64 <=? P then 0 else d / 2 ^ P)) ++ [false] ++ low_bits d (Z.min 64 P).
Lemma shr_ok v P : 0 <= v < 2 ^ 64 -> 0 <= P -> shift_right u64 v P true = if 64 <=? P then 0 else v / 2 ^ P.
Proof.
  intros Hv HP. unfold shift_right. cbn [andb bits u64]. destruct (Z.leb_spec 64 P); [reflexivity|]. change (unsigned_of u64) with u64. rewrite (wrap_fits u64 v) by (reflexivity || (apply fits64; lia)).
  rewrite Z.mod_small by lia. rewrite Z.shiftr_div_pow2 by lia. apply wrap_fits; [reflexivity|]. apply fits64. split; [apply Z.div_pos; lia|]. apply Z.div_lt_upper_bound; [lia|]. assert (1 <= 2 ^ P) by (change 1 with (2 ^ 0); apply Z.pow_le_mono_r; lia). nia.
Qed.
(** ** Writing *)
Lemma ones_wrote n : forall bl w, wrote bl w -> wrote (bl ++ repeat true n) (write_ones n w).
Proof.
  induction n as [|n IH]; intros bl w H; [cbn; rewrite app_nil_r; exact H|]. cbn [repeat write_ones]. replace (bl ++ true :: repeat true n) with ((bl ++ [true]) ++ repeat true n) by (rewrite <- app_assoc; reflexivity). apply IH, write_bit_wrote, H.
Qed.
Lemma encode_wrote v P bl w : 0 <= v < 2 ^ 64 -> 0 <= P -> wrote bl w -> wrote (bl ++ ecode P v) (encode v P w).
Proof.
  intros Hv HP H. unfold encode, ecode. rewrite shr_ok by assumption. rewrite !app_assoc.
  assert (E : forall x n y, write_bits x n y = write_bits x (Z.min 64 n) y) by (intros; unfold write_bits; f_equal; lia). rewrite E.
  apply write_bits_wrote; [lia|]. apply write_bit_wrote, ones_wrote, H.
Qed.
Lemma construct_wrote P l : forall previous bl w, 0 <= P -> 0 <= previous < 2 ^ 64 -> Forall (fun v => 0 <= v < 2 ^ 64) l -> sorted_from previous l -> wrote bl w ->
  wrote (bl ++ flat_map (ecode P) (deltas previous l)) (construct_loop l previous P w).
Proof.
  induction l as [|x l IH]; intros p bl w HP Hp F S W; [cbn; rewrite app_nil_r; exact W|]. inversion F; subst. destruct S as [S1 S2]. cbn [construct_loop deltas flat_map]. rewrite app_assoc.
  rewrite wrap_fits by (reflexivity || (apply fits64; lia)). apply IH; try assumption. apply encode_wrote; [lia|exact HP|exact W].
Qed.
(** ** Reading *)
Definition holds (src : list Z) (k : Z) (bl : list bool) : Prop := 0 <= k /\ k + len bl <= 8 * len src /\ forall i, 0 <= i < len bl -> bit_at src (k + i) = nth (Z.to_nat i) bl false.
Lemma holds_app src k a b : holds src k (a ++ b) <-> holds src k a /\ holds src (k + len a) b.
Proof.
  unfold holds. rewrite len_app. pose proof (len_nonneg a). pose proof (len_nonneg b). split.
  - intros (H1 & H2 & H3). split; (split; [lia|split; [lia|]]); intros i Hi.
    + rewrite H3 by lia. rewrite app_nth1 by (unfold len in *; lia). reflexivity.
    + rewrite <- Z.add_assoc, H3 by lia. rewrite app_nth2 by (unfold len in *; lia). f_equal. unfold len. lia.
  - intros ((A1 & A2 & A3) & (B1 & B2 & B3)). split; [lia|]. split; [lia|]. intros i Hi. destruct (Z.lt_ge_cases i (len a)).
    + rewrite app_nth1 by (unfold len in *; lia). apply A3. lia.
    + rewrite app_nth2 by (unfold len in *; lia). replace (k + i) with (k + len a + (i - len a)) by lia. rewrite B3 by lia. f_equal. unfold len. lia.
Qed.
Lemma holds_cons src k x b : holds src k (x :: b) -> k < 8 * len src /\ bit_at src k = x /\ holds src (k + 1) b.
Proof.
  intros H. change (x :: b) with ([x] ++ b) in H. apply holds_app in H as [(A1 & A2 & A3) B]. change (len [x]) with 1 in *. split; [lia|]. split; [|exact B]. specialize (A3 0 ltac:(lia)). rewrite Z.add_0_r in A3. exact A3.
Qed.
Lemma read_bit_at src k u b : at_bit src k u b -> k < 8 * len src -> exists b', read_bit b = (bit_at src k, b') /\ at_bit src (k + 1) true b'.
Proof. intros H L. destruct (step_at src k u b H) as [S1 _]. destruct (S1 L) as [V A]. unfold read_bit. eexists. split; [rewrite V; reflexivity|exact A]. Qed.
Lemma read_ones_at src n : forall fuel q k u b, at_bit src k u b -> holds src k (repeat true n ++ [false]) -> (n < fuel)%nat -> 0 <= q -> q + Z.of_nat n < 2 ^ 64 ->
  exists b', read_ones fuel q b = (q + Z.of_nat n, b') /\ at_bit src (k + Z.of_nat n + 1) true b'.
Proof.
  induction n as [|n IH]; intros fuel q k u b A H Hf Hq Hb; (destruct fuel as [|fuel]; [lia|]); cbn [repeat app] in H; apply holds_cons in H as (L & E & H); destruct (read_bit_at src k u b A L) as (b' & R & A'); cbn [read_ones]; rewrite R, E.
  - exists b'. rewrite !Z.add_0_r. split; [reflexivity|exact A'].
  - rewrite add64_small by lia. destruct (IH fuel (q + 1) (k + 1) true b' A' H ltac:(lia) ltac:(lia) ltac:(lia)) as (b2 & R2 & A2). exists b2. rewrite R2. replace (q + 1 + Z.of_nat n) with (q + Z.of_nat (S n)) by lia. split; [reflexivity|].
    replace (k + Z.of_nat (S n) + 1) with (k + 1 + Z.of_nat n + 1) by lia. exact A2.
Qed.
Lemma remaining_enough src k u b : at_bit src k u b -> 8 * len src - k < Z.of_nat (remaining_bits b).
Proof.
  intros (p & H1 & H2 & H3 & H4 & H5 & H6 & H7). pose proof (at_pos_len_rest _ _ _ _ H2) as L. unfold remaining_bits. unfold len in *. destruct (Z.eq_dec p 0) as [->|N]; [specialize (H4 eq_refl)|]; lia.
Qed.
Lemma field_holds src k n bl : 0 <= n -> len bl = n -> holds src k bl -> field src k n = bits_value bl.
Proof. intros Hn L (H1 & H2 & H3). unfold field. f_equal. apply bit_slice_eq; [lia|lia| |exact L]. intros i Hi. apply H3. lia. Qed.
Lemma decode_at src P d k u b : 0 <= P -> 0 <= d < 2 ^ 64 -> at_bit src k u b -> holds src k (ecode P d) ->
  exists b', decode P b = (d, b') /\ at_bit src (k + len (ecode P d)) true b'.
Proof.
  intros HP Hd A H. unfold ecode in *. rewrite app_assoc in H |- *. apply holds_app in H as [H1 H2]. set (q := if 64 <=? P then 0 else d / 2 ^ P) in *.
  assert (Q : 0 <= q < 2 ^ 64).
  { unfold q. destruct (Z.leb_spec 64 P); [lia|]. assert (1 <= 2 ^ P) by (change 1 with (2 ^ 0); apply Z.pow_le_mono_r; lia). split; [apply Z.div_pos; lia|]. apply Z.div_lt_upper_bound; [lia|]. nia. }
  assert (LR : len (repeat true (Z.to_nat q)) = q) by (unfold len; rewrite repeat_length; lia). assert (LQ : len (repeat true (Z.to_nat q) ++ [false]) = q + 1) by (rewrite len_app, LR; reflexivity). rewrite len_app. rewrite LQ in H2 |- *.
  unfold decode. pose proof (remaining_enough _ _ _ _ A) as RE. pose proof H1 as (_ & HL & _). rewrite LQ in HL.
  destruct (read_ones_at src (Z.to_nat q) (remaining_bits b) 0 k u b A H1 ltac:(lia) ltac:(lia) ltac:(lia)) as (b1 & R1 & A1). rewrite R1. rewrite Z2Nat.id in A1 |- * by lia. rewrite Z.add_0_l.
  assert (LL : len (low_bits d (Z.min 64 P)) = Z.min 64 P) by (apply low_bits_len; lia).
  pose proof (read_bits_at src (Z.min 64 P) (k + q + 1) true b1 A1 ltac:(lia)) as R2. pose proof H2 as (_ & HL2 & _). rewrite LL in HL2 |- *.
  destruct (Z.leb_spec (k + q + 1 + Z.min 64 P) (8 * len src)); [|lia]. destruct R2 as (b2 & R2 & A2).
  assert (E : read_bits P b1 = read_bits (Z.min 64 P) b1) by (unfold read_bits; f_equal; lia). rewrite E, R2. exists b2. split; [|replace (k + (q + 1 + Z.min 64 P)) with (k + q + 1 + Z.min 64 P) by lia; exact A2].
  f_equal. replace (k + q + 1) with (k + (q + 1)) by lia. assert (M0 : 0 <= Z.min 64 P) by lia. rewrite (field_holds src _ _ _ M0 LL H2). rewrite bits_value_low by lia.
  unfold shift_left. cbn [andb bits u64]. unfold q. destruct (Z.leb_spec 64 P).
  - rewrite Z.min_l by lia. rewrite (Z.mod_small d) by lia. rewrite add64_small by lia. reflexivity.
  - rewrite Z.min_r by lia. change (unsigned_of u64) with u64. assert (P0 : 0 < 2 ^ P) by (apply Z.pow_pos_nonneg; lia). pose proof (Z.div_mod d (2 ^ P) ltac:(lia)) as DM. pose proof (Z.mod_pos_bound d (2 ^ P) P0) as MB.
    rewrite (wrap_fits u64 (d / 2 ^ P)) by (reflexivity || (apply fits64; unfold q in Q; destruct (Z.leb_spec 64 P); lia)). rewrite (Z.mod_small P) by lia. rewrite Z.shiftl_mul_pow2 by lia.
    rewrite (wrap_fits u64 (d / 2 ^ P * 2 ^ P)) by (reflexivity || (apply fits64; nia)). rewrite add64_small by nia. lia.
Qed.
(** ** Sorting *)
Lemma insert_perm x l : Permutation (x :: l) (insert x l).
Proof. induction l as [|y l IH]; cbn [insert]; [reflexivity|]. destruct (x <=? y); [reflexivity|]. rewrite perm_swap, IH. reflexivity. Qed.
Lemma sort_perm l : Permutation l (sort l).
Proof. induction l as [|x l IH]; [reflexivity|]. cbn [sort fold_right]. rewrite IH at 1. apply insert_perm. Qed.
Lemma insert_sorted p x l : p <= x -> sorted_from p l -> sorted_from p (insert x l).
Proof.
  revert p. induction l as [|y l IH]; intros p Hp S; cbn [insert]; [split; [exact Hp|exact I]|]. destruct S as [S1 S2]. destruct (Z.leb_spec x y); [split; [exact Hp|split; assumption]|]. split; [exact S1|]. apply IH; [lia|exact S2].
Qed.
Lemma sort_sorted p l : Forall (fun v => p <= v) l -> sorted_from p (sort l).
Proof. induction 1; [exact I|]. cbn [sort fold_right]. apply insert_sorted; assumption. Qed.
Lemma sorted_le p l : sorted_from p l -> forall x, In x l -> p <= x.
Proof. revert p. induction l as [|y l IH]; intros p S x []; destruct S as [S1 S2]; [lia|]. specialize (IH y S2 x H). lia. Qed.
(** ** Matching *)
Lemma single_spec src P range l : 0 <= P -> forall previous k u b, 0 <= previous < 2 ^ 64 -> Forall (fun v => 0 <= v < 2 ^ 64) l -> sorted_from previous l ->
  at_bit src k u b -> holds src k (flat_map (ecode P) (deltas previous l)) ->
  (single_loop (length l) range previous P b = true <-> In range l).
Proof.
  intros HP. induction l as [|x l IH]; intros p k u b Hp F S A H; [cbn; split; [discriminate|tauto]|]. inversion F; subst. destruct S as [S1 S2]. cbn [deltas flat_map] in H. apply holds_app in H as [H1 H2'].
  cbn [length single_loop]. destruct (decode_at src P (x - p) k u b HP ltac:(lia) A H1) as (b' & R & A'). rewrite R. rewrite add64_small by lia. replace (p + (x - p)) with x by lia.
  destruct (Z.eqb_spec x range) as [->|N]; [split; [intros _; left; reflexivity|reflexivity]|]. rewrite Z.gtb_ltb. destruct (Z.ltb_spec range x) as [L|L].
  - split; [discriminate|]. intros [E|E]; [lia|]. apply (sorted_le _ _ S2) in E. lia.
  - rewrite (IH x _ true b' ltac:(lia) H3 S2 A' H2'). split; [right; assumption|]. intros [E|E]; [contradiction|exact E].
Qed.
Lemma inner_sound range v it : match stack_inner range v it with (true, it') => v = range \/ In range it | (false, it') => exists pre, it = pre ++ it' end.
Proof.
  revert v. induction it as [|x it IH]; intros v; cbn [stack_inner]; [exists []; reflexivity|]. destruct (Z.eqb_spec v range); [left; assumption|]. destruct (v >? range); [exists []; reflexivity|].
  specialize (IH x). destruct (stack_inner range x it) as [[] it']; [destruct IH as [->|IH]; right; [left; reflexivity|right; exact IH]|]. destruct IH as [pre ->]. exists (x :: pre). reflexivity.
Qed.
Lemma stack_sound src P l : 0 <= P -> forall it previous k u b, 0 <= previous < 2 ^ 64 -> Forall (fun v => 0 <= v < 2 ^ 64) l -> sorted_from previous l ->
  at_bit src k u b -> holds src k (flat_map (ecode P) (deltas previous l)) ->
  stack_loop (length l) previous P it b = true -> exists v, In v it /\ In v l.
Proof.
  intros HP. induction l as [|x l IH]; intros it p k u b Hp F S A H; [discriminate|]. inversion F; subst. destruct S as [S1 S2]. cbn [deltas flat_map] in H. apply holds_app in H as [H1 H2'].
  cbn [length stack_loop]. destruct it as [|y it]; [discriminate|]. destruct (decode_at src P (x - p) k u b HP ltac:(lia) A H1) as (b' & R & A'). rewrite R. rewrite add64_small by lia. replace (p + (x - p)) with x by lia.
  pose proof (inner_sound x y (y :: it)) as IS. destruct (stack_inner x y (y :: it)) as [[] it'].
  - intros _. exists x. split; [destruct IS as [->|IS]; [left; reflexivity|exact IS]|left; reflexivity].
  - intros E. destruct (IH it' x _ true b' ltac:(lia) H3 S2 A' H2' E) as (v & V1 & V2). exists v. split; [|right; exact V2]. destruct IS as [pre ->]. apply in_or_app. right. exact V1.
Qed.
(** The least target is found, as the iterator does not move before it. *)
Lemma stack_least src P l least it : 0 <= P -> In least l -> forall previous k u b, 0 <= previous < 2 ^ 64 -> Forall (fun v => 0 <= v < 2 ^ 64) l -> sorted_from previous l ->
  at_bit src k u b -> holds src k (flat_map (ecode P) (deltas previous l)) ->
  stack_loop (length l) previous P (least :: it) b = true.
Proof.
  intros HP. induction l as [|x l IH]; intros I p k u b Hp F S A H; [destruct I|]. inversion F; subst. destruct S as [S1 S2]. cbn [deltas flat_map] in H. apply holds_app in H as [H1 H2'].
  cbn [length stack_loop stack_inner]. destruct (decode_at src P (x - p) k u b HP ltac:(lia) A H1) as (b' & R & A'). rewrite R. rewrite add64_small by lia. replace (p + (x - p)) with x by lia.
  destruct (Z.eqb_spec least x); [reflexivity|]. destruct I as [I|I]; [congruence|]. pose proof (sorted_le _ _ S2 _ I). rewrite Z.gtb_ltb. destruct (Z.ltb_spec x least); [|lia].
  apply (IH I x _ true b' ltac:(lia) H3 S2 A' H2').
Qed.
(** ** The hash *)
Lemma bxor_range a b : 0 <= bit_xor u64 a b < 2 ^ 64.
Proof. assert (F : fits u64 (bit_xor u64 a b)) by (unfold bit_xor; apply fits_wrap; reflexivity). unfold fits in F. cbn [imin imax u64 sg bits] in F. lia. Qed.
Lemma siphash_range key m : 0 <= siphash key m < 2 ^ 64.
Proof.
  unfold siphash. destruct key as [k0 k1]. destruct (sip_words _ _ _) as [v r]. destruct (compression_round v _) as [[[a0 a1] a2] a3]. destruct (sip_round (sip_round (sip_round (sip_round _)))) as [[[b0 b1] b2] b3]. apply bxor_range.
Qed.
Lemma range_ok key item bound : 0 <= bound < 2 ^ 64 -> hash_to_range key item bound = ranged (siphash key item) bound /\ 0 <= ranged (siphash key item) bound < 2 ^ 64 /\ (0 < bound -> ranged (siphash key item) bound < bound).
Proof.
  intros Hb. pose proof (siphash_range key item) as S. unfold hash_to_range, ranged. rewrite Z.shiftr_div_pow2 by lia.
  assert (R : 0 <= siphash key item * bound / 2 ^ 64 <= bound /\ (0 < bound -> siphash key item * bound / 2 ^ 64 < bound)).
  { split; [split; [apply Z.div_pos; nia|apply Z.div_le_upper_bound; nia]|]. intros P. apply Z.div_lt_upper_bound; nia. }
  split; [apply wrap_fits; [reflexivity|apply fits64; lia]|]. split; [lia|apply R].
Qed.
