(** Facts about the library's Unicode tables, by computation over the tables. *)
From Verif Require Import Base UniData UniModel UniSpec UniProofs.
From Coq Require Import FMapPositive.

(** Arrays as maps, for the computations only. *)
Fixpoint mk_from (p : positive) (l : list Z) : PositiveMap.t Z :=
  match l with [] => PositiveMap.empty Z | x :: r => PositiveMap.add p x (mk_from (Pos.succ p) r) end.
Definition mk (l : list Z) : PositiveMap.t Z := mk_from 1 l.
Definition get (m : PositiveMap.t Z) (i : Z) : option Z := if i <? 0 then None else PositiveMap.find (Z.to_pos (i + 1)) m.
Lemma mk_from_find l : forall p q, PositiveMap.find q (mk_from p l) = if (q <? p)%positive then None else nth_error l (Pos.to_nat q - Pos.to_nat p).
Proof.
  induction l as [|x l IH]; intros p q; cbn [mk_from].
  - rewrite PositiveMap.gempty. destruct (q <? p)%positive; [reflexivity|]. destruct (Pos.to_nat q - Pos.to_nat p)%nat; reflexivity.
  - destruct (Pos.eq_dec q p) as [->|N].
    + rewrite PositiveMap.gss. rewrite Pos.ltb_irrefl, Nat.sub_diag. reflexivity.
    + rewrite PositiveMap.gso by congruence. rewrite IH. destruct (Pos.ltb_spec q p) as [L|L], (Pos.ltb_spec q (Pos.succ p)) as [K|K]; try lia; [reflexivity|].
      replace (Pos.to_nat q - Pos.to_nat p)%nat with (S (Pos.to_nat q - Pos.to_nat (Pos.succ p))) by lia. reflexivity.
Qed.
Lemma get_at l i : get (mk l) i = at_ l i.
Proof.
  unfold get, at_, mk. destruct (Z.ltb_spec i 0) as [L|L]; [reflexivity|]. rewrite mk_from_find.
  destruct (Pos.ltb_spec (Z.to_pos (i + 1)) 1); [lia|]. f_equal. lia.
Qed.

(** The reads determine the results. *)
Section Ext.
Variables p1 i1 j1 p2 i2 j2 : Z -> option Z.
Hypothesis Hp : forall i, p1 i = p2 i.
Hypothesis Hi : forall i, i1 i = i2 i.
Hypothesis Hj : forall i, j1 i = j2 i.
Lemma pool_list_ext n : forall i, pool_list p1 i n = pool_list p2 i n.
Proof. induction n as [|n IH]; intro i; [reflexivity|]. cbn [pool_list]. rewrite Hp, IH. reflexivity. Qed.
Lemma concat_map_ext f g l : (forall x, f x = g x) -> concat_map f l = concat_map g l.
Proof. intro E. induction l as [|x l IH]; [reflexivity|]. cbn [concat_map]. rewrite E, IH. reflexivity. Qed.
Lemma decompose_one_ext n k : forall x, decompose_one p1 i1 j1 n k x = decompose_one p2 i2 j2 n k x.
Proof.
  induction n as [|n IH]; intro x; [reflexivity|]. cbn [decompose_one]. unfold decompose. rewrite Hi.
  destruct (_ && _); [reflexivity|]. destruct (_ <? _); [reflexivity|].
  destruct (i2 (Z.shiftr x 7)) as [b|]; [|reflexivity]. cbn [obind]. rewrite Hj. destruct (j2 _) as [ix|]; [|reflexivity]. cbn [obind].
  destruct (ix =? 0); [reflexivity|]. rewrite Hp. destruct (p2 ix) as [h|]; [|reflexivity]. cbn [obind].
  destruct (_ && _); [reflexivity|]. rewrite pool_list_ext. destruct (pool_list p2 _ _) as [cs|]; [|reflexivity]. cbn [obind].
  apply concat_map_ext. exact IH.
Qed.
Lemma get_canonical_ext x : get_canonical p1 i1 j1 x = get_canonical p2 i2 j2 x.
Proof.
  unfold get_canonical. destruct (_ <? _); [reflexivity|]. rewrite Hp. destruct (p2 _); [|reflexivity]. cbn [obind].
  rewrite Hi. destruct (i2 _); [|reflexivity]. cbn [obind]. apply Hj.
Qed.
End Ext.

(** The decomposition as a plain value. *)
Definition dec (k : bool) (p : Z) : list Z := match lib_decompose_one 4 k p with Some l => l | None => [p] end.
Fixpoint leqb (a b : list Z) : bool := match a, b with [], [] => true | x :: a, y :: b => (x =? y) && leqb a b | _, _ => false end.
Lemma leqb_ok a : forall b, leqb a b = true -> a = b.
Proof. induction a as [|x a IH]; intros [|y b] H; try discriminate; [reflexivity|]. cbn in H. apply andb_prop in H as [H1 H2]. f_equal; [lia|auto]. Qed.

Definition zrange (n : nat) : list Z := map Z.of_nat (seq 0 n).
Lemma zrange_in n i : 0 <= i < Z.of_nat n -> In i (zrange n).
Proof. intro H. apply in_map_iff. exists (Z.to_nat i). split; [lia|]. apply in_seq. lia. Qed.
Lemma forallb_zrange f n i : forallb f (zrange n) = true -> 0 <= i < Z.of_nat n -> f i = true.
Proof. intros F H. exact (proj1 (forallb_forall f _) F i (zrange_in n i H)). Qed.
Lemma shift_split p : p = Z.shiftr p 7 * 128 + Z.land p 127.
Proof. change 127 with (Z.ones 7). rewrite Z.land_ones, Z.shiftr_div_pow2 by lia. change (2 ^ 7) with 128. rewrite Z.mul_comm. apply Z.div_mod. lia. Qed.
Lemma land_range p : 0 <= Z.land p 127 < 128.
Proof. change 127 with (Z.ones 7). rewrite Z.land_ones by lia. apply Z.mod_pos_bound. lia. Qed.
Section Checks.
Variables P I J D1 D2 C : PositiveMap.t Z.
Definition mdec (k : bool) (p : Z) : option (list Z) := decompose_one (get P) (get I) (get J) 4 k p.
Definition mcls (p : Z) : Z := match get_canonical (get D1) (get D2) (get C) p with Some c => c | None => 0 end.
Definition fixed (k : bool) (q : Z) : bool := match mdec k q with Some l => leqb l [q] | None => false end.
Definition check_point (p : Z) : bool :=
  forallb (fun k => match mdec k p with
    | Some l => forallb (fixed k) l && (if mcls p =? 0 then true else forallb (fun q => mcls q =? mcls p) l)
        && (if valid_point p then forallb valid_point l else true)
    | None => false end) [true; false].
(** The block of index2 that means "no decomposition". *)
Definition empty_block : Z := Eval vm_compute in nth 300 decomposition_index1 0.
Definition check_points : bool :=
  forallb (fun lo => match get J (Z.shiftl empty_block 7 + lo) with Some i => i =? 0 | None => false end) (zrange 128)
  && forallb (fun h => match get I h with
       | Some b => if b =? empty_block then true else forallb (fun lo => check_point (h * 128 + lo)) (zrange 128)
       | None => false end) (zrange (Z.to_nat 8704)).
Definition check_hangul : bool :=
  forallb (fun h => match get D1 (344 + h) with Some b => (b =? 118) || (b =? 119) | None => false end) (zrange 88)
  && forallb (fun b => forallb (fun lo => match get D2 (Z.shiftl b 7 + lo) with
       | Some d => match get C d with Some c => c =? 0 | None => false end | None => false end) (zrange 128)) [118; 119]
  && forallb (fun p => fixed true p && fixed false p && (mcls p =? 0))
       (map (fun i => leading_base + i) (zrange 19) ++ map (fun i => vowel_base + i) (zrange 21) ++ map (fun i => trailing_base + i) (zrange 28)).
Variable Q : PositiveMap.t Z.
Definition row (m : Z) : Z * Z * Z :=
  match get Q (m * 3), get Q (m * 3 + 1), get Q (m * 3 + 2) with Some a, Some b, Some y => (a, b, y) | _, _, _ => (0, 0, 0) end.
Definition in_hangul (y : Z) : bool :=
  ((leading_base <=? y) && (y <? leading_base + leading_count)) || ((syllable_base <=? y) && (y <? syllable_base + syllable_count)).
Definition check_row (m : Z) : bool :=
  let '(a, b, y) := row m in
  (mcls y =? 0) && (128 <=? b) && ((0 <=? y) && valid_point y)
  && forallb (fun k => match mdec k y, mdec k a, mdec k b with Some ly, Some la, Some lb => leqb ly (la ++ lb) | _, _, _ => false end) [true; false]
  && ((mcls b =? 0) || negb (in_hangul y)).
Definition check_rows : bool :=
  let rows := map row (zrange 941) in
  let firsts := map (fun r => fst (fst r)) (filter (fun r => mcls (snd (fst r)) =? 0) rows) in
  forallb check_row (zrange 941)
  && forallb (fun r => if mcls (snd (fst r)) =? 0 then true else negb (existsb (Z.eqb (snd r)) firsts)) rows.
Definition check_ascii : bool := forallb (fun p => fixed true p && fixed false p && (mcls p =? 0)) (zrange 128).
Lemma check_points_read : check_points = true ->
  (forall lo, 0 <= lo < 128 -> get J (Z.shiftl empty_block 7 + lo) = Some 0) /\
  (forall h, 0 <= h < 8704 -> exists b, get I h = Some b /\ (b = empty_block \/ forall lo, 0 <= lo < 128 -> check_point (h * 128 + lo) = true)).
Proof.
  unfold check_points. intro K. apply andb_prop in K as [K0 K1]. split.
  - intros lo H. pose proof (forallb_zrange _ _ lo K0 H) as X. cbn beta in X. destruct (get J _) as [i|]; [|discriminate]. f_equal. lia.
  - intros h H. pose proof (forallb_zrange _ _ h K1 ltac:(rewrite Z2Nat.id; lia)) as X. cbn beta in X. destruct (get I h) as [b|]; [|discriminate].
    exists b. split; [reflexivity|]. destruct (Z.eqb_spec b empty_block); [left; assumption|right]. intros lo L. exact (forallb_zrange _ _ lo X L).
Qed.
Lemma check_hangul_read : check_hangul = true ->
  (forall p, syllable_base <= p < 432 * 128 -> mcls p = 0) /\
  (forall p, (leading_base <= p < leading_base + 19) \/ (vowel_base <= p < vowel_base + 21) \/ (trailing_base <= p < trailing_base + 28) ->
     fixed true p = true /\ fixed false p = true /\ mcls p = 0).
Proof.
  unfold check_hangul. intro K. apply andb_prop in K as [K0 K]. apply andb_prop in K0 as [K0 K1]. split.
  - intros p H. unfold mcls, get_canonical, max_unicode_point, syllable_base in *. replace (1114111 <? p) with false by lia.
    assert (Sp : p = Z.shiftr p 7 * 128 + Z.land p 127) by apply shift_split. pose proof (land_range p) as Lr.
    pose proof (forallb_zrange _ _ (Z.shiftr p 7 - 344) K0 ltac:(lia)) as X. cbn beta in X. replace (344 + (Z.shiftr p 7 - 344)) with (Z.shiftr p 7) in X by lia.
    destruct (get D1 (Z.shiftr p 7)) as [b|]; [|discriminate]. cbn [obind].
    assert (Hb : In b [118; 119]) by (cbn [In]; lia).
    pose proof (forallb_zrange _ _ (Z.land p 127) (proj1 (forallb_forall _ _) K1 b Hb) Lr) as Y. cbn beta in Y.
    destruct (get D2 _) as [d|]; [|discriminate]. cbn [obind]. destruct (get C d); [lia|discriminate].
  - intros p H.
    assert (I0 : In p (map (fun i => leading_base + i) (zrange 19) ++ map (fun i => vowel_base + i) (zrange 21) ++ map (fun i => trailing_base + i) (zrange 28))).
    { rewrite !in_app_iff, !in_map_iff. destruct H as [H|[H|H]].
      - left. exists (p - leading_base). split; [lia|]. apply zrange_in. lia.
      - right. left. exists (p - vowel_base). split; [lia|]. apply zrange_in. lia.
      - right. right. exists (p - trailing_base). split; [lia|]. apply zrange_in. lia. }
    pose proof (proj1 (forallb_forall _ _) K p I0) as X. cbn beta in X. apply andb_prop in X as [X X3]. apply andb_prop in X as [X1 X2].
    repeat split; try assumption. lia.
Qed.
Lemma check_rows_read : check_rows = true ->
  (forall m, 0 <= m < 941 -> check_row m = true) /\
  (forall m m', 0 <= m < 941 -> 0 <= m' < 941 -> mcls (snd (fst (row m))) <> 0 -> mcls (snd (fst (row m'))) = 0 -> snd (row m) <> fst (fst (row m'))).
Proof.
  unfold check_rows. intro K. cbv zeta in K. apply andb_prop in K as [K0 K1]. split.
  - intros m H. exact (forallb_zrange _ _ m K0 ltac:(lia)).
  - intros m m' H H' N0 N1 E.
    assert (I1 : In (row m) (map row (zrange 941))) by (apply in_map, zrange_in; lia).
    pose proof (proj1 (forallb_forall _ _) K1 _ I1) as X. cbn beta in X. destruct (Z.eqb_spec (mcls (snd (fst (row m)))) 0); [contradiction|].
    apply negb_true_iff in X. rewrite <- not_true_iff_false in X. apply X. apply existsb_exists. exists (fst (fst (row m'))). split; [|lia].
    apply in_map_iff. exists (row m'). split; [reflexivity|]. apply filter_In. split; [apply in_map, zrange_in; lia|lia].
Qed.
Lemma check_ascii_read : check_ascii = true -> forall p, 0 <= p < 128 -> fixed true p = true /\ fixed false p = true /\ mcls p = 0.
Proof.
  unfold check_ascii. intros K p H. pose proof (forallb_zrange _ _ p K H) as X. cbn beta in X. apply andb_prop in X as [X X3]. apply andb_prop in X as [X1 X2].
  repeat split; try assumption. lia.
Qed.
End Checks.
Lemma points_checked : check_points (mk decomposition_pool) (mk decomposition_index1) (mk decomposition_index2) (mk unicode_data1) (mk unicode_data2) (mk combining_index) = true.
Proof. vm_cast_no_check (eq_refl true). Qed.
Lemma hangul_checked : check_hangul (mk decomposition_pool) (mk decomposition_index1) (mk decomposition_index2) (mk unicode_data1) (mk unicode_data2) (mk combining_index) = true.
Proof. vm_cast_no_check (eq_refl true). Qed.
Lemma rows_checked : check_rows (mk decomposition_pool) (mk decomposition_index1) (mk decomposition_index2) (mk unicode_data1) (mk unicode_data2) (mk combining_index) (mk composition_pairs) = true.
Proof. vm_cast_no_check (eq_refl true). Qed.
Lemma ascii_checked : check_ascii (mk decomposition_pool) (mk decomposition_index1) (mk decomposition_index2) (mk unicode_data1) (mk unicode_data2) (mk combining_index) = true.
Proof. vm_cast_no_check (eq_refl true). Qed.

