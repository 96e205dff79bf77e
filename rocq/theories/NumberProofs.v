From Verif Require Import Base Bytes MathModel MathSpec MathProofs MathProofs2 BitProofs EndianModel EndianProofs NumberModel NumberSpec.

Lemma range_dec (P : Z -> bool) n : forallb P (map Z.of_nat (seq 0 n)) = true ->
  forall b, 0 <= b < Z.of_nat n -> P b = true.
Proof.
  intros H b Hb. rewrite forallb_forall in H. apply H. apply in_map_iff. exists (Z.to_nat b).
  split; [lia|]. apply in_seq. lia.
Qed.
Lemma is_negated_u8 b : byte_ok b -> is_negated u8 b = (128 <=? b).
Proof.
  intros H. apply Bool.eqb_prop.
  apply (range_dec (fun b => Bool.eqb (is_negated u8 b) (128 <=? b)) 256); [vm_compute; reflexivity|exact H].
Qed.
Lemma to_negated_u8 b : 0 <= b < 128 -> to_negated u8 b = b + 128.
Proof.
  intros H. apply Z.eqb_eq.
  apply (range_dec (fun b => to_negated u8 b =? b + 128) 128); [vm_compute; reflexivity|exact H].
Qed.

Lemma last_snoc (x : list Z) s d : last (x ++ [s]) d = s. Proof. apply last_last. Qed.
Lemma removelast_snoc (x : list Z) s : removelast (x ++ [s]) = x. Proof. apply removelast_last. Qed.
Lemma magnitude_snoc x s : magnitude (x ++ [s]) = le_value x + 256 ^ len x * (s mod 128).
Proof.
  unfold magnitude. rewrite last_snoc, removelast_snoc, len_app. change (len [s]) with 1.
  replace (len x + 1 - 1) with (len x) by lia. reflexivity.
Qed.
Lemma script_value_snoc x s : script_value (x ++ [s]) =
  if s <? 128 then le_value x + 256 ^ len x * (s mod 128) else - (le_value x + 256 ^ len x * (s mod 128)).
Proof. unfold script_value. rewrite last_snoc, magnitude_snoc. reflexivity. Qed.
Lemma snoc_cases (l : list Z) : l = [] \/ exists x s, l = x ++ [s].
Proof. destruct l; [left; reflexivity|right]. destruct (exists_last (l := z :: l)) as [x [s E]]; [discriminate|]. eauto. Qed.
Lemma map_last_snoc f x s : map_last f (x ++ [s]) = x ++ [f s].
Proof. induction x as [|a x IH]; [reflexivity|]. cbn [app map_last]. rewrite IH. destruct (x ++ [s]) eqn:E; [destruct x; discriminate|]. reflexivity. Qed.

Lemma pow256_2 k : 0 <= k -> 256 ^ k = 2 ^ (8 * k).
Proof. intros. rewrite Z.pow_mul_r by lia. reflexivity. Qed.
Lemma pow2_top k : 0 <= k -> 2 ^ (8 * (k + 1) - 1) = 128 * 256 ^ k.
Proof.
  intros. rewrite pow256_2 by lia. replace (8 * (k + 1) - 1) with (7 + 8 * k) by lia.
  rewrite Z.pow_add_r by lia. reflexivity.
Qed.

(** Bounds on the magnitude from the length. *)
Lemma magnitude_bound l : bytes_ok l -> l <> [] -> 0 <= magnitude l < 2 ^ (8 * len l - 1).
Proof.
  intros Hok Hn. destruct (snoc_cases l) as [->|(x & s & ->)]; [contradiction|].
  apply bytes_ok_app in Hok as [Hx Hs]. inversion Hs as [|? ? Hs' _]; subst. unfold byte_ok in Hs'.
  rewrite magnitude_snoc, len_app. change (len [s]) with 1. pose proof (le_value_range x Hx).
  rewrite pow2_top by apply len_nonneg. pose proof (Z.mod_pos_bound s 128 ltac:(lia)).
  pose proof (Z.pow_pos_nonneg 256 (len x) ltac:(lia) (len_nonneg x)). nia.
Qed.
Lemma minimal_bound l : bytes_ok l -> l <> [] -> minimal l ->
  1 <= magnitude l /\ (2 <= len l -> 2 ^ (8 * (len l - 1) - 1) <= magnitude l).
Proof.
  intros Hok Hn Hm. destruct (snoc_cases l) as [->|(x & s & ->)]; [contradiction|].
  apply bytes_ok_app in Hok as [Hx Hs]. inversion Hs as [|? ? Hs' _]; subst. unfold byte_ok in Hs'.
  unfold minimal in Hm. rewrite last_snoc, removelast_snoc in Hm.
  rewrite magnitude_snoc, len_app in *. change (len [s]) with 1 in *. pose proof (le_value_range x Hx).
  pose proof (Z.mod_pos_bound s 128 ltac:(lia)).
  pose proof (Z.pow_pos_nonneg 256 (len x) ltac:(lia) (len_nonneg x)).
  replace (len x + 1 - 1) with (len x) by lia.
  destruct Hm as [E|[E|[E1 E2]]]; [apply app_eq_nil in E as [_ E]; discriminate| |].
  - split; [nia|]. intros H2. assert (1 <= len x) by lia.
    assert (2 ^ (8 * len x - 1) <= 256 ^ len x) by (rewrite pow256_2 by lia; apply Z.pow_le_mono_r; lia). nia.
  - assert (Hx0 : x <> []) by (intros ->; rewrite len_nil in E1; lia).
    destruct (snoc_cases x) as [->|(y & p & ->)]; [contradiction|]. rewrite last_snoc in E2.
    apply bytes_ok_app in Hx as [Hy Hp]. pose proof (le_value_range y Hy).
    rewrite le_value_app in *. cbn [le_value] in *. rewrite len_app in *. change (len [p]) with 1 in *.
    pose proof (Z.pow_pos_nonneg 256 (len y) ltac:(lia) (len_nonneg y)).
    rewrite pow2_top by apply len_nonneg.
    assert (M : 128 * 256 ^ len y <= le_value y + 256 ^ len y * (p + 256 * 0)) by nia.
    assert (0 <= 256 ^ (len y + 1) * (s mod 128)) by (apply Z.mul_nonneg_nonneg; lia).
    split; lia.
Qed.

Lemma minimal_unique a b : bytes_ok a -> bytes_ok b -> minimal a -> minimal b ->
  script_value a = script_value b -> a = b.
Proof.
  intros Ha Hb Ma Mb E.
  assert (Z0 : forall l, bytes_ok l -> minimal l -> script_value l = 0 -> l = []).
  { intros l Hl Hm Hz. destruct (list_eq_dec Z.eq_dec l []) as [|N]; [assumption|].
    pose proof (minimal_bound l Hl N Hm) as [B _]. unfold script_value in Hz. destruct (_ <? _); lia. }
  destruct (list_eq_dec Z.eq_dec a []) as [->|Na]; [symmetry; apply Z0; auto|].
  destruct (list_eq_dec Z.eq_dec b []) as [->|Nb]; [apply Z0; auto|].
  pose proof (minimal_bound a Ha Na Ma) as [A1 A2]. pose proof (minimal_bound b Hb Nb Mb) as [B1 B2].
  pose proof (magnitude_bound a Ha Na) as A3. pose proof (magnitude_bound b Hb Nb) as B3.
  assert (Em : magnitude a = magnitude b) by (unfold script_value in E; destruct (last a 0 <? 128), (last b 0 <? 128); lia).
  assert (Es : (last a 0 <? 128) = (last b 0 <? 128)) by (unfold script_value in E; destruct (last a 0 <? 128), (last b 0 <? 128); lia).
  assert (El : len a = len b).
  { assert (La : 1 <= len a) by (destruct a; [contradiction|rewrite len_cons; pose proof (len_nonneg a); lia]).
    assert (Lb : 1 <= len b) by (destruct b; [contradiction|rewrite len_cons; pose proof (len_nonneg b); lia]).
    destruct (Z.lt_trichotomy (len a) (len b)) as [C|[C|C]]; [|assumption|].
    - specialize (B2 ltac:(lia)). assert (2 ^ (8 * len a - 1) <= 2 ^ (8 * (len b - 1) - 1)) by (apply Z.pow_le_mono_r; lia). lia.
    - specialize (A2 ltac:(lia)). assert (2 ^ (8 * len b - 1) <= 2 ^ (8 * (len a - 1) - 1)) by (apply Z.pow_le_mono_r; lia). lia. }
  destruct (snoc_cases a) as [->|(x & s & ->)]; [contradiction|]. destruct (snoc_cases b) as [->|(y & t & ->)]; [contradiction|].
  rewrite !last_snoc in Es. rewrite !magnitude_snoc in Em. rewrite !len_app in El. change (len [s]) with 1 in El. change (len [t]) with 1 in El.
  apply bytes_ok_app in Ha as [Hx Hs]. apply bytes_ok_app in Hb as [Hy Ht]. inversion Hs as [|? ? Hs' _]. inversion Ht as [|? ? Ht' _]. subst.
  unfold byte_ok in *. pose proof (le_value_range x Hx) as Rx. pose proof (le_value_range y Hy) as Ry.
  assert (Lxy : len x = len y) by lia. rewrite Lxy in *.
  pose proof (Z.pow_pos_nonneg 256 (len y) ltac:(lia) (len_nonneg y)).
  assert (Emod : s mod 128 = t mod 128) by nia. assert (Ele : le_value x = le_value y) by nia.
  assert (x = y) by (apply le_value_inj; [assumption|assumption|unfold len in Lxy; lia|assumption]). subst.
  f_equal. f_equal. pose proof (Z.div_mod s 128 ltac:(lia)). pose proof (Z.div_mod t 128 ltac:(lia)).
  pose proof (Z.mod_pos_bound s 128 ltac:(lia)).
  destruct (Z.ltb_spec s 128), (Z.ltb_spec t 128); try discriminate.
  - rewrite (Z.mod_small s), (Z.mod_small t) in Emod by lia. exact Emod.
  - replace s with (s - 128 + 1 * 128) in Emod by lia. replace t with (t - 128 + 1 * 128) in Emod by lia.
    rewrite !Z.mod_add in Emod by lia. rewrite !Z.mod_small in Emod by lia. lia.
Qed.

(** ** Encoding. *)
Lemma encode_abs v : fits i64 v -> v <> imin i64 -> v <> 0 ->
  exists x t, chunk_from_integer v =
    Some (if 128 <=? t then x ++ [t; if v <? 0 then 128 else 0]
          else x ++ [if v <? 0 then t + 128 else t]) /\
    bytes_ok x /\ 1 <= t < 256 /\ Z.abs v = le_value x + 256 ^ len x * t.
Proof.
  intros Hf Hm H0. unfold chunk_from_integer. destruct (Z.eqb_spec v 0); [contradiction|].
  rewrite absolute_exact; [|cbn; lia|reflexivity|exact Hf|exact Hm]. cbn [obind].
  set (a := Z.abs v). assert (Ha : 1 <= a < 2 ^ 63) by (unfold fits, imin, imax in Hf; cbn in Hf, Hm; unfold a; lia).
  assert (Fa : fits u64 a) by (unfold fits; cbn; lia).
  pose proof (floored_log256_ok u64 a ltac:(right; right; right; reflexivity) Fa ltac:(lia)) as (L0 & L1 & L2).
  unfold to_little_endian_chunk, byte_width. cbn [sg u64 andb]. destruct (Z.eqb_spec a 0); [lia|].
  set (j := floored_log256 u64 a) in *.
  unfold to_little_data. cbn [bits u64 Z.eqb Pos.eqb]. rewrite to_little_loop_eq.
  replace (Z.to_nat (j + 1)) with (Z.to_nat j + 1)%nat by lia. rewrite le_bytes_app. rewrite Z2Nat.id by lia.
  set (x := le_bytes (Z.to_nat j) a). set (t := a / 256 ^ j).
  assert (Hp : 0 < 256 ^ j) by (apply Z.pow_pos_nonneg; lia).
  assert (Lx : len x = j) by (unfold x; rewrite len_le_bytes; lia).
  assert (Ht : 1 <= t < 256).
  { unfold t. split; [apply Z.div_le_lower_bound; lia|]. apply Z.div_lt_upper_bound; [lia|].
    rewrite Z.pow_add_r in L2 by lia. change (256 ^ 1) with 256 in L2. lia. }
  assert (Ebytes : le_bytes 1 t = [t]) by (cbn [le_bytes]; rewrite Z.mod_small by lia; reflexivity).
  rewrite Ebytes.
  assert (Ea : a = le_value x + 256 ^ len x * t).
  { rewrite Lx. unfold x. rewrite le_value_bytes, Z2Nat.id by lia. unfold t.
    pose proof (Z.div_mod a (256 ^ j) ltac:(lia)). lia. }
  assert (Eneg : is_negated u64 a = (128 <=? t)).
  { unfold is_negated. destruct (Z.eqb_spec a 0); [lia|]. cbn [negb andb]. unfold bit_width. cbn [sg u64 andb].
    destruct (Z.eqb_spec a 0); [lia|]. pose proof (floored_log2_ok a ltac:(lia)) as (M0 & M1 & M2). set (m := floored_log2 a) in *.
    assert (B1 : 8 * j <= m).
    { apply Z.lt_succ_r. apply (Z.pow_lt_mono_r_iff 2); [lia|lia|]. rewrite <- pow256_2 by lia. change (Z.succ m) with (m + 1). lia. }
    assert (B2 : m < 8 * (j + 1)).
    { apply (Z.pow_lt_mono_r_iff 2); [lia|lia|]. rewrite <- pow256_2 by lia. lia. }
    assert (C : 128 <= t <-> m = 8 * j + 7).
    { split; intros C.
      - assert (2 ^ (8 * (j + 1) - 1) <= a).
        { rewrite pow2_top by lia. rewrite Ea, Lx. pose proof (le_value_range x (le_bytes_ok _ _)). nia. }
        assert (8 * (j + 1) - 1 < m + 1); [|lia]. apply (Z.pow_lt_mono_r_iff 2); lia.
      - assert (128 * 256 ^ j <= a).
        { rewrite <- pow2_top by lia. replace (8 * (j + 1) - 1) with m by lia. lia. }
        unfold t. apply Z.div_le_lower_bound; lia. }
    destruct (Z.leb_spec 128 t) as [D|D].
    - apply C in D. rewrite D. replace (8 * j + 7 + 1) with (0 + (j + 1) * 8) by lia. rewrite Z.mod_add by lia. reflexivity.
    - assert (m <> 8 * j + 7) by (rewrite <- C; lia).
      apply Z.eqb_neq. intros Q. assert (Q' : (m + 1) mod 8 = 0) by lia.
      pose proof (Z.div_mod (m + 1) 8 ltac:(lia)). lia. }
  rewrite Eneg. exists x, t. split; [|split; [apply le_bytes_ok|split; [exact Ht|exact Ea]]].
  f_equal. destruct (Z.leb_spec 128 t) as [D|D]; cbn [andb].
  - unfold negative_sign_byte, positive_sign_byte. destruct (v <? 0); rewrite <- app_assoc; reflexivity.
  - destruct (v <? 0); [|reflexivity]. rewrite map_last_snoc, to_negated_u8 by lia. reflexivity.
Qed.

Lemma encode_ok v : fits i64 v -> v <> imin i64 ->
  exists l, chunk_from_integer v = Some l /\ bytes_ok l /\ minimal l /\ script_value l = v.
Proof.
  intros Hf Hm. destruct (Z.eq_dec v 0) as [->|H0].
  { exists []. split; [reflexivity|]. split; [constructor|]. split; [left; reflexivity|reflexivity]. }
  destruct (encode_abs v Hf Hm H0) as (x & t & E & Hx & Ht & Ea). rewrite E. eexists. split; [reflexivity|].
  destruct (Z.leb_spec 128 t) as [D|D].
  - change [t; if v <? 0 then 128 else 0] with ([t] ++ [if v <? 0 then 128 else 0]). rewrite app_assoc.
    assert (Hxt : bytes_ok (x ++ [t])) by (apply bytes_ok_app; split; [assumption|constructor; [unfold byte_ok; lia|constructor]]).
    split; [apply bytes_ok_app; split; [assumption|constructor; [unfold byte_ok; destruct (v <? 0); lia|constructor]]|].
    split.
    + right. right. rewrite removelast_snoc, last_snoc, !len_app. change (len [_]) with 1. pose proof (len_nonneg x). change (len [t]) with 1. lia.
    + rewrite script_value_snoc, le_value_app. cbn [le_value].
      destruct (Z.ltb_spec v 0); cbn [Z.ltb Z.compare Pos.compare Pos.compare_cont];
       [change (128 mod 128) with 0|change (0 mod 128) with 0]; lia.
  - split; [apply bytes_ok_app; split; [assumption|constructor; [unfold byte_ok; destruct (v <? 0); lia|constructor]]|].
    assert (Em : (if v <? 0 then t + 128 else t) mod 128 = t).
    { destruct (v <? 0); [|apply Z.mod_small; lia]. replace (t + 128) with (t + 1 * 128) by lia. rewrite Z.mod_add by lia. apply Z.mod_small. lia. }
    split.
    + right. left. rewrite last_snoc, Em. lia.
    + rewrite script_value_snoc, Em. destruct (Z.ltb_spec v 0) as [N|N];
       [destruct (Z.ltb_spec (t + 128) 128); lia|destruct (Z.ltb_spec t 128); lia].
Qed.
Lemma encode_min_undefined : chunk_from_integer (imin i64) = None.
Proof. vm_compute. reflexivity. Qed.

(** Encoded length and the range of an n byte number. *)
Lemma minimal_len_le l n : bytes_ok l -> minimal l -> 1 <= n ->
  (len l <= n <-> - (2 ^ (8 * n - 1) - 1) <= script_value l <= 2 ^ (8 * n - 1) - 1).
Proof.
  intros Hl Hm Hn. assert (P : 0 < 2 ^ (8 * n - 1)) by (apply pow2_pos; lia).
  destruct (list_eq_dec Z.eq_dec l []) as [->|N].
  { rewrite len_nil. change (script_value []) with 0. lia. }
  pose proof (magnitude_bound l Hl N) as B. pose proof (minimal_bound l Hl N Hm) as [B1 B2].
  assert (Ll : 1 <= len l) by (destruct l; [contradiction|rewrite len_cons; pose proof (len_nonneg l); lia]).
  split; intros H.
  - assert (2 ^ (8 * len l - 1) <= 2 ^ (8 * n - 1)) by (apply Z.pow_le_mono_r; lia).
    unfold script_value. destruct (_ <? _); lia.
  - destruct (Z.le_gt_cases (len l) n); [assumption|]. exfalso. specialize (B2 ltac:(lia)).
    assert (2 ^ (8 * n - 1) <= 2 ^ (8 * (len l - 1) - 1)) by (apply Z.pow_le_mono_r; lia).
    unfold script_value in H. destruct (_ <? _); lia.
Qed.

(** ** Decoding. *)
Definition int_type (n : Z) (T : ity) : Prop := T = signed_type n.
Lemma signed_type_facts n : 2 <= n <= 8 ->
  sg (signed_type n) = true /\ std_width (signed_type n) /\ bits (signed_type n) <> 8 /\ 8 * n <= bits (signed_type n) /\
  bits (signed_type n) mod 8 = 0 /\ 0 < bits (signed_type n).
Proof.
  intros H. unfold signed_type, std_width. destruct (Z.eqb_spec n 1); [lia|].
  destruct (Z.eqb_spec n 2); [cbn [sg bits i16]|destruct (Z.leb_spec n 4); cbn [sg bits i32 i64]];
   (split; [reflexivity|]; split; [lia|]; split; [lia|]; split; [lia|]; split; [reflexivity|lia]).
Qed.

Lemma set_right_clear T w m o : 0 < bits T -> 0 <= o < bits T -> fits T m -> 0 <= m < 2 ^ o ->
  (forall i, 0 <= i < bits T -> i <> o -> bit w i = bit m i) ->
  set_right T w o false = m.
Proof.
  intros HB Ho Hf Hm Hw. apply (bit_ext T); [exact HB|unfold set_right; apply fits_wrap; exact HB|exact Hf|].
  intros i Hi. rewrite set_right_bit by assumption. destruct (Z.eqb_spec i o) as [->|N].
  - unfold bit. symmetry. apply (testbit_small m o); lia.
  - apply Hw; assumption.
Qed.

Lemma from_chunk_cons n l : l <> [] -> integer_from_chunk n l =
  if len l >? n then Some (false, 0) else
  if is_negated u8 (last l 0)
  then omap (fun o => (true, o)) (to_unnegated (signed_type n) (from_little_data (signed_type n) (Z.to_nat (bits (signed_type n) / 8)) l))
  else Some (true, from_little_data (signed_type n) (Z.to_nat (bits (signed_type n) / 8)) l).
Proof. intros H. unfold integer_from_chunk. destruct l; [contradiction|]. cbv zeta. reflexivity. Qed.

Lemma decode_ok n l : 2 <= n <= 8 -> bytes_ok l ->
  integer_from_chunk n l = if len l >? n then Some (false, 0) else Some (true, script_value l).
Proof.
  intros Hn Hok. destruct (signed_type_facts n Hn) as (S & W & N8 & Hb & H8 & HB).
  destruct (list_eq_dec Z.eq_dec l []) as [->|N].
  { destruct (Z.gtb_spec (len (@nil Z)) n); [rewrite len_nil in *; lia|reflexivity]. }
  rewrite from_chunk_cons by assumption.
  destruct (Z.gtb_spec (len l) n); [reflexivity|]. set (T := signed_type n) in *.
  rewrite from_little_eq by assumption. rewrite firstn_all2 by (unfold len in *; pose proof (Z.div_mod (bits T) 8 ltac:(lia)); lia).
  destruct (snoc_cases l) as [->|(x & s & ->)]; [contradiction|].
  apply bytes_ok_app in Hok as [Hx Hs]. inversion Hs as [|? ? Hs' _]; subst.
  rewrite last_snoc, is_negated_u8 by assumption. unfold byte_ok in Hs'.
  rewrite script_value_snoc, le_value_app. cbn [le_value]. rewrite Z.mul_0_r, Z.add_0_r.
  rewrite len_app in *. change (len [s]) with 1 in *.
  pose proof (le_value_range x Hx) as R. set (X := le_value x) in *. set (k := len x) in *.
  assert (Hk : 0 <= k) by apply len_nonneg.
  assert (Hp : 0 < 256 ^ k) by (apply Z.pow_pos_nonneg; lia).
  assert (Pk : 2 ^ (8 * (k + 1) - 1) <= 2 ^ (bits T - 1)) by (apply Z.pow_le_mono_r; lia).
  assert (Ptop := pow2_top k Hk).
  destruct (Z.leb_spec 128 s) as [D|D].
  - destruct (Z.ltb_spec s 128); [lia|].
    assert (Es : s mod 128 = s - 128) by (replace s with (s - 128 + 1 * 128) at 1 by lia; rewrite Z.mod_add by lia; apply Z.mod_small; lia).
    rewrite Es. set (m := X + 256 ^ k * (s - 128)).
    assert (Hm : 0 <= m < 2 ^ (8 * (k + 1) - 1)) by (unfold m; rewrite Ptop; nia).
    assert (Ew : X + 256 ^ k * s = m + 2 ^ (8 * (k + 1) - 1)) by (unfold m; rewrite Ptop; lia).
    rewrite Ew. set (o := 8 * (k + 1) - 1) in *.
    assert (Fm : fits T m) by (unfold fits, imin, imax; rewrite S; lia).
    assert (Po : 0 < 2 ^ o) by (apply pow2_pos; unfold o; lia).
    assert (Pso : 2 ^ (o + 1) = 2 * 2 ^ o) by (rewrite Z.pow_add_r by (unfold o; lia); lia).
    assert (BW : bit_width T (wrap T (m + 2 ^ o)) = o + 1 /\ set_right T (wrap T (m + 2 ^ o)) o false = m /\ wrap T (m + 2 ^ o) <> 0).
    { destruct (Z.eq_dec (o + 1) (bits T)) as [Eb|Nb].
      - assert (Ewr : wrap T (m + 2 ^ o) = m + 2 ^ o - 2 ^ bits T).
        { apply (wrap_unique T _ _ (-1)); [exact HB| |lia]. unfold fits, imin, imax. rewrite S.
          replace (bits T - 1) with o by lia. rewrite <- Eb, Pso. lia. }
        assert (Ng : m + 2 ^ o - 2 ^ bits T < 0) by (rewrite <- Eb, Pso; lia).
        rewrite Ewr. split; [|split; [|lia]].
        + unfold bit_width. rewrite S. cbn [andb]. destruct (Z.ltb_spec (m + 2 ^ o - 2 ^ bits T) 0); lia.
        + apply set_right_clear; try assumption; [unfold o; lia|]. intros i Hi Ni.
          unfold bit. replace (m + 2 ^ o - 2 ^ bits T) with (m + (-1) * 2 ^ o) by (rewrite <- Eb, Pso; lia).
          apply testbit_cong. lia.
      - assert (Fw : fits T (m + 2 ^ o)).
        { assert (2 ^ (o + 1) <= 2 ^ (bits T - 1)) by (apply Z.pow_le_mono_r; unfold o in *; lia).
          unfold fits, imin, imax. rewrite S. lia. }
        rewrite wrap_fits by assumption. split; [|split; [|lia]].
        + unfold bit_width. rewrite S. cbn [andb]. destruct (Z.ltb_spec (m + 2 ^ o) 0); [lia|].
          destruct (Z.eqb_spec (m + 2 ^ o) 0); [lia|]. f_equal. unfold floored_log2, std_bit_width.
          destruct (Z.ltb_spec (m + 2 ^ o) 1); [lia|]. destruct (Z.eqb_spec (m + 2 ^ o) 0); [lia|].
          rewrite (Z.log2_unique (m + 2 ^ o) o); [lia|unfold o; lia|]. change (Z.succ o) with (o + 1). lia.
        + apply set_right_clear; try assumption; [unfold o in *; lia|]. intros i Hi Ni. unfold bit.
          destruct (Z.lt_ge_cases i o).
          * replace (m + 2 ^ o) with (m + 1 * 2 ^ o) by lia. apply testbit_cong. lia.
          * rewrite (testbit_small m o) by (unfold o in *; lia). apply (testbit_small _ (o + 1)); unfold o in *; lia. }
    destruct BW as (B1 & B2 & B3).
    unfold to_unnegated, is_negated. rewrite B1. destruct (Z.eqb_spec (wrap T (m + 2 ^ o)) 0); [contradiction|]. cbn [negb andb].
    assert (Hom : (o + 1) mod 8 = 0) by (replace (o + 1) with ((k + 1) * 8) by (unfold o; lia); apply Z.mod_mul; lia).
    rewrite ?Hom. replace (o + 1 - 1) with o by lia. cbn [Z.eqb negb andb]. change (negb (0 + 1 =? 1)) with false. cbv iota.
    rewrite B2. unfold negate. rewrite S.
    assert (Fn : fits T (- m)) by (unfold fits, imin, imax in *; rewrite S in *; lia).
    unfold arith. pose proof (fits_promote T (- m) HB Fn) as Fp. apply fitsb_spec in Fp. rewrite Fp.
    destruct (sg (promote T)) eqn:Sp; cbn [omap].
    + rewrite wrap_fits by assumption. reflexivity.
    + unfold promote in Sp. destruct (bits T <? 32); [discriminate|congruence].
  - destruct (Z.ltb_spec s 128); [|lia]. rewrite Z.mod_small by lia. f_equal. f_equal. apply wrap_fits; [exact HB|].
    unfold fits, imin, imax. rewrite S. assert (X + 256 ^ k * s < 2 ^ (8 * (k + 1) - 1)) by (rewrite Ptop; nia). nia.
Qed.

Lemma is_limited_range n v : 2 <= n <= 8 -> fits i64 v ->
  integer_from_integer n v = ((bitcoin_min n <=? v) && (v <=? bitcoin_max n), wrap (signed_type n) v).
Proof.
  intros Hn Hv. unfold integer_from_integer, is_limited3, is_lesser, is_greater.
  destruct (signed_type_facts n Hn) as (S & _). rewrite S. cbn [sg i64]. f_equal.
  destruct (Z.ltb_spec v (bitcoin_min n)), (Z.leb_spec (bitcoin_min n) v), (Z.ltb_spec (bitcoin_max n) v), (Z.leb_spec v (bitcoin_max n)); try lia; reflexivity.
Qed.

Lemma from_integer_ok n v l : 2 <= n <= 8 -> fits i64 v -> v <> imin i64 -> chunk_from_integer v = Some l ->
  integer_from_integer n v = if len l >? n then (false, wrap (signed_type n) v) else (true, v).
Proof.
  intros Hn Hf Hm E. destruct (encode_ok v Hf Hm) as (l' & E' & Hok & Hmin & Hv). rewrite E in E'. inversion E'. subst l'.
  rewrite is_limited_range by assumption. pose proof (minimal_len_le l n Hok Hmin ltac:(lia)) as Q. rewrite Hv in Q.
  unfold bitcoin_min, bitcoin_max. destruct (signed_type_facts n Hn) as (S & _ & _ & Hb & _ & HB).
  destruct (Z.gtb_spec (len l) n).
  - f_equal. assert (~ (- (2 ^ (8 * n - 1) - 1) <= v <= 2 ^ (8 * n - 1) - 1)) by (rewrite <- Q; lia).
    destruct (Z.leb_spec (- (2 ^ (8 * n - 1) - 1)) v), (Z.leb_spec v (2 ^ (8 * n - 1) - 1)); try reflexivity; lia.
  - assert (- (2 ^ (8 * n - 1) - 1) <= v <= 2 ^ (8 * n - 1) - 1) as Q' by (apply Q; lia).
    destruct (Z.leb_spec (- (2 ^ (8 * n - 1) - 1)) v), (Z.leb_spec v (2 ^ (8 * n - 1) - 1)); try lia. cbn [andb]. f_equal.
    apply wrap_fits; [exact HB|]. assert (2 ^ (8 * n - 1) <= 2 ^ (bits (signed_type n) - 1)) by (apply Z.pow_le_mono_r; lia).
    unfold fits, imin, imax. rewrite S. lia.
Qed.

(** ** Truthiness. *)
Lemma truthy_app_last x s : truthy (x ++ [s]) <-> (exists b, In b x /\ b <> 0) \/ (s <> 0 /\ s <> 128).
Proof.
  unfold truthy. rewrite app_length. cbn [length]. split.
  - intros (i & b & Hn & Hb & Hl). destruct (Nat.lt_ge_cases i (length x)) as [C|C].
    + left. rewrite nth_error_app1 in Hn by assumption. exists b. split; [apply (nth_error_In x i); assumption|assumption].
    + right. rewrite nth_error_app2 in Hn by assumption. destruct (i - length x)%nat as [|d] eqn:Ed; [|destruct d; discriminate].
      inversion Hn; subst. split; [assumption|]. intros ->. apply Hl. split; [reflexivity|lia].
  - intros [(b & Hin & Hb)|[H0 H1]].
    + apply In_nth_error in Hin as [i Hi]. assert (i < length x)%nat by (apply nth_error_Some; congruence).
      exists i, b. rewrite nth_error_app1 by assumption. repeat split; try assumption. intros [_ ?]. lia.
    + exists (length x), s. rewrite nth_error_app2, Nat.sub_diag by lia. repeat split; try assumption. intros [? _]. contradiction.
Qed.
Lemma boolean_from_chunk_ok l : boolean_from_chunk l = true <-> truthy l.
Proof.
  destruct (snoc_cases l) as [->|(x & s & ->)].
  - split; [discriminate|]. intros (i & b & H & _). destruct i; discriminate.
  - rewrite truthy_app_last.
    assert (E : boolean_from_chunk (x ++ [s]) = if negb (is_sign_byte s) then true else existsb (fun b => negb (b =? 0)) x).
    { unfold boolean_from_chunk. rewrite last_snoc, removelast_snoc. destruct x; reflexivity. }
    rewrite E. unfold is_sign_byte, positive_sign_byte, negative_sign_byte.
    destruct (Z.eqb_spec s 0) as [->|N0]; [|destruct (Z.eqb_spec s 128) as [->|N1]]; cbn [orb negb].
    + rewrite existsb_exists. split; [intros (b & Hi & Hb); left; exists b; split; [assumption|lia]|].
      intros [(b & Hi & Hb)|[? _]]; [exists b; split; [assumption|lia]|contradiction].
    + rewrite existsb_exists. split; [intros (b & Hi & Hb); left; exists b; split; [assumption|lia]|].
      intros [(b & Hi & Hb)|[_ ?]]; [exists b; split; [assumption|lia]|contradiction].
    + split; [intros _; right; auto|reflexivity].
Qed.
Lemma minimal_truthy l : bytes_ok l -> minimal l -> (truthy l <-> script_value l <> 0).
Proof.
  intros Hok Hm. split.
  - intros Ht Hz. destruct (list_eq_dec Z.eq_dec l []) as [->|N].
    + destruct Ht as (i & b & H & _). destruct i; discriminate.
    + pose proof (minimal_bound l Hok N Hm) as [B _]. unfold script_value in Hz. destruct (_ <? _); lia.
  - intros Hz. destruct (snoc_cases l) as [->|(x & s & ->)]; [exfalso; apply Hz; reflexivity|].
    rewrite truthy_app_last. rewrite script_value_snoc in Hz.
    destruct (existsb (fun b => negb (b =? 0)) x) eqn:E.
    + left. apply existsb_exists in E as (b & Hi & Hb). exists b. split; [assumption|lia].
    + right. assert (le_value x = 0).
      { clear - E. induction x; [reflexivity|]. cbn [existsb le_value] in *. apply orb_false_iff in E as [E1 E2]. rewrite IHx by assumption. lia. }
      rewrite H in Hz. split; intros ->; apply Hz; cbn [Z.ltb Z.compare Pos.compare Pos.compare_cont];
        rewrite ?Z.mod_0_l, ?Z.mod_same by lia; lia.
Qed.

Lemma bytes_eqb_ok a b : bytes_eqb a b = true <-> a = b.
Proof.
  revert b. induction a as [|x a IH]; intros [|y b]; cbn [bytes_eqb]; split; try discriminate; try reflexivity.
  - intros H. apply andb_prop in H as [H1 H2]. apply Z.eqb_eq in H1. apply IH in H2. subst. reflexivity.
  - intros H. inversion H; subst. rewrite Z.eqb_refl. apply IH. reflexivity.
Qed.
Lemma bytes_eqb_refl a : bytes_eqb a a = true. Proof. apply bytes_eqb_ok. reflexivity. Qed.
Lemma bytes_eqb_sym a b : bytes_eqb a b = bytes_eqb b a.
Proof.
  destruct (bytes_eqb a b) eqn:E; symmetry.
  - apply bytes_eqb_ok in E. subst. apply bytes_eqb_refl.
  - destruct (bytes_eqb b a) eqn:F; [|reflexivity]. apply bytes_eqb_ok in F. subst. rewrite bytes_eqb_refl in E. discriminate.
Qed.
