From Verif Require Import Base Bytes RadixModel RadixSpec.

(** * radix values *)
Lemma radix_acc b l : forall a, fold_left (fun a d => a * b + d) l a = a * b ^ len l + radix_value b l.
Proof.
  induction l as [|d l IH]; intros a; unfold radix_value; cbn [fold_left].
  - change (len (@nil Z)) with 0. rewrite Z.pow_0_r. lia.
  - rewrite IH, (IH (0 * b + d)), len_cons. pose proof (len_nonneg l).
    rewrite Z.pow_add_r, Z.pow_1_r by lia. unfold radix_value. lia.
Qed.
Lemma radix_nil b : radix_value b [] = 0. Proof. reflexivity. Qed.
Lemma radix_cons b d l : radix_value b (d :: l) = d * b ^ len l + radix_value b l.
Proof. unfold radix_value at 1. cbn [fold_left]. rewrite radix_acc. lia. Qed.
Lemma radix_app b l m : radix_value b (l ++ m) = radix_value b l * b ^ len m + radix_value b m.
Proof. unfold radix_value at 1. rewrite fold_left_app. rewrite radix_acc. reflexivity. Qed.
Lemma radix_snoc b l d : radix_value b (l ++ [d]) = radix_value b l * b + d.
Proof. rewrite radix_app. change (len [d]) with 1. rewrite Z.pow_1_r. unfold radix_value at 2. cbn [fold_left]. lia. Qed.
Lemma radix_range b l : 1 < b -> digits_ok b l -> 0 <= radix_value b l < b ^ len l.
Proof.
  intros Hb. induction l as [|d l IH]; intros F.
  - change (len (@nil Z)) with 0. rewrite Z.pow_0_r. cbn. lia.
  - inversion F as [|? ? Hd F']; subst. specialize (IH F'). rewrite radix_cons, len_cons.
    pose proof (len_nonneg l). rewrite Z.pow_add_r, Z.pow_1_r by lia. nia.
Qed.
Lemma radix_zeros b n : radix_value b (repeat 0 n) = 0.
Proof. induction n as [|n IH]; [reflexivity|]. cbn [repeat]. rewrite radix_cons, IH. lia. Qed.
Lemma digits_app b l m : digits_ok b (l ++ m) <-> digits_ok b l /\ digits_ok b m.
Proof. apply Forall_app. Qed.

Lemma radix_inj_len b l : 1 < b -> forall m, digits_ok b l -> digits_ok b m -> length l = length m ->
  radix_value b l = radix_value b m -> l = m.
Proof.
  intros Hb. induction l as [|d l IH]; intros [|e m] Fl Fm HL E; try discriminate; [reflexivity|].
  inversion Fl; inversion Fm; subst. rewrite !radix_cons in E.
  assert (LL : len l = len m) by (unfold len; cbn in HL; lia). rewrite LL in E.
  pose proof (radix_range b l Hb H2) as R1. pose proof (radix_range b m Hb H6) as R2. rewrite LL in R1.
  assert (d = e) by nia. subst e. f_equal. apply IH; auto. lia.
Qed.
Lemma canonical_lower b l : 1 < b -> digits_ok b l -> canonical l -> l <> [] -> b ^ (len l - 1) <= radix_value b l.
Proof.
  intros Hb F C N. destruct l as [|d l]; [congruence|]. cbn in C. inversion F; subst.
  rewrite radix_cons, len_cons. replace (1 + len l - 1) with (len l) by lia.
  pose proof (radix_range b l Hb H2). assert (0 < b ^ len l) by (apply Z.pow_pos_nonneg; pose proof (len_nonneg l); lia). nia.
Qed.
Lemma radix_inj b l m : 1 < b -> digits_ok b l -> digits_ok b m -> canonical l -> canonical m ->
  radix_value b l = radix_value b m -> l = m.
Proof.
  intros Hb Fl Fm Cl Cm E. apply (radix_inj_len b); auto.
  assert (G : forall l m, digits_ok b l -> digits_ok b m -> canonical m -> radix_value b l = radix_value b m ->
             ~ (length l < length m)%nat).
  { clear - Hb. intros l m Fl Fm Cm E HL. assert (N : m <> []) by (destruct m; cbn in HL; [lia|discriminate]).
    pose proof (canonical_lower b m Hb Fm Cm N). pose proof (radix_range b l Hb Fl).
    assert (b ^ len l <= b ^ (len m - 1)) by (apply Z.pow_le_mono_r; unfold len; lia). lia. }
  pose proof (G l m Fl Fm Cm E). pose proof (G m l Fm Fl Cl (eq_sym E)). lia.
Qed.

(** * multiply and add over a fixed width array *)
Lemma mul_add_ok m b le : 1 < b -> forall carry, 0 <= carry -> 0 <= m -> Forall (fun d => 0 <= d) le ->
  let (r, c) := mul_add m b le carry in
  length r = length le /\ digits_ok b r /\ 0 <= c /\
  radix_value b (rev r) + c * b ^ len le = radix_value b (rev le) * m + carry.
Proof.
  intros Hb. induction le as [|d le IH]; intros carry Hc Hm F; cbn [mul_add].
  - split; [reflexivity|]. split; [constructor|]. split; [exact Hc|]. change (len (@nil Z)) with 0. cbn [rev].
    rewrite radix_nil, Z.pow_0_r. lia.
  - inversion F; subst. set (x := carry + m * d). assert (0 <= x) by nia.
    assert (0 <= x / b) by (apply Z.div_pos; lia).
    specialize (IH (x / b) H0 Hm H2). destruct (mul_add m b le (x / b)) as [r c].
    destruct IH as (L & D & C & E). split; [cbn; congruence|]. split.
    { constructor; [apply Z.mod_pos_bound; lia|exact D]. }
    split; [exact C|]. cbn [rev]. rewrite !radix_snoc, len_cons.
    pose proof (len_nonneg le). rewrite Z.pow_add_r, Z.pow_1_r by lia.
    pose proof (Z.div_mod x b ltac:(lia)). subst x. nia.
Qed.

Lemma pack_ok m b idx carry : 1 < b -> 0 <= m -> 0 <= carry -> digits_ok b idx ->
  radix_value b idx * m + carry < b ^ len idx ->
  let r := rev (fst (mul_add m b (rev idx) carry)) in
  length r = length idx /\ digits_ok b r /\ radix_value b r = radix_value b idx * m + carry /\
  snd (mul_add m b (rev idx) carry) = 0.
Proof.
  intros Hb Hm Hc D HB. pose proof (mul_add_ok m b (rev idx) Hb carry Hc Hm) as M.
  destruct (mul_add m b (rev idx) carry) as [r c]. cbn [fst snd]. cbv zeta.
  destruct M as (L & Dr & C & E).
  { apply Forall_rev. eapply Forall_impl; [|exact D]. cbn. intros; lia. }
  rewrite rev_involutive, len_rev in E. rewrite rev_length in L.
  assert (Dr' : digits_ok b (rev r)) by (apply Forall_rev; exact Dr).
  pose proof (radix_range b (rev r) Hb Dr') as R.
  assert (c = 0) by nia. subst c.
  split; [rewrite rev_length; exact L|]. split; [exact Dr'|]. split; [lia|reflexivity].
Qed.

(** Converting a digit string of radix m to radix b in an array of n digits. *)
Lemma convert_ok m b ds : 1 < b -> 1 < m -> forall idx, digits_ok m ds -> digits_ok b idx ->
  radix_value b idx * m ^ len ds + radix_value m ds < b ^ len idx ->
  let r := fold_left (fun idx c => rev (fst (mul_add m b (rev idx) c))) ds idx in
  length r = length idx /\ digits_ok b r /\ radix_value b r = radix_value b idx * m ^ len ds + radix_value m ds.
Proof.
  intros Hb Hm. induction ds as [|d ds IH]; intros idx Dm Db HB; cbn [fold_left].
  - change (len (@nil Z)) with 0 in *. rewrite Z.pow_0_r in *. rewrite radix_nil in *. cbv zeta. repeat split; auto. lia.
  - inversion Dm as [|? ? Hd Dm']; subst.
    rewrite radix_cons, len_cons in HB. pose proof (len_nonneg ds) as L0.
    rewrite Z.pow_add_r, Z.pow_1_r in HB by lia.
    assert (P : 0 < m ^ len ds) by (apply Z.pow_pos_nonneg; lia).
    pose proof (radix_range m ds Hm Dm') as R.
    assert (B1 : radix_value b idx * m + d < b ^ len idx).
    { assert (0 <= radix_value b idx) by (apply radix_range; auto).
      assert ((radix_value b idx * m + d) * 1 <= (radix_value b idx * m + d) * m ^ len ds) by (apply Z.mul_le_mono_nonneg_l; nia).
      nia. }
    destruct (pack_ok m b idx d Hb ltac:(lia) ltac:(lia) Db B1) as (L & D & V & _).
    set (idx' := rev (fst (mul_add m b (rev idx) d))) in *.
    assert (LL : len idx' = len idx) by (unfold len; congruence).
    specialize (IH idx' Dm' D). rewrite V, LL in IH.
    destruct IH as (L2 & D2 & V2); [nia|]. split; [congruence|]. split; [exact D2|].
    rewrite V2, radix_cons, len_cons, Z.pow_add_r, Z.pow_1_r by lia. nia.
Qed.

(** * leading zeros *)
Lemma first_nonzero_ok b l : digits_ok b l -> canonical (from_first_nonzero l) /\ digits_ok b (from_first_nonzero l) /\
  radix_value b (from_first_nonzero l) = radix_value b l.
Proof.
  induction l as [|d l IH]; intros F; cbn [from_first_nonzero]; [split; [exact I|]; split; [exact F|reflexivity]|].
  inversion F; subst. destruct (Z.eqb_spec d 0) as [->|N].
  - destruct (IH H2) as (C & D & V). split; [exact C|]. split; [exact D|]. rewrite radix_cons, V. lia.
  - split; [exact N|]. split; [exact F|reflexivity].
Qed.
Lemma leading_split z l : exists n r, l = repeat z n ++ r /\ count_leading z l = Z.of_nat n /\
  (forall x r', r = x :: r' -> x <> z).
Proof.
  induction l as [|x l IH]; cbn [count_leading].
  - exists O, []. split; [reflexivity|]. split; [reflexivity|]. discriminate.
  - destruct (Z.eqb_spec x z) as [->|N].
    + destruct IH as (n & r & -> & C & H). exists (S n), r. split; [reflexivity|]. split; [lia|exact H].
    + exists O, (x :: l). split; [reflexivity|]. split; [reflexivity|]. intros ? ? E. injection E as <- _. exact N.
Qed.
Lemma count_leading_app z n r : (forall x r', r = x :: r' -> x <> z) -> count_leading z (repeat z n ++ r) = Z.of_nat n.
Proof.
  intros H. induction n as [|n IH]; cbn [repeat app count_leading].
  - destruct r as [|x r]; cbn [count_leading]; [reflexivity|].
    destruct (Z.eqb_spec x z); [|reflexivity]. exfalso. apply (H x r); auto.
  - rewrite Z.eqb_refl, IH. lia.
Qed.
Lemma skip_repeat {A} (z : A) n r : skipn n (repeat z n ++ r) = r.
Proof. induction n as [|n IH]; [reflexivity|exact IH]. Qed.

(** * sizes: 256^100 <= 58^138 and 58^1000 <= 256^733 *)
Lemma pow_ratio a b p q n : 1 < a -> 1 < b -> 0 < p -> 0 <= q -> a ^ p <= b ^ q -> 0 <= n ->
  a ^ n <= b ^ (n * q / p + 1) /\ a ^ n < b ^ (n * q / p + 1 + 1).
Proof.
  intros Ha Hb Hp Hq H Hn.
  assert (S : n * q < p * (n * q / p + 1)).
  { pose proof (Z.div_mod (n * q) p ltac:(lia)). pose proof (Z.mod_pos_bound (n * q) p Hp). nia. }
  assert (K : 0 <= n * q / p) by (apply Z.div_pos; nia).
  set (k := n * q / p + 1) in *. assert (0 <= k) by lia.
  assert (E : (a ^ n) ^ p <= (b ^ k) ^ p).
  { rewrite <- Z.pow_mul_r, Z.mul_comm, Z.pow_mul_r by lia.
    rewrite <- (Z.pow_mul_r b k p) by lia.
    transitivity ((b ^ q) ^ n).
    - apply Z.pow_le_mono_l. split; [apply Z.pow_nonneg; lia|exact H].
    - rewrite <- Z.pow_mul_r by lia. apply Z.pow_le_mono_r; lia. }
  assert (L : a ^ n <= b ^ k).
  { destruct (Z.le_gt_cases (a ^ n) (b ^ k)); [assumption|]. exfalso.
    assert ((b ^ k) ^ p < (a ^ n) ^ p) by (apply Z.pow_lt_mono_l; [lia|split; [apply Z.pow_nonneg; lia|assumption]]). lia. }
  split; [exact L|]. rewrite Z.pow_add_r, Z.pow_1_r by lia. assert (0 < a ^ n) by (apply Z.pow_pos_nonneg; lia). nia.
Qed.
Lemma size_58 n : 0 <= n -> 256 ^ n <= 58 ^ (n * 138 / 100 + 1).
Proof. intros H. apply (pow_ratio 256 58 100 138 n); [lia|lia|lia|lia|apply Z.leb_le; vm_compute; reflexivity|exact H]. Qed.
Lemma size_256 n : 0 <= n -> 58 ^ n <= 256 ^ (n * 733 / 1000 + 1).
Proof. intros H. apply (pow_ratio 58 256 1000 733 n); [lia|lia|lia|lia|apply Z.leb_le; vm_compute; reflexivity|exact H]. Qed.

(** * alphabets *)
Lemma index_of_nth c l i : index_of c l = Some i -> 0 <= i < len l /\ nth (Z.to_nat i) l 0 = c.
Proof.
  revert i; induction l as [|x l IH]; intros i H; cbn [index_of] in H; [discriminate|].
  destruct (Z.eqb_spec x c) as [->|N].
  - injection H as <-. rewrite len_cons. pose proof (len_nonneg l). split; [lia|reflexivity].
  - destruct (index_of c l) as [j|]; cbn [omap] in H; [|discriminate]. injection H as <-.
    destruct (IH j eq_refl) as [R E]. rewrite len_cons. split; [lia|].
    replace (Z.to_nat (j + 1)) with (S (Z.to_nat j)) by lia. exact E.
Qed.
Lemma index_of_none c l : index_of c l = None <-> ~ In c l.
Proof.
  induction l as [|x l IH]; cbn [index_of In]; [tauto|].
  destruct (Z.eqb_spec x c) as [->|N]; [split; [discriminate|tauto]|].
  destruct (index_of c l); cbn [omap]; [split; [discriminate|]|tauto].
  intros H. exfalso. assert (~ In c l) as X by tauto. apply IH in X. discriminate.
Qed.
Lemma nodup_index l i : NoDup l -> 0 <= i < len l -> index_of (nth (Z.to_nat i) l 0) l = Some i.
Proof.
  intros N H. destruct (index_of (nth (Z.to_nat i) l 0) l) as [j|] eqn:E.
  - apply index_of_nth in E. destruct E as [R E]. f_equal.
    apply (NoDup_nth l 0) in E; try exact N; unfold len in *; lia.
  - apply index_of_none in E. exfalso. apply E. apply nth_In. unfold len in H. lia.
Qed.

Fixpoint nodupb (l : list Z) : bool :=
  match l with [] => true | x :: r => negb (existsb (Z.eqb x) r) && nodupb r end.
Lemma nodupb_ok l : nodupb l = true -> NoDup l.
Proof.
  induction l as [|x l IH]; cbn [nodupb]; intros H; constructor.
  - intros I. apply andb_true_iff in H. destruct H as [H _]. apply negb_true_iff in H.
    assert (existsb (Z.eqb x) l = true); [|congruence]. apply existsb_exists. exists x. split; [exact I|apply Z.eqb_refl].
  - apply IH. apply andb_true_iff in H. tauto.
Qed.
Lemma base58_nodup : NoDup base58_chars.
Proof. apply nodupb_ok. vm_compute. reflexivity. Qed.
Lemma base58_len : len base58_chars = 58.
Proof. vm_compute. reflexivity. Qed.
Lemma base58_one : nth 0 base58_chars 0 = 49.
Proof. vm_compute. reflexivity. Qed.
