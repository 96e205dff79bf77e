(** * C78: decimal amounts. *)
From Coq Require Import String.
From Verif Require Import Base Bytes RadixModel OpModel TextModel TextSpec TextProofs TextProofs2 TextProps AmountModel AmountSpec.

Lemma split_point_ok t : let (a, b) := split_point t in amount_form t a b /\ ~ In 46 a.
Proof.
  induction t as [|c t IH]; [split; [left; split; reflexivity|intros []]|]. cbn [split_point]. destruct (Z.eqb_spec c 46) as [->|N].
  - split; [right; reflexivity|intros []].
  - destruct (split_point t) as [a b]. destruct IH as [F I]. split.
    + destruct F as [[-> ->]| ->]; [left; split; reflexivity|right; reflexivity].
    + intros [H|H]; [congruence|exact (I H)].
Qed.
Lemma digits_in t : forallb is_ascii_number t = true -> ~ In 46 t.
Proof. rewrite forallb_forall. intros H I. specialize (H _ I). discriminate. Qed.
Lemma split_point_form t a b : amount_form t a b -> ~ In 46 a -> split_point t = (a, b).
Proof.
  intros F N. assert (G : forall a b, ~ In 46 a -> split_point (a ++ 46 :: b) = (a, b)).
  { clear. induction a as [|c a IH]; intros b N; [reflexivity|]. cbn [app split_point]. destruct (Z.eqb_spec c 46) as [->|Ne]; [exfalso; apply N; left; reflexivity|].
    rewrite (IH b) by (intros I; apply N; right; exact I). reflexivity. }
  destruct F as [[-> ->]| ->]; [|apply G; exact N].
  clear G. induction a as [|c a IH]; [reflexivity|]. cbn [split_point]. destruct (Z.eqb_spec c 46) as [->|Ne]; [exfalso; apply N; left; reflexivity|].
  rewrite IH by (intros I; apply N; right; exact I). reflexivity.
Qed.

Lemma decimal_app a b : decimal_value (a ++ b) = decimal_value a * 10 ^ len b + decimal_value b.
Proof.
  unfold decimal_value. rewrite fold_left_app. generalize (fold_left (fun v c => 10 * v + (c - 48)) a 0) as x.
  assert (G : forall b x, fold_left (fun v c => 10 * v + (c - 48)) b x = x * 10 ^ len b + fold_left (fun v c => 10 * v + (c - 48)) b 0).
  { clear. induction b as [|c b IH]; intros x; cbn [fold_left]; [change (len (@nil Z)) with 0; lia|].
    rewrite IH, (IH (10 * 0 + (c - 48))). rewrite len_cons. pose proof (len_nonneg b). rewrite Z.pow_add_r by lia. lia. }
  intros x. apply G.
Qed.
Lemma decimal_zeros n : decimal_value (repeat 48 n) = 0.
Proof.
  induction n as [|n IH]; [reflexivity|]. change (repeat 48 (S n)) with ([48] ++ repeat 48 n). rewrite decimal_app, IH. change (decimal_value [48]) with 0. lia.
Qed.
Lemma decimal_range t : forallb is_ascii_number t = true -> 0 <= decimal_value t < 10 ^ len t.
Proof.
  induction t as [|c t IH] using rev_ind; intros F; [cbn; lia|]. rewrite forallb_app in F. apply andb_true_iff in F. destruct F as [F1 F2].
  cbn [forallb] in F2. rewrite andb_true_r in F2. unfold is_ascii_number in F2. rewrite andb_true_iff, !Z.leb_le in F2.
  rewrite decimal_app, len_app. change (len [c]) with 1. specialize (IH F1). pose proof (len_nonneg t). rewrite Z.pow_add_r by lia.
  unfold decimal_value at 2 4. cbn [fold_left]. lia.
Qed.
Lemma len_repeat (x : Z) n : len (repeat x n) = Z.of_nat n.
Proof. unfold len. rewrite repeat_length. reflexivity. Qed.
Lemma all_zero_value t : forallb is_ascii_number t = true -> forallb (fun c => c =? 48) t = (decimal_value t =? 0).
Proof.
  intros F. induction t as [|c t IH]; [reflexivity|]. cbn [forallb] in F. apply andb_true_iff in F. destruct F as [Fc F]. specialize (IH F).
  cbn [forallb]. rewrite IH. change (c :: t) with ([c] ++ t). rewrite decimal_app. unfold decimal_value at 2. cbn [fold_left].
  pose proof (decimal_range t F) as R. pose proof (len_nonneg t). pose proof (Z.pow_pos_nonneg 10 (len t) ltac:(lia) ltac:(lia)).
  unfold is_ascii_number in Fc. rewrite andb_true_iff, !Z.leb_le in Fc.
  destruct (Z.eqb_spec c 48) as [->|N]; cbn [andb]; [f_equal; lia|]. symmetry. apply Z.eqb_neq. nia.
Qed.
Lemma mean_of_digits ds : forallb is_ascii_number ds = true -> digits_mean ds (decimal_value ds).
Proof.
  induction ds as [|c ds IH] using rev_ind; intros F; [constructor|]. rewrite forallb_app in F. apply andb_true_iff in F. destruct F as [F1 F2].
  cbn [forallb] in F2. rewrite andb_true_r in F2. unfold is_ascii_number in F2. rewrite andb_true_iff, !Z.leb_le in F2.
  unfold decimal_value. rewrite fold_left_app. cbn [fold_left]. apply mean_snoc; [apply IH; exact F1|exact F2].
Qed.

(** The reading in two steps: the digits kept, and whether something was lost. *)
Lemma decode_kept whole fraction places : forallb is_ascii_number (whole ++ fraction) = true -> 0 <= places ->
  exists kept lost, (forall strict text, amount_form text whole fraction ->
     decode_base10 text places strict =
      if strict && lost then None
      else if kept >? 18446744073709551615 then None
      else if lost && (kept =? 18446744073709551615) then None
      else Some (kept + (if lost then 1 else 0))) /\
   0 <= kept /\
   (lost = false -> kept * 10 ^ len fraction = decimal_value (whole ++ fraction) * 10 ^ places) /\
   (lost = true -> kept * 10 ^ len fraction < decimal_value (whole ++ fraction) * 10 ^ places < (kept + 1) * 10 ^ len fraction).
Proof.
  intros F P. pose proof F as F0. rewrite forallb_app in F. apply andb_true_iff in F. destruct F as [Fw Ff].
  set (lost := (len fraction >? places) && negb (forallb (fun c => c =? 48) (skipn (Z.to_nat places) fraction))).
  set (value := if len fraction >? places then whole ++ firstn (Z.to_nat places) fraction else whole ++ fraction ++ repeat 48 (Z.to_nat (places - len fraction))).
  assert (Fv : forallb is_ascii_number value = true).
  { unfold value. destruct (len fraction >? places); rewrite !forallb_app, Fw; cbn [andb].
    - rewrite <- (firstn_skipn (Z.to_nat places) fraction) in Ff. rewrite forallb_app in Ff. apply andb_true_iff in Ff. apply Ff.
    - rewrite Ff. cbn [andb]. apply forallb_forall. intros c I. apply repeat_spec in I. subst. reflexivity. }
  exists (decimal_value value), lost. split; [|split; [apply decimal_range; exact Fv|]].
  { intros strict text Hf. unfold decode_base10. rewrite (split_point_form text whole fraction Hf) by (apply digits_in; exact Fw).
    rewrite F0. cbn [negb]. fold lost. fold value. destruct (strict && lost); [reflexivity|].
    assert (E : match value with [] => Some 0 | _ => deserialize_u64 value end = if decimal_value value >? 18446744073709551615 then None else Some (decimal_value value)).
    { destruct value as [|c v]; [reflexivity|]. unfold deserialize_u64. destruct (Z.leb_spec (decimal_value (c :: v)) 18446744073709551615), (Z.gtb_spec (decimal_value (c :: v)) 18446744073709551615); try lia; reflexivity. }
    destruct value as [|c v] eqn:Ev.
    - destruct (Z.gtb_spec (decimal_value (@nil Z)) 18446744073709551615) as [H|H]; [discriminate|]. reflexivity.
    - rewrite E. destruct (decimal_value (c :: v) >? 18446744073709551615); reflexivity. }
  unfold value, lost. destruct (Z.gtb_spec (len fraction) places) as [H|H]; cbn [andb].
  - set (p := Z.to_nat places). assert (Fs : forallb is_ascii_number (skipn p fraction) = true).
    { rewrite <- (firstn_skipn p fraction) in Ff. rewrite forallb_app in Ff. apply andb_true_iff in Ff. apply Ff. }
    rewrite (all_zero_value _ Fs). pose proof (decimal_range _ Fs) as R.
    assert (Ls : len (skipn p fraction) = len fraction - places) by (unfold len, p in *; rewrite skipn_length; lia).
    assert (Ev : decimal_value (whole ++ fraction) = decimal_value (whole ++ firstn p fraction) * 10 ^ (len fraction - places) + decimal_value (skipn p fraction)).
    { rewrite <- (firstn_skipn p fraction) at 1. rewrite app_assoc, decimal_app, Ls. reflexivity. }
    assert (Ep : 10 ^ len fraction = 10 ^ (len fraction - places) * 10 ^ places) by (rewrite <- Z.pow_add_r by lia; f_equal; lia).
    pose proof (Z.pow_pos_nonneg 10 places ltac:(lia) P). rewrite Ls in R. rewrite Ev, Ep. split; intros E.
    + apply negb_false_iff, Z.eqb_eq in E. rewrite E. lia.
    + apply negb_true_iff, Z.eqb_neq in E. split; nia.
  - split; [intros _|discriminate]. rewrite app_assoc, decimal_app, decimal_zeros, len_repeat.
    replace (Z.of_nat (Z.to_nat (places - len fraction))) with (places - len fraction) by lia. rewrite Z.add_0_r, <- Z.mul_assoc, <- Z.pow_add_r; [|lia|pose proof (len_nonneg fraction); lia].
    do 2 f_equal. lia.
Qed.

Lemma lt_cancel T a b : 0 < T -> a * T < b * T -> a < b.
Proof. intros. nia. Qed.
(** Decoding: texts of digits with at most one point, anything else is refused;
    the result is the exact number of base units, or (not strict) that number
    rounded up; refused when it is not exact (strict) or does not fit. *)
Theorem C78_grammar text places strict r : decode_base10 text places strict = Some r ->
  exists whole fraction n, amount_form text whole fraction /\ digits_mean (whole ++ fraction) n.
Proof.
  unfold decode_base10. pose proof (split_point_ok text) as S1. destruct (split_point text) as [a b]. destruct S1 as [F _].
  destruct (forallb is_ascii_number (a ++ b)) eqn:E; [|discriminate]. intros _. exists a, b, (decimal_value (a ++ b)). split; [exact F|apply mean_of_digits; exact E].
Qed.
Print Assumptions C78_grammar.
Theorem C78_exact text whole fraction n places r : amount_form text whole fraction -> digits_mean (whole ++ fraction) n -> 0 <= places ->
  decode_base10 text places true = Some r <-> exact_units n (len fraction) places r /\ r <= 18446744073709551615.
Proof.
  intros Hf M P. apply mean_digits in M. destruct M as (F & V & N0). destruct (decode_kept whole fraction places F P) as (kept & lost & D & K0 & L0 & L1).
  rewrite (D true text Hf). rewrite V in *. unfold exact_units. pose proof (len_nonneg fraction). pose proof (Z.pow_pos_nonneg 10 (len fraction) ltac:(lia) ltac:(lia)) as T.
  destruct lost; cbn [andb].
  - split; [discriminate|]. intros [E _]. exfalso. specialize (L1 eq_refl). rewrite <- E in L1. pose proof (lt_cancel _ kept r T (proj1 L1)). pose proof (lt_cancel _ r (kept + 1) T (proj2 L1)). lia.
  - specialize (L0 eq_refl). destruct (Z.gtb_spec kept 18446744073709551615) as [H1|H1].
    + split; [discriminate|]. intros [E B]. exfalso. rewrite <- L0 in E. nia.
    + split.
      * intros E. injection E as <-. rewrite Z.add_0_r. split; [exact L0|lia].
      * intros [E B]. rewrite Z.add_0_r. f_equal. rewrite <- L0 in E. nia.
Qed.
Print Assumptions C78_exact.
Theorem C78_round_up text whole fraction n places r : amount_form text whole fraction -> digits_mean (whole ++ fraction) n -> 0 <= places ->
  decode_base10 text places false = Some r <-> round_up_units n (len fraction) places r /\ r <= 18446744073709551615.
Proof.
  intros Hf M P. apply mean_digits in M. destruct M as (F & V & N0). destruct (decode_kept whole fraction places F P) as (kept & lost & D & K0 & L0 & L1).
  rewrite (D false text Hf). rewrite V in *. unfold round_up_units. pose proof (len_nonneg fraction). pose proof (Z.pow_pos_nonneg 10 (len fraction) ltac:(lia) ltac:(lia)) as T.
  cbn [andb]. destruct lost; cbn [andb].
  - specialize (L1 eq_refl). assert (U : forall x, (n * 10 ^ places <= x * 10 ^ len fraction /\ (x - 1) * 10 ^ len fraction < n * 10 ^ places) -> x = kept + 1).
    { intros x Hx. pose proof (lt_cancel _ kept x T ltac:(lia)). pose proof (lt_cancel _ (x - 1) (kept + 1) T ltac:(lia)). lia. }
    destruct (Z.gtb_spec kept 18446744073709551615) as [H1|H1].
    + split; [discriminate|]. intros [E B]. exfalso. apply U in E. lia.
    + destruct (Z.eqb_spec kept 18446744073709551615) as [H2|H2].
      * split; [discriminate|]. intros [E B]. exfalso. apply U in E. lia.
      * split; [intros E; injection E as <-; split; [split; nia|lia]|]. intros [E B]. apply U in E. congruence.
  - specialize (L0 eq_refl). assert (U : forall x, (n * 10 ^ places <= x * 10 ^ len fraction /\ (x - 1) * 10 ^ len fraction < n * 10 ^ places) -> x = kept).
    { intros x Hx. pose proof (lt_cancel _ (x - 1) kept T ltac:(lia)). destruct (Z.lt_trichotomy x kept) as [G|[G|G]]; [nia|exact G|lia]. }
    destruct (Z.gtb_spec kept 18446744073709551615) as [H1|H1].
    + split; [discriminate|]. intros [E B]. exfalso. apply U in E. lia.
    + rewrite Z.add_0_r. split; [intros E; injection E as <-; split; [split; nia|lia]|]. intros [E B]. apply U in E. congruence.
Qed.
Print Assumptions C78_round_up.

(** ** encoding *)
Lemma decimal_loop_ok f : forall n acc, 0 <= n < 10 ^ Z.of_nat f -> (0 < f)%nat ->
  exists ds, decimal_loop f n acc = ds ++ acc /\ forallb is_ascii_number ds = true /\ decimal_value ds = n /\ (ds = [48] \/ exists c r, ds = c :: r /\ c <> 48).
Proof.
  induction f as [|f IH]; intros n acc R F; [lia|]. cbn [decimal_loop]. pose proof (Z.mod_pos_bound n 10 ltac:(lia)) as M. pose proof (Z.div_mod n 10 ltac:(lia)) as Dm.
  assert (Dg : forallb is_ascii_number [48 + n mod 10] = true) by (cbn [forallb]; unfold is_ascii_number; rewrite andb_true_r, andb_true_iff, !Z.leb_le; lia).
  destruct (Z.eqb_spec (n / 10) 0) as [E|E].
  - exists [48 + n mod 10]. split; [reflexivity|]. split; [exact Dg|]. split; [unfold decimal_value; cbn [fold_left]; lia|].
    destruct (Z.eq_dec (n mod 10) 0) as [->|N]; [left; reflexivity|right; exists (48 + n mod 10), []; split; [reflexivity|lia]].
  - assert (R' : 0 <= n / 10 < 10 ^ Z.of_nat f).
    { rewrite Nat2Z.inj_succ, Z.pow_succ_r in R by lia. split; [apply Z.div_pos; lia|apply Z.div_lt_upper_bound; lia]. }
    destruct f as [|f]; [change (10 ^ Z.of_nat 0) with 1 in R'; lia|].
    destruct (IH (n / 10) ((48 + n mod 10) :: acc) R' ltac:(lia)) as (ds & D & Fd & V & H). exists (ds ++ [48 + n mod 10]).
    split; [rewrite D, <- app_assoc; reflexivity|]. split; [rewrite forallb_app, Fd; exact Dg|]. split.
    + rewrite decimal_app, V. change (len [48 + n mod 10]) with 1. unfold decimal_value. cbn [fold_left]. lia.
    + right. destruct H as [->|(c & r & -> & Nc)]; [change (decimal_value [48]) with 0 in V; lia|]. exists c, (r ++ [48 + n mod 10]). split; [reflexivity|exact Nc].
Qed.
Lemma trim_right_digits c t : exists w, t = trim_right [c] t ++ w /\ w = repeat c (length w) /\ (forall a x, trim_right [c] t = a ++ [x] -> x <> c).
Proof.
  unfold trim_right. rewrite trim_left_dw. destruct (dw_split [c] (rev t)) as (w & E & F). exists (rev w). split; [|split].
  - rewrite <- rev_app_distr, <- E, rev_involutive. reflexivity.
  - rewrite rev_length. clear E. induction w as [|x w IH]; [reflexivity|]. inversion F as [|? ? [->|[]] F']; subst. cbn [rev length]. rewrite (IH F').
    match goal with |- repeat ?u ?n ++ [_] = _ => change (repeat u n ++ repeat u 1 = repeat u (S n)); rewrite <- repeat_app; f_equal; lia end.
  - intros a x Ea Ex. apply (f_equal (@rev Z)) in Ea. rewrite rev_involutive, rev_app_distr in Ea. cbn [rev app] in Ea. subst x. clear -Ea.
    induction (rev t) as [|y r IH]; [discriminate|]. cbn [dw] in Ea. destruct (mem y [c]) eqn:M; [exact (IH Ea)|]. injection Ea as -> _. cbn in M. rewrite Z.eqb_refl in M. discriminate.
Qed.
Lemma trim_right_stop c t x : x <> c -> trim_right [c] (t ++ [x]) = t ++ [x].
Proof.
  intros N. unfold trim_right. rewrite trim_left_dw, rev_app_distr. cbn [rev app]. rewrite dw_stop.
  - change (x :: rev t) with ([x] ++ rev t). rewrite rev_app_distr, rev_involutive. reflexivity.
  - intros y r Ey [I|[]]. injection Ey as <- _. congruence.
Qed.
Lemma trim_right_repeat c t n : trim_right [c] (t ++ repeat c n) = trim_right [c] t.
Proof.
  unfold trim_right. rewrite !trim_left_dw, rev_app_distr. f_equal.
  assert (G : forall m r, dw [c] (repeat c m ++ r) = dw [c] r).
  { clear. induction m as [|m IH]; intros r; [reflexivity|]. cbn [repeat app dw]. replace (mem c [c]) with true by (symmetry; apply mem_in; left; reflexivity). apply IH. }
  assert (Hr : rev (repeat c n) = repeat c n).
  { clear. induction n as [|n IH]; [reflexivity|]. cbn [repeat rev]. rewrite IH. change [c] with (repeat c 1). rewrite <- repeat_app. replace (n + 1)%nat with (S n) by lia. reflexivity. }
  rewrite Hr. apply G.
Qed.

(** Encoding: the canonical decimal text of the amount (some digits before the
    point and no superfluous zero on either side), which decodes to it. *)
Theorem C78_encode amount places : 0 <= amount < 2 ^ 64 -> 0 <= places ->
  exists whole fraction n, canonical_amount (encode_base10 amount places) whole fraction /\ digits_mean (whole ++ fraction) n /\
    len fraction <= places /\ exact_units n (len fraction) places amount.
Proof.
  intros R P. destruct (decimal_loop_ok 20 amount []) as (ds & D & Fd & V & H); [split; [lia|]; apply Z.lt_trans with (2 ^ 64); [lia|reflexivity]|lia|].
  rewrite app_nil_r in D. unfold encode_base10, serialize_decimal. rewrite D.
  set (z := Z.to_nat (places + 1 - len ds)). set (text := repeat 48 z ++ ds).
  assert (Lt : len text = Z.of_nat z + len ds) by (unfold text; rewrite len_app, len_repeat; reflexivity).
  assert (Lp : places + 1 <= len text) by lia. set (k := Z.to_nat (len text - places)).
  assert (Ft : forallb is_ascii_number text = true).
  { unfold text. rewrite forallb_app, Fd, andb_true_r. clear. induction z as [|z IH]; [reflexivity|]. exact IH. }
  assert (Vt : decimal_value text = amount) by (unfold text; rewrite decimal_app, decimal_zeros, V; lia).
  assert (Sp : text = firstn k text ++ skipn k text) by (symmetry; apply firstn_skipn).
  assert (Lw : length (firstn k text) = k) by (apply firstn_length_le; unfold len in *; lia).
  assert (Lf : len (skipn k text) = places) by (unfold len in *; rewrite skipn_length; lia).
  set (whole := firstn k text) in *. set (frac := skipn k text) in *.
  assert (Hw : whole = [48] \/ exists c r, whole = c :: r /\ c <> 48).
  { unfold whole. destruct (Z.eq_dec (Z.of_nat z) 0) as [Z0|Z0].
    - assert (Et : text = ds) by (unfold text; replace z with O by lia; reflexivity). rewrite Et. destruct H as [->|(c & r & -> & Nc)].
      + left. unfold k. rewrite Et. change (len [48]) with 1 in *. replace (Z.to_nat (1 - places)) with 1%nat by lia. reflexivity.
      + right. assert (Hk : (0 < k)%nat) by lia. destruct k as [|k']; [clear -Hk; lia|]. exists c, (firstn k' r). split; [reflexivity|exact Nc].
    - left. assert (Ek : k = 1%nat) by lia. rewrite Ek. unfold text. assert (Hz : (0 < z)%nat) by lia. destruct z as [|z']; [clear -Hz; lia|]. reflexivity. }
  clearbody whole frac. rewrite Sp in Ft, Vt. clear Sp.
  destruct (trim_right_digits 48 frac) as (w & Ef & Ew & Lx). set (fr := trim_right [48] frac) in *.
  rewrite Ef in Ft, Vt, Lf. rewrite app_assoc, forallb_app in Ft. apply andb_true_iff in Ft. destruct Ft as [Ft _].
  assert (E1 : trim_right [48] (whole ++ [46] ++ frac) = whole ++ 46 :: fr).
  { rewrite Ef, Ew. rewrite !app_assoc, trim_right_repeat. destruct fr as [|y fr'] using rev_ind.
    - rewrite app_nil_r. rewrite trim_right_stop by lia. reflexivity.
    - clear IHfr'. rewrite app_assoc, trim_right_stop by (apply (Lx fr'); reflexivity). rewrite <- !app_assoc. reflexivity. }
  cbn [app] in E1 |- *. rewrite E1. exists whole, fr, (decimal_value (whole ++ fr)).
  rewrite app_assoc, decimal_app in Vt. rewrite Ew, decimal_zeros in Vt. rewrite len_app in Lf. rewrite Ew, len_repeat in Lf. rewrite len_repeat in Vt. pose proof (len_nonneg fr).
  split; [split; [exact Hw|]|split; [apply mean_of_digits; exact Ft|split; [lia|]]].
  - destruct fr as [|y fr'] using rev_ind.
    + left. split; [reflexivity|]. change (whole ++ [46]) with (whole ++ repeat 46 1). rewrite trim_right_repeat. rewrite app_nil_r in Ft.
      destruct whole as [|y wh _] using rev_ind; [destruct Hw as [|(c & r & Hw & _)]; discriminate|]. apply trim_right_stop.
      intros ->. apply (digits_in _ Ft). apply in_app_iff. right. left. reflexivity.
    + clear IHfr'. right. split; [exists fr', y; split; [reflexivity|apply (Lx fr'); reflexivity]|].
      change (whole ++ 46 :: fr' ++ [y]) with (whole ++ (46 :: fr') ++ [y]). rewrite app_assoc. rewrite trim_right_stop; [rewrite <- app_assoc; reflexivity|].
      intros ->. apply (digits_in _ Ft). apply in_app_iff. right. apply in_app_iff. right. left. reflexivity.
  - unfold exact_units. rewrite Z.add_0_r in Vt. rewrite <- Lf, <- Vt, (Z.pow_add_r 10 (len fr)) by lia.
    generalize (decimal_value (whole ++ fr)) as u, (10 ^ Z.of_nat (length w)) as v, (10 ^ len fr) as y. clear. intros. ring.
Qed.
Print Assumptions C78_encode.
Theorem C78_round_trip amount places strict : 0 <= amount < 2 ^ 64 -> 0 <= places -> decode_base10 (encode_base10 amount places) places strict = Some amount.
Proof.
  intros R P. destruct (C78_encode amount places R P) as (whole & fraction & n & (_ & C) & M & L & E).
  assert (A : amount_form (encode_base10 amount places) whole fraction) by (destruct C as [[-> ->]|[_ ->]]; [left; split; reflexivity|right; reflexivity]).
  pose proof (len_nonneg fraction). pose proof (Z.pow_pos_nonneg 10 (len fraction) ltac:(lia) ltac:(lia)). destruct strict.
  - apply (C78_exact _ whole fraction n places amount A M P). split; [exact E|]. change 18446744073709551615 with (2 ^ 64 - 1). lia.
  - apply (C78_round_up _ whole fraction n places amount A M P). unfold exact_units, round_up_units in *. split; [split; nia|]. change 18446744073709551615 with (2 ^ 64 - 1). lia.
Qed.
Print Assumptions C78_round_trip.

(** ** Satisfiability *)
Example C78_ex : encode_base10 2099999997690000 8 = chars "20999999.9769" /\ encode_base10 5 8 = chars "0.00000005" /\ encode_base10 100000000 8 = chars "1" /\
  decode_base10 (chars "20999999.9769") 8 true = Some 2099999997690000 /\ decode_base10 (chars ".5") 0 true = None /\ decode_base10 (chars ".5") 0 false = Some 1 /\
  decode_base10 (chars "1.2.3") 8 true = None /\ decode_base10 (chars "18446744073709551616") 0 true = None.
Proof. vm_compute. repeat split. Qed.
