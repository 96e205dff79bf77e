(** C58: the bloom and sieve fingerprint filters have no false negatives. *)
From Verif Require Import Base MathModel MathSpec BitProofs FilterModel FilterProofs FilterProofs2 FilterProofs3.

(** * Specification *)
(** The filter after a history of additions, starting from the empty filter. *)
Definition bloom_run (M K : Z) (es : list Z) : Z := fold_left (bloom_screen M K) es (bloom_empty M).
Definition sieve_run (N S : Z) (es : list Z) : Z := fold_left (sieve_screen N S) es (sieve_empty N).

(** The elements of a history which the sieve did not already report as
    present at the time they were added. *)
Fixpoint accepted_from (N S v : Z) (es : list Z) : list Z :=
  match es with
  | [] => []
  | e :: r => (if sieve_is_screened N S v e then [] else [e])
              ++ accepted_from N S (sieve_screen N S v e) r
  end.
Definition accepted (N S : Z) (es : list Z) : list Z := accepted_from N S (sieve_empty N) es.

(** The template parameters: bloom.hpp:29-31,59-60; sieve.hpp:30-32.  The last
    condition is that the compression offsets of the mask table do not saturate
    in the sieve's integer type (true of every sieve whose mask table has fewer
    entries than the type has values). *)
Definition bloom_params (M K : Z) : Prop := 1 <= K <= M /\ M <= 64.
Definition sieve_params (N S : Z) : Prop :=
  1 <= S /\ S + 2 <= N /\ N <= 64 /\ 2 * S <= bits (filter_type N).

(** * bloom *)
Theorem C58_bloom_no_false_negative : forall M K es e, bloom_params M K ->
  In e es -> bloom_is_screened M K (bloom_run M K es) e = true.
Proof.
  intros M K es e [HK HM] I. apply (bloom_screened_iff M K HK HM es).
  - apply bstate_run; assumption.
  - split; [destruct es; [contradiction|discriminate]|]. intros k Hk. exists e, k. auto.
Qed.

(** Exact answer: positive only when every bit selected by the element was
    selected by an element already added. *)
Theorem C58_bloom_screened_iff : forall M K es e, bloom_params M K ->
  (bloom_is_screened M K (bloom_run M K es) e = true <->
   es <> [] /\ forall k, 0 <= k < K -> exists e' k', In e' es /\ 0 <= k' < K /\
     bloom_get_bit M k' e' = bloom_get_bit M k e).
Proof.
  intros M K es e [HK HM]. apply (bloom_screened_iff M K HK HM es). apply bstate_run; assumption.
Qed.

(** The k-th selected bit is the k-th digit (in base 2^ceil(log2 M)) of the
    fingerprint, reduced modulo M. *)
Theorem C58_bloom_selection : forall M K k e, bloom_params M K -> 0 <= e < 2 ^ 64 ->
  let s := ceilinged_log2 M in s * K <= 64 -> 0 <= k < K ->
  bloom_get_bit M k e = (e / 2 ^ (s * k)) mod 2 ^ s mod M.
Proof.
  intros M K k e [HK HM] He s HsK Hk. destruct (bt M K HK HM) as (B & Sg & C & D).
  destruct (select_facts M K HK HM) as (P & Q & R). fold s in P, Q, R.
  unfold bloom_get_bit. cbv zeta. unfold bloom_select. fold s.
  rewrite (unmask_value M K HK HM) by lia.
  assert (SH : shift_right u64 e (k * s) true = e / 2 ^ (s * k)).
  { unfold shift_right. change (bits u64) with 64.
    assert (W64 : forall x, 0 <= x < 2 ^ 64 -> wrap u64 x = x).
    { intros x Hx. apply wrap_fits; [reflexivity|]. unfold fits.
      change (imin u64) with 0. change (imax u64) with (2 ^ 64 - 1). lia. }
    change (unsigned_of u64) with u64. rewrite (W64 e He).
    destruct (Z.eq_dec s 0) as [E|E].
    - rewrite E, Z.mul_0_r, Z.mul_0_l. cbn [Z.leb Z.compare andb]. change (0 mod 64) with 0.
      rewrite Z.shiftr_0_r. rewrite Z.pow_0_r, Z.div_1_r. apply W64. exact He.
    - replace (64 <=? k * s) with false by nia. cbn [andb]. rewrite Z.mod_small by nia.
      rewrite Z.shiftr_div_pow2 by nia. rewrite (Z.mul_comm k s). apply W64.
      assert (0 < 2 ^ (s * k)) by (apply pow2_pos; nia).
      split; [apply Z.div_pos; lia|]. apply Z.le_lt_trans with e; [|lia].
      apply Z.div_le_upper_bound; nia. }
  rewrite SH. set (q := e / 2 ^ (s * k)).
  assert (0 < 2 ^ s) by (apply pow2_pos; lia).
  assert (LE : 2 ^ s <= 2 ^ bits (filter_type M)) by (apply Z.pow_le_mono_r; lia).
  assert (BA : bit_and (filter_type M) (wrap (filter_type M) q) (2 ^ s - 1) = q mod 2 ^ s).
  { apply (bit_ext (filter_type M)); [exact B|apply fits_wrap; exact B| |].
    - unfold fits, imin, imax. rewrite Sg. pose proof (Z.mod_pos_bound q (2 ^ s)). lia.
    - intros i Hi. rewrite bit_and_bit, bit_wrap by lia. unfold bit.
      replace (2 ^ s - 1) with (Z.ones s) by (rewrite Z.ones_equiv; lia).
      destruct (Z.lt_ge_cases i s).
      + rewrite Z.ones_spec_low, Z.mod_pow2_bits_low by lia. apply andb_true_r.
      + rewrite Z.ones_spec_high, Z.mod_pow2_bits_high by lia. apply andb_false_r. }
  rewrite BA. destruct (Z.geb_spec (2 ^ s - 1) M); [reflexivity|].
  symmetry. apply Z.mod_small. pose proof (Z.mod_pos_bound q (2 ^ s)). lia.
Qed.

(** The collision report of an addition is the membership answer before it. *)
Theorem C58_bloom_collision : forall M K es e, bloom_params M K ->
  bloom_is_collision (bloom_run M K es) (bloom_screen M K (bloom_run M K es) e)
  = bloom_is_screened M K (bloom_run M K es) e.
Proof.
  intros M K es e [HK HM]. apply (bloom_collision M K HK HM es). apply bstate_run; assumption.
Qed.

(** * sieve *)
Section S.
Variables N S : Z.
Hypothesis H : sieve_params N S.
Let P1 : 1 <= S < N. Proof. destruct H; lia. Qed.
Let P2 : N <= 64. Proof. destruct H; lia. Qed.
Let P3 : 2 * S <= bits (filter_type N). Proof. destruct H; lia. Qed.
Let P4 : 2 <= screen_bits N S. Proof. destruct H; unfold screen_bits; lia. Qed.
Let G := generated_ok N S P1 P2 P3.

Lemma state_run_from es v fs : state N S (generate_masks N S) fs v ->
  state N S (generate_masks N S) (fs ++ accepted_from N S v es) (fold_left (sieve_screen N S) es v).
Proof.
  revert v fs. induction es as [|e es IH]; intros v fs St; cbn [accepted_from fold_left].
  - rewrite app_nil_r. exact St.
  - destruct (screen_step N S P1 P2 P3 (generate_masks N S) G fs v e P4 St) as [K1 K2].
    fold (sieve_screen N S v e) in K1, K2. fold (sieve_is_screened N S v e) in K1, K2.
    destruct (sieve_is_screened N S v e) eqn:E.
    + rewrite K1 by reflexivity. cbn [app]. apply IH. exact St.
    + destruct K2 as [St' _]; [reflexivity|]. rewrite app_assoc. apply IH. exact St'.
Qed.
Lemma state_run es : state N S (generate_masks N S) (accepted N S es) (sieve_run N S es).
Proof. apply (state_run_from es (sieve_empty N) []). apply s_empty. Qed.

Lemma keep_run es v fs f : state N S (generate_masks N S) fs v -> sieve_is_screened N S v f = true ->
  sieve_is_screened N S (fold_left (sieve_screen N S) es v) f = true.
Proof.
  revert v fs. induction es as [|e es IH]; intros v fs St Sc; cbn [fold_left]; [exact Sc|].
  apply (IH _ (fs ++ accepted_from N S v [e])).
  - apply (state_run_from [e] v fs St).
  - apply (step_keeps N S P1 P2 P3 (generate_masks N S) G fs v e f P4 St Sc).
Qed.
End S.

Theorem C58_sieve_no_false_negative : forall N S es e, sieve_params N S ->
  In e es -> sieve_is_screened N S (sieve_run N S es) e = true.
Proof.
  intros N S es e H I. apply in_split in I. destruct I as (a & b & ->).
  unfold sieve_run. rewrite fold_left_app. cbn [fold_left].
  pose proof (state_run N S H a) as St. fold (sieve_run N S a).
  apply (keep_run N S H b _ (accepted N S a ++ accepted_from N S (sieve_run N S a) [e])).
  - apply (state_run_from N S H [e]). exact St.
  - destruct H as (H1 & H2 & H3 & H4).
    apply (step_adds N S ltac:(lia) H3 H4 (generate_masks N S)
             (generated_ok N S ltac:(lia) H3 H4) (accepted N S a)); [|exact St].
    unfold screen_bits. lia.
Qed.

(** Meaning of the result of screen (sieve.hpp:48-54): unchanged exactly when
    the element was already reported present; otherwise changed, and saturated
    exactly when 2^S elements are already held. *)
Theorem C58_sieve_screen_result : forall N S es e, sieve_params N S ->
  let v := sieve_run N S es in let v' := sieve_screen N S v e in
  (v' = v <-> sieve_is_screened N S v e = true) /\
  (v' <> v -> (v' = sieve_saturated N S <-> Z.of_nat (length (accepted N S es)) = 2 ^ S)) /\
  (sieve_is_collision N S v v' = false ->
     ~ In e es /\ accepted N S (es ++ [e]) = accepted N S es ++ [e]).
Proof.
  intros N S es e H v v'. pose proof (state_run N S H es) as St. fold v in St.
  assert (NF : In e es -> sieve_is_screened N S v e = true).
  { intros I. apply C58_sieve_no_false_negative; assumption. }
  destruct H as (H1 & H2 & H3 & H4).
  assert (P1 : 1 <= S < N) by lia. assert (P4 : 2 <= screen_bits N S) by (unfold screen_bits; lia).
  pose proof (generated_ok N S P1 H3 H4) as G.
  destruct (screen_step N S P1 H3 H4 (generate_masks N S) G _ v e P4 St) as [K1 K2].
  fold (sieve_screen N S v e) in K1, K2. fold (sieve_is_screened N S v e) in K1, K2. fold v' in K1, K2.
  assert (A : v' = v <-> sieve_is_screened N S v e = true).
  { split; [|exact K1]. intros E. destruct (sieve_is_screened N S v e); [reflexivity|].
    destruct K2 as [_ X]; [reflexivity|]. contradiction. }
  split; [exact A|]. split.
  - intros Ne. destruct K2 as [St' _].
    { destruct (sieve_is_screened N S v e); [|reflexivity]. exfalso. apply Ne, A. reflexivity. }
    pose proof (lim_facts N S P1 H3 H4) as (_ & _ & SE).
    inversion St' as [E1 E2|? ? Hh E1 E2|? Hh E1 E2].
    + destruct (accepted N S es); discriminate.
    + split.
      * intros X. exfalso.
        apply (held_not_special N S P1 H3 H4 (generate_masks N S) _ _ Hh). exact X.
      * intros X. destruct Hh as (_ & _ & L & _). rewrite app_length in L. cbn [length] in L. lia.
    + split; [|reflexivity]. intros _. rewrite app_length in Hh. cbn [length] in Hh. lia.
  - unfold sieve_is_collision. intros C. apply orb_false_iff in C. destruct C as [C _].
    assert (sieve_is_screened N S v e = false) as Sc.
    { apply not_true_is_false. intros X. apply A in X. lia. }
    split; [intros I; rewrite NF in Sc by exact I; discriminate|].
    unfold accepted. assert (AA : forall l w, accepted_from N S w (l ++ [e]) =
      accepted_from N S w l ++ accepted_from N S (fold_left (sieve_screen N S) l w) [e]).
    { induction l as [|x l IH]; intros w; cbn [app accepted_from fold_left]; [reflexivity|].
      rewrite IH, app_assoc. reflexivity. }
    rewrite AA. f_equal. fold (sieve_run N S es). fold v. cbn [accepted_from]. rewrite Sc. reflexivity.
Qed.

(** Capacity: the sieve is empty before anything is added, then counts what it
    holds in its high bits, and is saturated exactly when it was offered more
    than 2^S distinguishable elements. *)
Theorem C58_sieve_capacity : forall N S es, sieve_params N S ->
  let v := sieve_run N S es in let n := Z.of_nat (length (accepted N S es)) in
  n <= 2 ^ S + 1 /\ (n = 0 <-> es = []) /\ (n = 0 <-> v = sieve_empty N) /\
  (v = sieve_saturated N S <-> n = 2 ^ S + 1) /\
  (1 <= n <= 2 ^ S -> v / 2 ^ (N - S) = n - 1).
Proof.
  intros N S es H v n. pose proof (state_run N S H es) as St. fold v in St.
  assert (NF : forall e, In e es -> sieve_is_screened N S v e = true).
  { intros e I. apply C58_sieve_no_false_negative; assumption. }
  destruct H as (H1 & H2 & H3 & H4).
  assert (P1 : 1 <= S < N) by lia. assert (P4 : 2 <= screen_bits N S) by (unfold screen_bits; lia).
  pose proof (generated_ok N S P1 H3 H4) as G.
  pose proof (lim_facts N S P1 H3 H4) as (_ & SG & SE).
  pose proof (empty_not_saturated N S P1 H3 H4 P4) as ES.
  assert (EZ : n = 0 -> es = []).
  { intros X. unfold n in X. destruct (accepted N S es) as [|x l] eqn:Ac; [|cbn in X; lia].
    destruct es as [|e es']; [reflexivity|]. exfalso. unfold accepted in Ac. cbn [accepted_from] in Ac.
    unfold sieve_is_screened in Ac.
    rewrite (screened_empty N S P1 H3 H4) in Ac. discriminate. }
  assert (EZ' : es = [] -> n = 0) by (intros X; unfold n; rewrite X; reflexivity).
  fold n in St |- *.
  inversion St as [E1 E2|? ? Hh E1 E2|? Hh E1 E2].
  - assert (n = 0) by (unfold n; rewrite <- E1; reflexivity).
    repeat split; intros; try lia; auto; try (exfalso; apply ES; congruence).
  - assert (NE : accepted N S es <> []) by (destruct Hh as (_ & X & _); exact X).
    assert (n <> 0) by (unfold n; destruct (accepted N S es); [congruence|cbn; lia]).
    destruct (held_not_special N S P1 H3 H4 (generate_masks N S) _ _ Hh) as [X1 X2].
    destruct Hh as (F & _ & L & R & _).
    fold n in L, R. repeat split; intros; try lia; try congruence; auto.
    unfold row_of in R. rewrite <- R. unfold shift_right.
    destruct (st N S P1 H3) as (B & Sg & C & D).
    replace (bits (filter_type N) <=? screen_bits N S) with false by (unfold screen_bits; lia).
    cbn [andb]. rewrite Z.mod_small by (unfold screen_bits; lia).
    assert (U : unsigned_of (filter_type N) = filter_type N).
    { destruct (filter_type N) as [sgn bb]. cbn in Sg |- *. subst sgn. reflexivity. }
    rewrite U. rewrite (wrap_fits _ v) by assumption. rewrite Z.shiftr_div_pow2 by (unfold screen_bits; lia).
    unfold screen_bits. symmetry. apply wrap_fits; [exact B|].
    unfold fits, imin, imax in F |- *. rewrite Sg in F |- *.
    assert (0 < 2 ^ (N - S)) by (apply pow2_pos; lia).
    split; [apply Z.div_pos; lia|]. apply Z.le_trans with v; [|lia].
    apply Z.div_le_upper_bound; nia.
  - fold n in Hh. rewrite SE in Hh. assert (0 < 2 ^ S) by (apply pow2_pos; lia).
    repeat split; intros; try lia; auto; try (exfalso; apply ES; congruence).
Qed.

(** Exact answer: with n elements held, an element is reported present exactly
    when it agrees with the c-th of them on the c-th mask of row n - 1, and
    always when saturated. *)
Theorem C58_sieve_screened_iff : forall N S es e, sieve_params N S ->
  let n := Z.of_nat (length (accepted N S es)) in
  (sieve_is_screened N S (sieve_run N S es) e = true <->
   n = 2 ^ S + 1 \/
   exists c, 0 <= c < n /\ n <= 2 ^ S /\
     forall i, 0 <= i < N - S -> bit (masks N (generate_masks N S) (n - 1) c) i = true ->
       bit (nth (Z.to_nat c) (accepted N S es) 0) i = bit e i).
Proof.
  intros N S es e H n. pose proof (state_run N S H es) as St.
  destruct H as (H1 & H2 & H3 & H4).
  assert (P1 : 1 <= S < N) by lia. assert (P4 : 2 <= screen_bits N S) by (unfold screen_bits; lia).
  pose proof (generated_ok N S P1 H3 H4) as G.
  pose proof (lim_facts N S P1 H3 H4) as (_ & SG & SE).
  inversion St as [E1 E2|? ? Hh E1 E2|? Hh E1 E2].
  - unfold sieve_is_screened. rewrite (screened_empty N S P1 H3 H4). unfold n. rewrite <- E1. cbn [length].
    split; [discriminate|]. intros [X|(c & Hc & _)]; [|lia]. pose proof (pow2_pos S). lia.
  - unfold sieve_is_screened. rewrite (screened_held N S P1 H3 H4 (generate_masks N S) G _ _ _ Hh).
    destruct Hh as (_ & _ & L & _). fold n in L |- *. split.
    + intros (c & Hc & A). right. exists c. split; [exact Hc|]. split; [lia|]. exact A.
    + intros [X|(c & Hc & _ & A)]; [lia|]. exists c. split; [exact Hc|exact A].
  - unfold sieve_is_screened. rewrite (screened_saturated N S P1 H3 H4 (generate_masks N S) e P4).
    fold n in Hh. split; [intros _; left; lia|reflexivity].
Qed.

(** The masks of every row but the last partition the N - S screen bits; those
    of the last row partition all but the top one (the sentinel); and each mask
    is contained in the mask of the same column of the previous row. *)
Theorem C58_sieve_masks : forall N S, sieve_params N S ->
  let m := masks N (generate_masks N S) in
  (forall r i, 0 <= r < 2 ^ S -> 0 <= i < N - S -> ~ (r = 2 ^ S - 1 /\ i = N - S - 1) ->
     exists c, 0 <= c <= r /\ bit (m r c) i = true /\
       forall c', 0 <= c' <= r -> bit (m r c') i = true -> c' = c) /\
  (forall c, 0 <= c < 2 ^ S -> bit (m (2 ^ S - 1) c) (N - S - 1) = false) /\
  (forall r c i, 1 <= r < 2 ^ S -> 0 <= c < r -> 0 <= i < N - S ->
     bit (m r c) i = true -> bit (m (r - 1) c) i = true).
Proof.
  intros N S (H1 & H2 & H3 & H4) m.
  assert (P1 : 1 <= S < N) by lia.
  pose proof (generated_ok N S P1 H3 H4) as (G1 & G2 & G3 & G4 & G5).
  pose proof (lim_facts N S P1 H3 H4) as (_ & SG & SE). rewrite SE in *. unfold screen_bits in *.
  split; [|split].
  - intros r i Hr Hi Hx. destruct (G4 r i Hr Hi) as (c & Hc & X); [intros -> ->; apply Hx; auto|].
    exists c. split; [exact Hc|]. split; [exact X|]. intros c' Hc' X'.
    destruct (Z.eq_dec c' c) as [|Ne]; [assumption|]. exfalso.
    change (bit (m r c) i = true) in X. assert (bit (m r c) i = false); [|congruence].
    apply (G2 r c' c i); [unfold inr; rewrite SE; lia|unfold inr; rewrite SE; lia|lia|exact Hi|exact X'].
  - exact G5.
  - intros r c i Hr Hc Hi. apply (G3 r c); [unfold inr; rewrite SE; lia|lia|exact Hi].
Qed.

(** * The hypotheses are met *)
Example params_32_4 : sieve_params 32 4 /\ bloom_params 32 3.
Proof. unfold sieve_params, bloom_params. cbn. lia. Qed.
(** sieve<32,4> accepts 16 distinguishable elements (those of
    test/filter/sieve.cpp) and saturates on the next. *)
Definition test_elements : list Z :=
  [0; 1; 16384; 262176; 2097280; 4194560; 8389120; 16778240; 16778241; 16812033; 33589249;
   33589250; 33589254; 34146310; 67702790].
Example held_15 : (accepted 32 4 test_elements, sieve_run 32 4 test_elements =? sieve_saturated 32 4,
  sieve_run 32 4 test_elements / 2 ^ 28) = (test_elements, false, 14).
Proof. vm_compute. reflexivity. Qed.
Example not_present : sieve_is_screened 32 4 (sieve_run 32 4 [0; 1]) 16384 = false
  /\ bloom_is_screened 32 3 (bloom_run 32 3 [1; 2]) 77 = false.
Proof. vm_compute. auto. Qed.

Print Assumptions C58_bloom_no_false_negative.
Print Assumptions C58_bloom_screened_iff.
Print Assumptions C58_bloom_selection.
Print Assumptions C58_bloom_collision.
Print Assumptions C58_sieve_no_false_negative.
Print Assumptions C58_sieve_screen_result.
Print Assumptions C58_sieve_capacity.
Print Assumptions C58_sieve_screened_iff.
Print Assumptions C58_sieve_masks.
