(** C36: signature operation counts and the block limit. *)
From Verif Require Import Base Bytes MathModel StreamModel LCalc StateModel OpModel OpSpec ChainModel ChainSpec ChainProofs4 ChainProps BlockModel ValidModel ValidSpec ValidProofs ValidProofs2 SigopSpec SigopProofs.

Lemma sum_total {A} (f : A -> Z) l : total (map f l) = sum_over f l.
Proof. induction l as [|a l IH]; [reflexivity|]. cbn [map sum_over fold_right total] in *. unfold total, sum_over in *. cbn [fold_right]. lia. Qed.
Lemma sum_pins (f : input -> Z) ins : forall ms, sum_over (fun p : input * meta => f (fst p)) (pair_meta ins ms) = sum_over f ins.
Proof. induction ins as [|i ins IH]; intros [|m ms]; cbn [pair_meta sum_over fold_right]; unfold sum_over in *; try reflexivity; cbn [fold_right fst]; rewrite IH; reflexivity. Qed.
Lemma pins_in i m : forall ins ms, In (i, m) (pair_meta ins ms) -> In i ins.
Proof. induction ins as [|j ins IH]; intros [|x ms]; cbn; try tauto; intros [E|E]; [left; congruence|right; eapply IH; exact E|left; congruence|right; eapply IH; exact E]. Qed.
Lemma sum_plus {A} (f g : A -> Z) l : sum_over (fun a => f a + g a) l = sum_over f l + sum_over g l.
Proof. induction l as [|a l IH]; [reflexivity|]. unfold sum_over in *. cbn [fold_right]. lia. Qed.
Lemma sum_scale {A} k (f : A -> Z) l : sum_over (fun a => k * f a) l = k * sum_over f l.
Proof. induction l as [|a l IH]; [cbn; lia|]. unfold sum_over in *. cbn [fold_right]. lia. Qed.
Lemma sum_ext {A} (f g : A -> Z) l : (forall a, In a l -> f a = g a) -> sum_over f l = sum_over g l.
Proof. induction l as [|a l IH]; intros H; [reflexivity|]. unfold sum_over in *. cbn [fold_right]. rewrite (H a) by (left; reflexivity). rewrite IH; [reflexivity|]. intros b Hb. apply H. right. exact Hb. Qed.

Lemma pair_meta_length ins : forall ms, length (pair_meta ins ms) = length ins.
Proof. induction ins as [|i l IH]; intros [|m ms]; cbn [pair_meta length]; auto. Qed.
Section Count.
Variables (bip16 bip141 : bool) (t : ptx).
Hypothesis Hb : bip141 = true -> bip16 = true.
Hypothesis Hr : sigops_ready t.
Lemma ready_inputs : Forall (fun p => input_sigops bip16 bip141 p = ref_input bip16 bip141 p /\ 0 <= ref_input bip16 bip141 p <= 1000000000) (pins t).
Proof.
  destruct Hr as (Ok & Fi & _ & Fp). apply Forall_forall. intros [i m] H. assert (Hi : In i (tx_inputs (p_tx t))) by (eapply pins_in; exact H).
  rewrite Forall_forall in Fi. apply input_spec; [exact Hb| |exact (Fi i Hi)|intros o E; eapply Fp; eassumption].
  destruct Ok as (_ & _ & _ & X & _). rewrite Forall_forall in X. exact (X i Hi).
Qed.
Definition ref_output (o : output) : Z := (if bip141 then 4 else 1) * reference_sigops false (script_bytes (out_script o)).
Lemma ready_outputs : Forall (fun o => output_sigops bip141 o = ref_output o /\ 0 <= ref_output o <= 1000000000) (poutputs t).
Proof.
  destruct Hr as (_ & _ & Fo & _). eapply Forall_impl; [|exact Fo]. intros o F. destruct (bytes_parse _ F) as (B & L & E). destruct (parse_sigops false _ B L) as [PS PB].
  unfold output_sigops, ref_output. rewrite E at 1. rewrite PS. rewrite umul_small by (try assumption; destruct bip141; auto). destruct bip141; lia.
Qed.
Definition exact_cost : Z := sum_over (ref_input bip16 bip141) (pins t) + sum_over ref_output (poutputs t).
Lemma sum_le {A} (f : A -> Z) l : Forall (fun a => 0 <= f a) l -> 0 <= sum_over f l.
Proof. induction 1; [cbn; lia|]. unfold sum_over in *. cbn [fold_right]. lia. Qed.
Lemma cost_min : tx_sigops bip16 bip141 t = Z.min (2 ^ 64 - 1) exact_cost /\ 0 <= exact_cost.
Proof.
  pose proof ready_inputs as RI. pose proof ready_outputs as RO. unfold tx_sigops, exact_cost.
  assert (N1 : 0 <= sum_over (ref_input bip16 bip141) (pins t)) by (apply sum_le; eapply Forall_impl; [|exact RI]; intros a Ha; cbv beta in Ha; lia).
  assert (N2 : 0 <= sum_over ref_output (poutputs t)) by (apply sum_le; eapply Forall_impl; [|exact RO]; intros a Ha; cbv beta in Ha; lia).
  split; [|lia]. rewrite (sat_fold (input_sigops bip16 bip141)), (sat_fold (output_sigops bip141)); try lia.
  - rewrite !sum_total. rewrite (sum_ext (input_sigops bip16 bip141) (ref_input bip16 bip141)) by (intros a Ha; rewrite Forall_forall in RI; apply RI, Ha).
    rewrite (sum_ext (output_sigops bip141) ref_output) by (intros a Ha; rewrite Forall_forall in RO; apply RO, Ha). rewrite cadd_min by lia. lia.
  - eapply Forall_impl; [|exact RO]. intros a Ha; cbv beta in Ha. lia.
  - eapply Forall_impl; [|exact RI]. intros a Ha; cbv beta in Ha. lia.
Qed.
Lemma sum_bound {A} (f : A -> Z) k l : Forall (fun a => f a <= k) l -> sum_over f l <= k * len l.
Proof. induction 1; [cbn; lia|]. rewrite len_cons. unfold sum_over in *. cbn [fold_right]. lia. Qed.
Lemma cost_small : exact_cost <= 2000000000000000.
Proof.
  pose proof ready_inputs as RI. pose proof ready_outputs as RO. unfold exact_cost. destruct Hr as ((_ & _ & L1 & _ & L2 & _) & _).
  assert (B1 : sum_over (ref_input bip16 bip141) (pins t) <= 1000000000 * len (pins t)) by (apply sum_bound; eapply Forall_impl; [|exact RI]; intros a Ha; cbv beta in Ha; lia).
  assert (B2 : sum_over ref_output (poutputs t) <= 1000000000 * len (poutputs t)) by (apply sum_bound; eapply Forall_impl; [|exact RO]; intros a Ha; cbv beta in Ha; lia).
  assert (LP : len (pins t) = len (tx_inputs (p_tx t))) by (unfold pins, len; rewrite pair_meta_length; reflexivity).
  unfold poutputs in *. lia.
Qed.
Lemma cost_reference : (if bip141 then 1 else 4) * exact_cost = reference_cost bip16 bip141 t.
Proof.
  unfold exact_cost, reference_cost, ref_input, ref_output. rewrite sum_plus. rewrite !sum_scale. rewrite sum_plus. pose proof (sum_pins (fun i => reference_sigops false (script_bytes (in_script i))) (tx_inputs (p_tx t)) (p_meta t)) as SP. fold (pins t) in SP. cbv beta in SP. rewrite SP. unfold poutputs.
  assert (I : forall (b : bool) f, sum_over (fun a => if b then of_prevout f a else 0) (pins t) = if b then sum_over (of_prevout f) (pins t) else 0).
  { intros [] f; [reflexivity|]. generalize (pins t); intros l; induction l; [reflexivity|]; cbn; assumption. }
  rewrite !I. destruct bip141; [rewrite Hb by reflexivity; lia|]. destruct bip16; lia.
Qed.
End Count.
Print Assumptions cost_min.

(** The count of a transaction is the reference's cost (in units of four
    before bip141); the saturating sums never saturate. *)
Theorem C36_transaction_cost bip16 bip141 t : (bip141 = true -> bip16 = true) -> sigops_ready t ->
  (if bip141 then 1 else 4) * tx_sigops bip16 bip141 t = reference_cost bip16 bip141 t.
Proof.
  intros Hb Hr. pose proof (cost_small bip16 bip141 t Hb Hr). destruct (cost_min bip16 bip141 t Hb Hr) as [E N]. pose proof (cost_reference bip16 bip141 t Hb) as R. rewrite E. destruct bip141; lia.
Qed.
Print Assumptions C36_transaction_cost.
(** The block limit is on the exact sum, with no wrap or saturation effect:
    80000 cost, which before bip141 is 20000 operations. *)
Theorem C36_block_limit bip16 bip141 b : (bip141 = true -> bip16 = true) -> Forall sigops_ready (pb_txs b) ->
  (block_sigops_limited bip16 bip141 b = true <-> sum_over (reference_cost bip16 bip141) (pb_txs b) > 80000).
Proof.
  intros Hb Hr. unfold block_sigops_limited, block_sigops.
  assert (G : fold_left (fun n t => cadd n (tx_sigops bip16 bip141 t)) (pb_txs b) 0 = Z.min (2 ^ 64 - 1) (sum_over (exact_cost bip16 bip141) (pb_txs b)) /\ 0 <= sum_over (exact_cost bip16 bip141) (pb_txs b)).
  { assert (F : Forall (fun t => tx_sigops bip16 bip141 t = Z.min (2 ^ 64 - 1) (exact_cost bip16 bip141 t) /\ 0 <= exact_cost bip16 bip141 t) (pb_txs b)).
    { eapply Forall_impl; [|exact Hr]. intros t Ht. apply cost_min; assumption. }
    rewrite (sat_fold (tx_sigops bip16 bip141)); [|eapply Forall_impl; [|exact F]; intros t Ht; cbv beta in Ht; lia|lia].
    rewrite sum_total. clear Hr. induction F as [|t l [E N] F IH]; [cbn; lia|]. unfold sum_over in *. cbn [fold_right]. rewrite E.
    assert (0 <= fold_right (fun a n => tx_sigops bip16 bip141 a + n) 0 l). { clear IH. induction F as [|u l [Eu Nu] F IH]; cbn [fold_right]; lia. } lia. }
  assert (S : (if bip141 then 1 else 4) * sum_over (exact_cost bip16 bip141) (pb_txs b) = sum_over (reference_cost bip16 bip141) (pb_txs b)).
  { rewrite <- sum_scale. apply sum_ext. intros t _. apply cost_reference, Hb. }
  destruct G as [-> G]. rewrite <- S. rewrite Z.gtb_lt. unfold max_fast_sigops, max_block_sigops. destruct bip141; lia.
Qed.
Print Assumptions C36_block_limit.
(** Hence an accepted block respects the limit. *)
Theorem C36_accepted_block c interval initial b : Forall sigops_ready (pb_txs b) ->
  (is_enabled c fl_bip141 = true -> is_enabled c fl_bip16 = true) ->
  block_accept c interval initial b = success ->
  sum_over (reference_cost (is_enabled c fl_bip16) (is_enabled c fl_bip141)) (pb_txs b) <= 80000.
Proof.
  intros Hr Hb. unfold block_accept. destruct (block_overspent _ _ _ _ _); [discriminate|]. destruct (block_sigops_limited _ _ b) eqn:E; [discriminate|]. intros _.
  destruct (Z_le_gt_dec (sum_over (reference_cost (is_enabled c fl_bip16) (is_enabled c fl_bip141)) (pb_txs b)) 80000) as [L|G]; [exact L|].
  apply (C36_block_limit _ _ b Hb Hr) in G. congruence.
Qed.
Print Assumptions C36_accepted_block.
(** Counting with multisig key counts never exceeds counting without. *)
Theorem C36_accurate_is_no_more s : fits_block s -> 0 <= script_sigops true s <= script_sigops false s.
Proof.
  intros F. destruct (bytes_parse s F) as (B & L & E). rewrite E. rewrite (proj1 (parse_sigops true _ B L)), (proj1 (parse_sigops false _ B L)).
  split; [apply parse_sigops; assumption|]. unfold reference_sigops. generalize 255 at 1 as p. generalize 255 as q. induction (fst (script_scan (script_bytes s))) as [|[c d] ops IH]; intros q p; [cbn; lia|].
  cbn [count_sigops]. specialize (IH c c). destruct ((c =? 172) || (c =? 173)); [lia|]. destruct ((c =? 174) || (c =? 175)); [|lia]. cbn [andb].
  destruct ((81 <=? p) && (p <=? 96)) eqn:X; [|lia]. apply andb_true_iff in X as [X1 X2]. apply Z.leb_le in X1, X2. lia.
Qed.
Print Assumptions C36_accurate_is_no_more.
(** The patterns the counts depend on are those of the bytes, whatever the
    parse: pay to script hash and witness programs. *)
Theorem C36_patterns s : script_ok s ->
  is_pay_script_hash_pattern s = reference_p2sh (script_bytes s) /\
  (is_witness_program_pattern s = true <-> reference_program (script_bytes s) <> None).
Proof.
  intros Ok. split; [apply p2sh_bytes, Ok|]. rewrite (program_bytes s Ok). destruct (reference_program _); split; congruence.
Qed.
Print Assumptions C36_patterns.
