(** C29-C34 and C61: values, subsidy, locktimes, maturity and the ledger. *)
From Verif Require Import Base Bytes MathModel StreamModel StateModel OpModel ChainModel ChainSpec ChainProofs4 BlockModel BlockSpec BlockProofs3 BlockProps ValidModel ValidSpec ValidProofs ValidProofs2.

(** ** C29: a transaction creates no value. *)
Theorem C29_accept_exact t os : is_coinbase (p_tx t) = false -> previous_outputs t os -> amounts os -> amounts (tx_outputs (p_tx t)) ->
  sum_outputs os < 2 ^ 64 - 1 ->
  (tx_accept t = success <-> sum_outputs (tx_outputs (p_tx t)) <= sum_outputs os) /\
  (tx_accept t = success -> fee t = sum_outputs os - sum_outputs (tx_outputs (p_tx t))).
Proof.
  intros C P A1 A2 B. pose proof (prev_ins t os P A1) as I. pose proof (sum_nonneg _ A2) as N2. pose proof (sum_nonneg _ A1) as N1.
  assert (EV : value t = sum_outputs os).
  { rewrite (value_min t I), (prev_values t os P). fold (sum_outputs os). lia. }
  assert (ES : spend t = Z.min (2 ^ 64 - 1) (sum_outputs (tx_outputs (p_tx t)))) by apply (spend_min t A2).
  unfold tx_accept, is_overspent, fee. rewrite C, (proj2 (missing_spec t) (ex_intro _ os P)), EV, ES.
  destruct (Z.gtb_spec (Z.min (2 ^ 64 - 1) (sum_outputs (tx_outputs (p_tx t)))) (sum_outputs os)) as [G|G].
  - split; [split; [discriminate|lia]|discriminate].
  - split; [split; [lia|reflexivity]|]. intros _. rewrite fsub_exact by lia. lia.
Qed.
Print Assumptions C29_accept_exact.
(** An input without a previous output is an error. *)
Theorem C29_missing_previous_output t : is_coinbase (p_tx t) = false ->
  (tx_accept t = missing_previous_output <-> ~ exists os, previous_outputs t os).
Proof.
  intros C. unfold tx_accept. rewrite C, <- (missing_spec t). destruct (is_missing_prevouts t).
  - split; [intros _ X; discriminate|reflexivity].
  - split; [destruct (is_overspent t); discriminate|]. intros N. exfalso. apply N. reflexivity.
Qed.
Print Assumptions C29_missing_previous_output.
(** At a total of 2^64-1 the sums saturate: outputs worth twice the inputs are
    accepted.  C61 shows no ledger built from subsidies gets there. *)
Definition rich : output := mkoutput (2 ^ 64 - 1) [].
Definition saturated : ptx := mkptx (make_tx 1 [mkinput (repeat 7 32) 0 [] 0 []] [rich; rich] 0) [mkmeta (Some rich) false 1 1 (2 ^ 32 - 1)].
Theorem C29_saturation_refuted : exists t os, is_coinbase (p_tx t) = false /\ previous_outputs t os /\ amounts os /\ amounts (tx_outputs (p_tx t)) /\
  tx_accept t = success /\ sum_outputs os < sum_outputs (tx_outputs (p_tx t)).
Proof.
  exists saturated, [rich]. split; [reflexivity|]. split; [reflexivity|]. split; [repeat constructor; cbn; lia|].
  split; [repeat constructor; cbn; lia|]. split; [vm_compute; reflexivity|]. cbn. lia.
Qed.
Print Assumptions C29_saturation_refuted.

(** ** C30: the coinbase claims at most fees and subsidy. *)
Theorem C30_claim_exact b cb others height interval initial bip42 :
  pb_txs b = cb :: others -> amounts (tx_outputs (p_tx cb)) ->
  Forall (fun t => 0 <= fee t < 2 ^ 64) (pb_txs b) -> 0 <= height -> 0 < interval -> 0 <= initial < 2 ^ 64 ->
  total (map fee (pb_txs b)) + subsidy height interval initial bip42 < 2 ^ 64 - 1 ->
  (block_overspent height interval initial bip42 b = false <->
   sum_outputs (tx_outputs (p_tx cb)) <= total (map fee (pb_txs b)) + subsidy height interval initial bip42).
Proof.
  intros E A F Hh Hi Hn B. pose proof (subsidy_bounds height interval initial bip42 Hh Hi Hn) as S.
  assert (T : 0 <= total (map fee (pb_txs b))). { apply total_nonneg, Forall_map. eapply Forall_impl; [|exact F]. intros t Ht. cbv beta in Ht. lia. }
  unfold block_overspent, reward, claim, fees. rewrite (sat_fold fee (pb_txs b) F 0) by lia. rewrite E at 1. rewrite (spend_min cb A).
  change (poutputs cb) with (tx_outputs (p_tx cb)). pose proof (sum_nonneg _ A) as SN. rewrite Z.add_0_l, (Z.min_r (2 ^ 64 - 1) (total _)) by lia. rewrite cadd_sum by lia.
  destruct (Z.gtb_spec (Z.min (2 ^ 64 - 1) (sum_outputs (tx_outputs (p_tx cb)))) (total (map fee (pb_txs b)) + subsidy height interval initial bip42)); split; try discriminate; try reflexivity; lia.
Qed.
Print Assumptions C30_claim_exact.
(** The verdict of accept, for any block: the coinbase is not overpaid (as
    counted), signature operations are within the limit, every other
    transaction passes. *)
Theorem C30_accept_verdict c interval initial b :
  block_accept c interval initial b = success <->
  block_overspent (c_height c) interval initial (is_enabled c fl_bip42) b = false /\
  block_sigops (is_enabled c fl_bip16) (is_enabled c fl_bip141) b <= (if is_enabled c fl_bip141 then 80000 else 20000) /\
  Forall (fun t => tx_accept t = success) (tl (pb_txs b)).
Proof.
  unfold block_accept, block_sigops_limited, skip_first, max_fast_sigops, max_block_sigops. rewrite <- first_error_success.
  destruct (block_overspent _ _ _ _ b); [split; [discriminate|intros [X _]; discriminate]|].
  destruct (Z.gtb_spec (block_sigops (is_enabled c fl_bip16) (is_enabled c fl_bip141) b) (if is_enabled c fl_bip141 then 80000 else 20000)).
  - split; [discriminate|lia].
  - destruct (pb_txs b); cbn [tl first_error]; tauto.
Qed.
Print Assumptions C30_accept_verdict.

(** ** C31: subsidy *)
Theorem C31_subsidy_halves height interval initial : 0 <= height -> 0 < interval -> 0 <= initial < 2 ^ 64 ->
  subsidy height interval initial true = initial / 2 ^ (height / interval).
Proof. apply subsidy_42. Qed.
Print Assumptions C31_subsidy_halves.
(** Without bip42 the schedule restarts every 64 halvings. *)
Theorem C31_subsidy_without_bip42 height interval initial : 0 <= height -> 0 < interval -> 0 <= initial < 2 ^ 64 ->
  subsidy height interval initial false = initial / 2 ^ ((height / interval) mod 64) /\
  (height < 64 * interval -> subsidy height interval initial false = subsidy height interval initial true) /\
  subsidy (64 * interval) interval initial false = initial.
Proof.
  intros Hh Hi Hn. split; [apply subsidy_pre; assumption|]. split.
  - intros L. rewrite subsidy_pre, subsidy_42 by assumption. rewrite Z.mod_small; [reflexivity|]. split; [apply Z.div_pos; lia|]. apply Z.div_lt_upper_bound; lia.
  - rewrite subsidy_pre by lia. rewrite Z.div_mul by lia. change (64 mod 64) with 0. change (2 ^ 0) with 1. apply Z.div_1_r.
Qed.
Print Assumptions C31_subsidy_without_bip42.
(** With bip42 the sum over any number of heights is bounded, and zero after 64 halvings. *)
Theorem C31_total_issue heights interval initial : 0 < interval -> 0 <= initial < 2 ^ 64 ->
  total (map (fun h => subsidy (Z.of_nat h) interval initial true) (seq 0 heights)) <= 2 * interval * initial /\
  (forall h, 64 * interval <= h -> subsidy h interval initial true = 0).
Proof.
  intros Hi Hn. split.
  - replace (total _) with (issued_below interval initial heights); [apply issued_cap; assumption|].
    induction heights as [|n IH]; [reflexivity|]. rewrite seq_S, map_app, total_app. cbn [issued_below]. rewrite IH. cbn. lia.
  - intros h Hh. assert (64 <= h / interval) by (apply Z.div_le_lower_bound; lia). rewrite subsidy_42 by lia. apply Z.div_small. split; [lia|].
    apply Z.lt_le_trans with (2 ^ 64); [lia|]. apply Z.pow_le_mono_r; lia.
Qed.
Print Assumptions C31_total_issue.
(** The main network's figures: at most 21 million coins. *)
Theorem C31_main_network heights :
  total (map (fun h => subsidy (Z.of_nat h) 210000 5000000000 true) (seq 0 heights)) <= 21000000 * 100000000.
Proof. pose proof (proj1 (C31_total_issue heights 210000 5000000000 ltac:(lia) ltac:(lia))) as H. lia. Qed.
Print Assumptions C31_main_network.

(** ** C32: absolute locktime *)
Theorem C32_absolute_lock c t :
  tx_check_context c t = success <->
  final_tx (c_height c) (if is_enabled c fl_bip113 then c_mtp c else c_timestamp c) t.
Proof.
  unfold tx_check_context, is_absolute_locked, final_tx, locktime_threshold.
  set (time := if is_enabled c fl_bip113 then c_mtp c else c_timestamp c).
  assert (F : forallb input_is_final (tx_inputs t) = true <-> (forall i, In i (tx_inputs t) -> in_sequence i = 2 ^ 32 - 1)).
  { rewrite forallb_forall. unfold input_is_final. split; intros H i Hi; specialize (H i Hi); [apply Z.eqb_eq in H; rewrite H; reflexivity|apply Z.eqb_eq; rewrite H; reflexivity]. }
  destruct (forallb input_is_final (tx_inputs t)).
  - rewrite orb_true_r. cbn [negb]. split; [intros _; right; right; right; apply F; reflexivity|reflexivity].
  - assert (NF : ~ (forall i, In i (tx_inputs t) -> in_sequence i = 2 ^ 32 - 1)) by (intros X; apply F in X; discriminate). rewrite orb_false_r.
    destruct (Z.eqb_spec (tx_locktime t) 0) as [E|E]; cbn [orb negb]; [split; [intros _; left; exact E|reflexivity]|].
    destruct (Z.ltb_spec (tx_locktime t) 500000000).
    + destruct (Z.ltb_spec (tx_locktime t) (c_height c)); cbn [negb]; (split; [discriminate || (intros _; right; left; lia)|reflexivity || (intros [X|[X|[X|X]]]; [lia|lia|lia|contradiction])]).
    + destruct (Z.ltb_spec (tx_locktime t) time); cbn [negb]; (split; [discriminate || (intros _; right; right; left; lia)|reflexivity || (intros [X|[X|[X|X]]]; [lia|lia|lia|contradiction])]).
Qed.
Print Assumptions C32_absolute_lock.

(** ** C33: relative locktime *)
Theorem C33_relative_lock height mtp t : 0 <= height < 2 ^ 64 ->
  (forall i m, In (i, m) (pins t) -> 0 <= in_sequence i < 2 ^ 32 /\ 0 <= prevout_height m <= height /\ 0 <= m_mtp m <= mtp) ->
  (is_relative_locked height mtp t = false <->
   tx_version (p_tx t) < 2 \/
   forall i m, In (i, m) (pins t) -> bip68_expired (in_sequence i) height mtp (prevout_height m) (m_mtp m)).
Proof.
  intros Hh H. unfold is_relative_locked. destruct (Z.ltb_spec (tx_version (p_tx t)) 2) as [V|V]; [tauto|]. rewrite existsb_false. split.
  - intros X. right. intros i m Hi. destruct (H i m Hi) as (S & P & M). specialize (X (i, m) Hi). unfold input_relative_locked in X. cbn [fst snd] in X. apply relative_spec in X; [exact X|lia..].
  - intros [X|X]; [lia|]. intros [i m] Hi. destruct (H i m Hi) as (S & P & M). unfold input_relative_locked. cbn [fst snd]. apply relative_spec; [lia..|]. apply X, Hi.
Qed.
Print Assumptions C33_relative_lock.
(** A spend of an output of the same block is locked by any non-zero lock. *)
Theorem C33_internal_lock t i m : 0 <= in_sequence i < 2 ^ 32 -> 0 <= prevout_height m < 2 ^ 64 -> 0 <= m_mtp m < 2 ^ 32 ->
  (is_internally_locked t (i, m) = true <->
   2 <= tx_version t /\ Z.testbit (in_sequence i) 31 = false /\ 0 < in_sequence i mod 2 ^ 16).
Proof.
  intros S P M. unfold is_internally_locked. destruct (Z.ltb_spec (tx_version t) 2) as [V|V]; [split; [discriminate|lia]|].
  unfold input_relative_locked. cbn [fst snd]. pose proof (relative_spec (in_sequence i) (prevout_height m) (m_mtp m) (prevout_height m) (m_mtp m) S ltac:(lia) ltac:(lia) ltac:(lia)) as R.
  pose proof (Z.mod_pos_bound (in_sequence i) (2 ^ 16) ltac:(lia)) as B. unfold bip68_expired in R.
  destruct (is_relative_locked_seq _ _ _ _ _).
  - split; [intros _|reflexivity]. destruct (Z.testbit (in_sequence i) 31); [exfalso; assert (true = false) by (apply R; auto); discriminate|].
    split; [exact V|]. split; [reflexivity|]. assert (N : in_sequence i mod 2 ^ 16 <> 0); [|lia]. intros Z0. rewrite Z0 in R. assert (true = false); [|discriminate]. apply R.
    destruct (Z.testbit (in_sequence i) 22); [right; left|right; right]; (split; [reflexivity|lia]).
  - split; [discriminate|]. intros (_ & T & Q). destruct (proj1 R eq_refl) as [X|[[_ X]|[_ X]]]; [congruence|lia|lia].
Qed.
Print Assumptions C33_internal_lock.

(** ** C34: maturity and confirmation *)
Theorem C34_confirm c t : 0 <= c_height c < 2 ^ 32 ->
  (forall i m, In (i, m) (pins t) -> 0 <= prevout_height m < 2 ^ 32 /\ 0 <= spender_height m < 2 ^ 32) ->
  (tx_confirm c t = success <->
   is_coinbase (p_tx t) = true \/
   ((is_enabled c fl_bip68 = true -> is_relative_locked (c_height c) (c_mtp c) t = false) /\
    forall i m, In (i, m) (pins t) -> spendable (c_height c) m)).
Proof.
  intros Hh H. unfold tx_confirm. destruct (is_coinbase (p_tx t)); [tauto|].
  destruct (is_enabled c fl_bip68 && is_relative_locked (c_height c) (c_mtp c) t) eqn:R.
  { apply andb_true_iff in R as [R1 R2]. split; [discriminate|]. intros [X|[X _]]; [discriminate|]. specialize (X R1). congruence. }
  assert (R' : is_enabled c fl_bip68 = true -> is_relative_locked (c_height c) (c_mtp c) t = false) by (intros X; rewrite X in R; exact R).
  assert (MI : is_immature (c_height c) t = false <-> forall i m, In (i, m) (pins t) ->
     (m_coinbase m = true -> prevout_height m <> 0 /\ prevout_height m + 100 <= c_height c) /\ (m_coinbase m = false -> prevout_height m <= c_height c)).
  { unfold is_immature. rewrite existsb_false. split.
    - intros X i m Hi. specialize (X (i, m) Hi). cbv beta iota zeta in X. cbn [snd] in X. destruct (H i m Hi) as [P _]. destruct (m_coinbase m).
      + split; [|discriminate]. intros _. unfold is_coinbase_immature, coinbase_maturity in X. rewrite cadd_sum in X by lia. apply orb_false_iff in X as [X1 X2]. apply Z.eqb_neq in X1. apply Z.ltb_ge in X2. lia.
      + split; [discriminate|]. intros _. apply Z.ltb_ge in X. exact X.
    - intros X [i m] Hi. destruct (X i m Hi) as [X1 X2]. cbv beta iota zeta. cbn [snd]. destruct (H i m Hi) as [P _]. destruct (m_coinbase m).
      + unfold is_coinbase_immature, coinbase_maturity. rewrite cadd_sum by lia. destruct (X1 eq_refl). apply orb_false_iff. split; [apply Z.eqb_neq; lia|apply Z.ltb_ge; lia].
      + apply Z.ltb_ge, X2. reflexivity. }
  assert (UC : is_unconfirmed_spend (c_height c) t = false <-> forall i m, In (i, m) (pins t) -> prevout_height m <= c_height c).
  { unfold is_unconfirmed_spend. rewrite existsb_false. split; [intros X i m Hi; specialize (X (i, m) Hi); apply Z.ltb_ge in X; exact X|intros X [i m] Hi; apply Z.ltb_ge; apply (X i m Hi)]. }
  assert (DS : is_confirmed_double_spend (c_height c) t = false <-> forall i m, In (i, m) (pins t) -> c_height c <= spender_height m).
  { unfold is_confirmed_double_spend. rewrite existsb_false. split.
    - intros X i m Hi. specialize (X (i, m) Hi). cbv beta in X. cbn [snd] in X. destruct (Z.gtb_spec (c_height c) (spender_height m)); [discriminate|lia].
    - intros X [i m] Hi. cbv beta. cbn [snd]. specialize (X i m Hi). destruct (Z.gtb_spec (c_height c) (spender_height m)); [lia|reflexivity]. }
  unfold spendable. destruct (is_immature (c_height c) t).
  { split; [discriminate|]. intros [X|[_ X]]; [discriminate|]. assert (true = false); [|discriminate]. apply MI. intros i m Hi. destruct (X i m Hi) as [? ?]. split; [assumption|lia]. }
  destruct (is_unconfirmed_spend (c_height c) t).
  { split; [discriminate|]. intros [X|[_ X]]; [discriminate|]. assert (true = false); [|discriminate]. apply UC. intros i m Hi. destruct (X i m Hi). lia. }
  destruct (is_confirmed_double_spend (c_height c) t).
  { split; [discriminate|]. intros [X|[_ X]]; [discriminate|]. assert (true = false); [|discriminate]. apply DS. intros i m Hi. destruct (X i m Hi). lia. }
  split; [|reflexivity]. intros _. right. split; [exact R'|]. intros i m Hi. destruct (proj1 MI eq_refl i m Hi) as [A _]. split; [|exact A]. split; [apply (proj1 UC eq_refl i m Hi)|apply (proj1 DS eq_refl i m Hi)].
Qed.
Print Assumptions C34_confirm.
(** A coinbase output matures exactly 100 blocks above its block. *)
Theorem C34_coinbase_depth h0 h : 0 <= h0 < 2 ^ 63 -> 0 <= h ->
  (is_coinbase_immature h0 h = false <-> h0 <> 0 /\ h - h0 >= 100).
Proof.
  intros H0 H. unfold is_coinbase_immature, coinbase_maturity. rewrite cadd_sum by lia. rewrite orb_false_iff, Z.eqb_neq, Z.ltb_ge. lia.
Qed.
Print Assumptions C34_coinbase_depth.
Lemma own_coinbase D c b cb others b' : pb_txs b = cb :: others -> populate D c b = (success, b') ->
  forall t i, In t others -> In i (tx_inputs (p_tx t)) -> in_hash i = txid D (p_tx cb) -> find_point (point_of i) (block_points D (pb_txs b)) = None.
Proof.
  intros E P t i Ht Hi Eh. unfold populate in P. rewrite E in P. destruct (populate_txs _ _ _ others) as [ec ts] eqn:Q. injection P as -> _.
  apply populate_txs_spec in Q. rewrite <- E in Q. clear E. revert Ht. induction Q as [|u u' l l' (Eu & R) Q IH]; intros [].
  - subst u. rewrite <- Eu in Hi. rewrite <- pins_inputs in Hi. apply in_map_iff in Hi as ([i0 m'] & Ei & Hi). cbn in Ei. subst i0.
    destruct (R i m' Hi) as (m & _ & [[F _]|(o & _ & N & _)]); [exact F|]. contradiction.
  - apply IH; assumption.
Qed.
Lemma find_point_none p l : find_point p l = None -> forall q o, In (q, o) l -> q <> p.
Proof.
  induction l as [|[r x] l IH]; cbn [find_point]; [intros _ q o []|]. destruct (point_eq p r) eqn:E; [discriminate|]. intros H q o [Q|Q]; [|eapply IH; eassumption].
  injection Q as -> ->. intros ->. rewrite (proj2 (point_eq_true p p) eq_refl) in E. discriminate.
Qed.
Lemma indexed h outs : forall k n, 0 <= k -> k + len outs < 2 ^ 32 -> 0 <= n < len outs -> exists o, In ((h, k + n), o) (index_outputs h k outs).
Proof.
  induction outs as [|o outs IH]; intros k n Hk Hb Hn; [unfold len in Hn; cbn in Hn; lia|]. rewrite len_cons in *. cbn [index_outputs]. destruct (Z.eq_dec n 0) as [->|N].
  - exists o. left. rewrite Z.add_0_r. reflexivity.
  - rewrite wrap_fits by (try reflexivity; unfold fits; cbn [sg bits imin imax u32]; pose proof (len_nonneg outs); lia). destruct (IH (k + 1) (n - 1)) as [x Hx]; [lia..|]. exists x. right. replace (k + n) with (k + 1 + (n - 1)) by lia. exact Hx.
Qed.
(** A block in which a transaction spends an output of the block's own coinbase is not populated. *)
Theorem C34_own_coinbase D c b cb others t i : pb_txs b = cb :: others -> len (tx_outputs (p_tx cb)) < 2 ^ 32 ->
  In t others -> In i (tx_inputs (p_tx t)) -> in_hash i = D (tx_to_data false (p_tx cb)) -> 0 <= in_index i < len (tx_outputs (p_tx cb)) ->
  fst (populate D c b) <> success.
Proof.
  intros E L Ht Hi Eh Hx P. destruct (populate D c b) as [ec b'] eqn:Q. cbn [fst] in P. subst ec.
  assert (Et : in_hash i = txid D (p_tx cb)) by (rewrite txid_data; exact Eh). pose proof (own_coinbase D c b cb others b' E Q t i Ht Hi Et) as N.
  destruct (indexed (txid D (p_tx cb)) (tx_outputs (p_tx cb)) 0 (in_index i)) as [o Ho]; [lia..|]. rewrite Z.add_0_l in Ho.
  eapply (find_point_none _ _ N); [|unfold point_of; rewrite Et; reflexivity]. rewrite E. unfold block_points. cbn [map concat]. apply in_or_app. left. exact Ho.
Qed.
Print Assumptions C34_own_coinbase.

(** ** C61: the ledger *)
Lemma unpopulated_value cb : (forall m, In m (p_meta cb) -> prevout m = None) -> value cb = 0.
Proof.
  intros H. assert (A : forall p, In p (pins cb) -> in_value p = 0).
  { unfold pins. generalize dependent (p_meta cb). induction (tx_inputs (p_tx cb)) as [|i l IH]; intros [|m ms] H p; cbn [pair_meta]; intros Hp; try contradiction.
    - destruct Hp as [<-|Hp]; [reflexivity|]. apply (IH [] (fun m X => False_ind _ X) p Hp).
    - destruct Hp as [<-|Hp]; [unfold in_value; cbn [snd]; rewrite (H m (or_introl eq_refl)); reflexivity|]. apply (IH ms (fun m0 X => H m0 (or_intror X)) p Hp). }
  rewrite value_min; [|apply Forall_forall; intros p Hp; rewrite (A p Hp); lia].
  assert (T : total (map in_value (pins cb)) = 0); [|lia]. induction (pins cb) as [|p l IH]; [reflexivity|]. cbn [map]. change (total (in_value p :: map in_value l)) with (in_value p + total (map in_value l)).
  rewrite IH by (intros q Hq; apply A; right; exact Hq). rewrite (A p (or_introl eq_refl)). reflexivity.
Qed.
(** An accepted block is a step of the textbook ledger: its transactions run in
    order, each spending unspent outputs worth what it creates plus a fee, and
    the coinbase creates at most the fees and the subsidy. *)
Theorem C61_accepted_block_is_a_ledger_step D interval initial c identity U b b' :
  0 < interval -> 0 <= initial < 2 ^ 64 -> 0 <= c_height c ->
  Forall (fun e => 0 <= out_value (snd e) < 2 ^ 64) U ->
  worth U + subsidy (c_height c) interval initial (is_enabled c fl_bip42) < 2 ^ 64 - 1 ->
  Forall (fun t => tx_ok (p_tx t) /\ acyclic D (p_tx t)) (pb_txs b) ->
  block_check D identity (unpopulated b) = success ->
  stored U b -> populate D c b = (success, b') -> block_accept c interval initial b' = success ->
  exists cb others fees, map p_tx (pb_txs b) = cb :: others /\ runs D U others fees /\
    sum_outputs (tx_outputs cb) <= fees + subsidy (c_height c) interval initial (is_enabled c fl_bip42) /\
    worth (apply_block D U (cb :: others)) <= worth U + subsidy (c_height c) interval initial (is_enabled c fl_bip42) /\
    Forall (fun e => 0 <= out_value (snd e) < 2 ^ 64) (apply_block D U (cb :: others)).
Proof.
  intros Hi Hn Hh Ok B T Ck St Po Ac. apply C28_check_accepts_exactly in Ck as (_ & (first & rest & Eb & Cb & Nc & NL & ND) & _ & _).
  cbn [unpopulated b_txs] in Eb. unfold stored in St. unfold populate in Po. destruct (pb_txs b) as [|cb others] eqn:Ex; [discriminate|]. cbn [map] in Eb. injection Eb as <- <-.
  destruct St as [St1 St2]. destruct (populate_txs _ _ _ others) as [ec ts] eqn:Q. injection Po as -> <-. apply populate_txs_spec in Q.
  apply C30_accept_verdict in Ac as (Ov & _ & Fa). cbn [pb_txs tl] in Fa. inversion T as [|? ? Tc To]; subst.
  exists (p_tx cb), (map p_tx others).
  pose proof (subsidy_bounds (c_height c) interval initial (is_enabled c fl_bip42) Hh Hi Hn) as SB. set (sub := subsidy _ _ _ _) in *.
  assert (To' : Forall (fun t => tx_ok t /\ acyclic D t) (map p_tx others)) by (apply Forall_map; exact To).
  assert (Cl : Forall (fun t => is_coinbase t = false) (map p_tx others)).
  { eapply Forall_impl; [|exact Nc]. intros t Ht. destruct (is_coinbase t) eqn:E; [|reflexivity]. apply coinbase_spec in E. contradiction. }
  assert (F2 : Forall2 (fun t t' => p_tx t' = t /\ sourced D U (map p_tx others) t' /\ tx_accept t' = success) (map p_tx others) ts).
  { assert (G : forall l l', (forall t, In t l -> In t others) -> Forall2 (repopulated (txid D (p_tx cb)) (block_points D (cb :: others))) l l' -> Forall (fun t => tx_accept t = success) l' ->
       Forall2 (fun t t' => p_tx t' = t /\ sourced D U (map p_tx others) t' /\ tx_accept t' = success) (map p_tx l) l').
    { clear - St2 T To. intros l l' Hl H. induction H as [|t t' l l' (Et & R) H IH]; intros Fa; [constructor|]. inversion Fa as [|? ? A1 A2]; subst. cbn [map]. constructor; [|apply IH; [intros u Hu; apply Hl; right; exact Hu|exact A2]].
      split; [exact Et|]. split; [|exact A1]. intros i m' o Hi Ho. destruct (R i m' Hi) as (m & Hm & [[F ->]|(o' & F & N & E)]).
      - left. apply (St2 t i m o (Hl t (or_introl eq_refl)) Hm Ho).
      - right. rewrite Ho in E. injection E as <-. apply find_point_some in F. unfold block_points in F. apply in_concat in F as (pl & Hpl & F). apply in_map_iff in Hpl as (u & <- & Hu).
        assert (Tu : tx_ok (p_tx u)) by (rewrite Forall_forall in T; apply (T u Hu)). rewrite (tx_points_created D _ Tu) in F. destruct Hu as [<-|Hu].
        + exfalso. apply N. apply created_hash in F. cbn [fst point_of] in F. rewrite F. rewrite <- (txid_data D). reflexivity.
        + exists (p_tx u). split; [apply in_map, Hu|exact F]. }
    apply G; [auto|exact Q|exact Fa]. }
  destruct (run_txs D U (map p_tx others) ltac:(lia) ND NL To' (map p_tx others) [] ts eq_refl F2 Cl Ok ltac:(apply Z.le_refl)) as (f & R & Tf & Ff & F0 & W).
  cbn [fold_left] in R, W. exists f. split; [reflexivity|]. split; [exact R|].
  assert (Ac : amounts (tx_outputs (p_tx cb))) by (apply tx_ok_amounts, Tc).
  assert (Fc : fee cb = 0). { unfold fee. rewrite (unpopulated_value cb St1), (spend_min cb Ac). pose proof (sum_nonneg _ Ac). rewrite fsub_clamp by (unfold poutputs; lia). unfold poutputs. lia. }
  assert (WN : 0 <= worth (fold_left (apply_tx D) (map p_tx others) U)).
  { apply worth_nonneg. clear - Ok To'. revert U Ok. induction To' as [|t l [Ht _] Hl IH]; intros U Ok; [exact Ok|]. cbn [fold_left]. apply IH. apply apply_tx_ok; [exact Ok|apply tx_ok_amounts, Ht]. }
  assert (Cm : sum_outputs (tx_outputs (p_tx cb)) <= f + sub).
  { apply (C30_claim_exact (mkpblock (pb_header b) (cb :: ts)) cb ts) in Ov; cbn [pb_txs]; try assumption; try reflexivity.
    - cbn [pb_txs map] in Ov. rewrite Fc in Ov. change (total (0 :: map fee ts)) with (0 + total (map fee ts)) in Ov. fold sub in Ov. lia.
    - constructor; [rewrite Fc; lia|exact Ff].
    - cbn [map]. rewrite Fc. change (total (0 :: map fee ts)) with (0 + total (map fee ts)). fold sub. lia. }
  split; [exact Cm|]. cbn [apply_block]. rewrite worth_app, worth_created. split; [lia|]. apply Forall_app. split; [|apply created_ok, Ac].
  clear - Ok To'. revert U Ok. induction To' as [|t l [Ht _] Hl IH]; intros U Ok; [exact Ok|]. cbn [fold_left]. apply IH. apply apply_tx_ok; [exact Ok|apply tx_ok_amounts, Ht].
Qed.
Print Assumptions C61_accepted_block_is_a_ledger_step.
(** After any history of accepted blocks the ledger is worth at most the sum of
    the subsidies. *)
Theorem C61_supply D interval initial rule h issued U : 0 < interval -> 0 <= initial < 2 ^ 64 ->
  history D interval initial rule h issued U -> issued < 2 ^ 64 - 1 -> worth U <= issued.
Proof.
  intros Hi Hn H. assert (G : 0 <= h /\ 0 <= issued /\ (issued < 2 ^ 64 - 1 -> worth U <= issued /\ ledger_ok U)).
  { induction H as [h Hh|h issued U c identity b b' H IH Eh Hr T Ck St Po Ac].
    - split; [exact Hh|]. split; [lia|]. intros _. split; [cbn; lia|constructor].
    - destruct IH as (H0 & I0 & IH). subst h. pose proof (subsidy_bounds (c_height c) interval initial (is_enabled c fl_bip42) H0 Hi Hn) as SB.
      split; [lia|]. split; [lia|]. intros L. destruct IH as [W Ok]; [lia|].
      destruct (C61_accepted_block_is_a_ledger_step D interval initial c identity U b b' Hi Hn H0 Ok ltac:(lia) T Ck St Po Ac) as (cb & others & f & E & _ & _ & W' & Ok').
      rewrite E. split; [lia|exact Ok']. }
  intros L. apply G, L.
Qed.
Print Assumptions C61_supply.
(** With bip42 active throughout, a total issue below 2^64-1 needs no
    assumption on the history: the cap holds for ever. *)
Theorem C61_cap D interval initial (rule : context -> Prop) h issued U : 0 < interval -> 0 <= initial < 2 ^ 64 -> 2 * interval * initial < 2 ^ 64 - 1 ->
  (forall c, rule c -> is_enabled c fl_bip42 = true) ->
  history D interval initial rule h issued U -> worth U <= 2 * interval * initial.
Proof.
  intros Hi Hn C R H. assert (G : 0 <= h /\ issued <= issued_below interval initial (Z.to_nat h)).
  { induction H as [h Hh|h issued U c identity b b' H IH Eh Hr T Ck St Po Ac].
    - split; [exact Hh|]. generalize (Z.to_nat h) as n. induction n as [|n IHn]; [cbn; lia|]. cbn [issued_below]. pose proof (subsidy_bounds (Z.of_nat n) interval initial true ltac:(lia) Hi Hn). lia.
    - destruct IH as [H0 IH]. split; [lia|]. replace (Z.to_nat (h + 1)) with (S (Z.to_nat h)) by lia. cbn [issued_below]. rewrite (R c Hr), Z2Nat.id by lia. lia. }
  pose proof (issued_cap interval initial (Z.to_nat h) Hi Hn). assert (worth U <= issued); [|lia]. eapply C61_supply; [exact Hi|exact Hn|exact H|lia].
Qed.
Print Assumptions C61_cap.
