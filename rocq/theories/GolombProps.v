(** C42, C43: Golomb coded sets and block filters. *)
From Verif Require Import Base Bytes MathModel MathSpec MathProofs StreamModel StreamSpec StreamProofs StreamProofs2 BitStreamModel BitStreamSpec BitStreamProofs BitStreamProofs2 OpModel ChainModel ChainProofs4 BlockModel ValidModel GolombModel GolombSpec GolombProofs.
From Coq Require Import Permutation.

Definition u64s (l : list Z) : Prop := Forall (fun v => 0 <= v < 2 ^ 64) l.
Fixpoint decode_set (n : nat) (previous P : Z) (b : brd) : list Z * brd :=
  match n with
  | O => ([], b)
  | S n' => let (d, b1) := decode P b in let (l, b2) := decode_set n' (previous + d) P b1 in (previous + d :: l, b2)
  end.
Lemma decode_set_at src P l : 0 <= P -> forall previous k u b, 0 <= previous < 2 ^ 64 -> u64s l -> sorted_from previous l -> at_bit src k u b ->
  holds src k (flat_map (ecode P) (deltas previous l)) -> exists b' k' u', decode_set (length l) previous P b = (l, b') /\ at_bit src k' u' b'.
Proof.
  intros HP. induction l as [|x l IH]; intros p k u b Hp F S A H; [exists b, k, u; auto|]. inversion F; subst. destruct S as [S1 S2]. cbn [deltas flat_map] in H. apply holds_app in H as [H1 H2'].
  cbn [length decode_set]. destruct (decode_at src P (x - p) k u b HP ltac:(lia) A H1) as (b1 & R & A1). rewrite R. replace (p + (x - p)) with x by lia.
  destruct (IH x _ true b1 ltac:(lia) H3 S2 A1 H2') as (b2 & k2 & u2 & R2 & A2). rewrite R2. exists b2, k2, u2. auto.
Qed.
Lemma packed_holds bl tail out : packed (bl ++ tail) out -> holds out 0 bl.
Proof.
  intros (P1 & P2 & P3). split; [lia|]. rewrite Z.add_0_l. rewrite len_app in P2. pose proof (len_nonneg tail). pose proof (len_nonneg bl). pose proof (Z.div_mod (len bl + len tail + 7) 8 ltac:(lia)). pose proof (Z.mod_pos_bound (len bl + len tail + 7) 8 ltac:(lia)).
  split; [lia|]. intros i Hi. rewrite Z.add_0_l. rewrite P3 by lia. rewrite app_nth1 by (unfold len in *; lia). reflexivity.
Qed.
(** ** C42 *)
(** Decoding what was encoded returns the set, whatever the exponent. *)
Theorem C42_round_trip P l : 0 <= P -> u64s l -> sorted_from 0 l ->
  let out := bout (bit_flush (construct_loop l 0 P bit_writer)) in
  len out < 2 ^ 64 ->
  exists b, decode_set (length l) 0 P (bit_reader (fresh out)) = (l, b) /\ bit_valid b = true.
Proof.
  intros HP F S out L. pose proof (construct_wrote P l 0 [] bit_writer HP ltac:(lia) F S wrote_fresh) as W. apply flush_packed in W. fold out in W. cbn [app] in W. rewrite <- (app_nil_r (flat_map _ _)) in W.
  apply packed_holds in W. destruct (decode_set_at out P l HP 0 0 false _ ltac:(lia) F S (fresh_at_bit out L) W) as (b & k & u & E & A). exists b. split; [exact E|apply (at_bit_valid _ _ _ _ A)].
Qed.
Print Assumptions C42_round_trip.
(** The bytes are the BIP158 bit string, zero padded. *)
Theorem C42_layout P l : 0 <= P < 64 -> u64s l -> sorted_from 0 l ->
  let out := bout (bit_flush (construct_loop l 0 P bit_writer)) in
  Forall byte_ok out /\ len out = (len (golomb_bits_of P l) + 7) / 8 /\
  forall k, 0 <= k < 8 * len out -> bit_at out k = nth (Z.to_nat k) (golomb_bits_of P l) false.
Proof.
  intros HP F S out. pose proof (construct_wrote P l 0 [] bit_writer ltac:(lia) ltac:(lia) F S wrote_fresh) as W. apply flush_packed in W. cbn [app] in W. fold out in W.
  replace (golomb_bits_of P l) with (flat_map (ecode P) (deltas 0 l)); [exact W|]. unfold golomb_bits_of. apply flat_map_ext. intros d. unfold ecode, golomb_code. destruct (Z.leb_spec 64 P); [lia|]. rewrite Z.min_r by lia. reflexivity.
Qed.
Print Assumptions C42_layout.
(** What is encoded: the sorted hashes of the items. *)
Definition hashes (key : Z * Z) (rate : Z) (n : Z) (items : list (list Z)) : list Z := map (fun i => ranged (siphash key i) (rate * n)) items.
Lemma hashed_ok key items n rate : 0 <= rate -> 0 <= n -> rate * n < 2 ^ 64 -> n < 2 ^ 64 -> rate < 2 ^ 64 ->
  hashed_set_construct key items n rate = sort (hashes key rate n items) /\ u64s (hashes key rate n items) /\
  u64s (sort (hashes key rate n items)) /\ sorted_from 0 (sort (hashes key rate n items)).
Proof.
  intros Hr Hn B Ln Lr. assert (E : is_multiply_overflow u64 rate n = false).
  { rewrite is_multiply_overflow_exact by (try reflexivity; apply fits64; lia). assert (F : fitsb u64 (rate * n) = true); [|rewrite F; reflexivity]. unfold fitsb. cbn [imin imax u64 sg bits]. assert (0 <= rate * n) by nia. destruct (Z.leb_spec 0 (rate * n)); [|lia]. destruct (Z.leb_spec (rate * n) (2 ^ 64 - 1)); [reflexivity|lia]. }
  assert (B0 : 0 <= rate * n < 2 ^ 64) by nia.
  assert (U : u64s (hashes key rate n items)). { apply Forall_map, Forall_forall. intros i _. apply (range_ok key i (rate * n) B0). }
  unfold hashed_set_construct. rewrite E. rewrite wrap_fits by (reflexivity || (apply fits64; exact B0)).
  split; [|split; [exact U|split; [eapply Permutation_Forall; [apply sort_perm|exact U]|apply sort_sorted; eapply Forall_impl; [|exact U]; intros v Hv; cbv beta in Hv; lia]]].
  f_equal. apply map_ext. intros i. apply (range_ok key i (rate * n) B0).
Qed.
Theorem C42_encoded_set key items P rate : 0 <= rate < 2 ^ 64 -> rate * len items < 2 ^ 64 -> len items < 2 ^ 64 -> 0 <= P ->
  exists l, Permutation l (map (fun i => ranged (siphash key i) (rate * len items)) items) /\ sorted_from 0 l /\ u64s l /\
    construct key items P rate = bout (bit_flush (construct_loop l 0 P bit_writer)).
Proof.
  intros Hr B L HP. destruct (hashed_ok key items (len items) rate ltac:(lia) (len_nonneg items) B L ltac:(lia)) as (E & U & U2 & S). exists (sort (hashes key rate (len items) items)).
  split; [apply Permutation_sym, sort_perm|]. split; [exact S|]. split; [exact U2|]. unfold construct, construct_into. rewrite E. reflexivity.
Qed.
Print Assumptions C42_encoded_set.
Example C42_case : sorted_from 0 [5; 5; 1000000; 2 ^ 24] /\ fst (decode_set 4 0 19 (bit_reader (fresh (bout (bit_flush (construct_loop [5; 5; 1000000; 2 ^ 24] 0 19 bit_writer)))))) = [5; 5; 1000000; 2 ^ 24].
Proof. split; [cbn; lia|vm_compute; reflexivity]. Qed.

(** ** C43 *)
Section Reader.
Variables (key : Z * Z) (items : list (list Z)) (P rate : Z).
Hypothesis Hr : 0 <= rate < 2 ^ 64.
Hypothesis Hn : len items < 2 ^ 64.
Hypothesis Hb : rate * len items < 2 ^ 64.
Hypothesis HP : 0 <= P.
Let set := sort (hashes key rate (len items) items).
Lemma set_facts : hashed_set_construct key items (len items) rate = set /\ u64s set /\ sorted_from 0 set /\ length set = length items /\ (forall v, In v set <-> In v (hashes key rate (len items) items)).
Proof.
  destruct (hashed_ok key items (len items) rate ltac:(lia) (len_nonneg items) Hb Hn ltac:(lia)) as (E & _ & U & S). fold set in E, U, S. split; [exact E|]. split; [exact U|]. split; [exact S|].
  pose proof (sort_perm (hashes key rate (len items) items)) as PM. split; [apply Permutation_length in PM; unfold hashes in PM at 1; rewrite map_length in PM; symmetry; exact PM|]. intros v. split; intros H; [eapply Permutation_in; [apply Permutation_sym, PM|exact H]|eapply Permutation_in; [apply PM|exact H]].
Qed.
Variables (src : list Z) (k : Z) (u : bool) (b : brd).
Hypothesis A : at_bit src k u b.
Hypothesis HD : holds src k (flat_map (ecode P) (deltas 0 set)).
Lemma wb : 0 <= rate * len items < 2 ^ 64. Proof. pose proof (len_nonneg items). nia. Qed.
Lemma reader_single target : match_single_reader key b target (len items) P rate = true <-> In (ranged (siphash key target) (rate * len items)) (hashes key rate (len items) items).
Proof.
  destruct set_facts as (_ & U & S & L & I). unfold match_single_reader. rewrite wrap_fits by (reflexivity || (apply fits64, wb)). rewrite (proj1 (range_ok key target _ wb)).
  unfold len at 1. rewrite Nat2Z.id, <- L. rewrite (single_spec src P _ set HP 0 k u b ltac:(lia) U S A HD). apply I.
Qed.
Lemma reader_stack_sound targets : match_stack_reader key b targets (len items) P rate = true ->
  exists t, In t targets /\ In (ranged (siphash key t) (rate * len items)) (hashes key rate (len items) items).
Proof.
  destruct set_facts as (_ & U & S & L & I). unfold match_stack_reader. destruct (len targets =? 0); [discriminate|].
  destruct (hashed_ok key targets (len items) rate ltac:(lia) (len_nonneg items) Hb Hn ltac:(lia)) as (E & _ & _ & _). rewrite E. unfold len at 1. rewrite Nat2Z.id, <- L. intros M.
  apply (stack_sound src P set HP _ 0 k u b ltac:(lia) U S A HD) in M as (v & V1 & V2). apply I in V2. eapply Permutation_in in V1; [|apply Permutation_sym, sort_perm]. apply in_map_iff in V1 as (t & <- & Ht). exists t. auto.
Qed.
Lemma reader_stack_least targets t : In t targets ->
  (forall t', In t' targets -> ranged (siphash key t) (rate * len items) <= ranged (siphash key t') (rate * len items)) ->
  In (ranged (siphash key t) (rate * len items)) (hashes key rate (len items) items) -> match_stack_reader key b targets (len items) P rate = true.
Proof.
  intros Ht Least M. destruct set_facts as (_ & U & S & L & I). unfold match_stack_reader. destruct (Z.eqb_spec (len targets) 0) as [Z0|_]; [destruct targets; [destruct Ht|rewrite len_cons in Z0; pose proof (len_nonneg targets); lia]|].
  destruct (hashed_ok key targets (len items) rate ltac:(lia) (len_nonneg items) Hb Hn ltac:(lia)) as (E & _ & _ & ST). rewrite E. unfold len at 1. rewrite Nat2Z.id, <- L.
  pose proof (sort_perm (hashes key rate (len items) targets)) as PM. destruct (sort (hashes key rate (len items) targets)) as [|x it] eqn:ES.
  { apply Permutation_sym, Permutation_nil in PM. unfold hashes in PM. apply map_eq_nil in PM. subst. destruct Ht. }
  assert (X : x = ranged (siphash key t) (rate * len items)).
  { assert (In x (hashes key rate (len items) targets)) as HX by (eapply Permutation_in; [apply Permutation_sym, PM|left; reflexivity]). apply in_map_iff in HX as (t' & Ex & Ht'). specialize (Least t' Ht').
    assert (In (ranged (siphash key t) (rate * len items)) (x :: it)) as HI by (eapply Permutation_in; [apply PM|unfold hashes; apply in_map_iff; exists t; auto]). destruct HI as [HI|HI]; [exact HI|]. destruct ST as [_ ST]. pose proof (sorted_le _ _ ST _ HI). lia. }
  rewrite X. assert (Z64 : 0 <= 0 < 2 ^ 64) by lia. exact (stack_least src P set _ it HP (proj2 (I _) M) 0 k u b Z64 U S A HD).
Qed.
End Reader.
Lemma constructed key items P rate : 0 <= rate < 2 ^ 64 -> len items < 2 ^ 64 -> rate * len items < 2 ^ 64 -> 0 <= P ->
  holds (construct key items P rate) 0 (flat_map (ecode P) (deltas 0 (sort (hashes key rate (len items) items)))).
Proof.
  intros Hr Hn Hb HP. destruct (hashed_ok key items (len items) rate ltac:(lia) (len_nonneg items) Hb Hn ltac:(lia)) as (E & _ & U & S). unfold construct, construct_into. rewrite E.
  pose proof (construct_wrote P _ 0 [] bit_writer HP ltac:(lia) U S wrote_fresh) as W. apply flush_packed in W. cbn [app] in W. rewrite <- (app_nil_r (flat_map _ _)) in W. apply packed_holds in W. exact W.
Qed.
(** A single match is exact up to equal hashes in range, so there is no false negative. *)
Theorem C43_single key items target P rate : 0 <= rate < 2 ^ 64 -> rate * len items < 2 ^ 64 -> len items < 2 ^ 64 -> 0 <= P ->
  len (construct key items P rate) < 2 ^ 64 ->
  (match_single key (construct key items P rate) target (len items) P rate = true <->
   exists item, In item items /\ ranged (siphash key item) (rate * len items) = ranged (siphash key target) (rate * len items)).
Proof.
  intros Hr Hb Hn HP L. unfold match_single. rewrite (reader_single key items P rate Hr Hn Hb HP _ 0 false _ (fresh_at_bit _ L) (constructed key items P rate Hr Hn Hb HP) target).
  unfold hashes. rewrite in_map_iff. split; intros (i & E1 & E2); exists i; auto.
Qed.
Print Assumptions C43_single.
Theorem C43_single_no_false_negative key items target P rate : 0 <= rate < 2 ^ 64 -> rate * len items < 2 ^ 64 -> len items < 2 ^ 64 -> 0 <= P ->
  len (construct key items P rate) < 2 ^ 64 -> In target items ->
  match_single key (construct key items P rate) target (len items) P rate = true.
Proof. intros Hr Hb Hn HP L I. apply C43_single; try assumption. exists target. auto. Qed.
Print Assumptions C43_single_no_false_negative.
(** A stack match only reports a member (or collision). *)
Theorem C43_stack_sound key items targets P rate : 0 <= rate < 2 ^ 64 -> rate * len items < 2 ^ 64 -> len items < 2 ^ 64 -> 0 <= P ->
  len (construct key items P rate) < 2 ^ 64 ->
  match_stack key (construct key items P rate) targets (len items) P rate = true ->
  exists item target, In item items /\ In target targets /\ ranged (siphash key item) (rate * len items) = ranged (siphash key target) (rate * len items).
Proof.
  intros Hr Hb Hn HP L M. unfold match_stack in M. apply (reader_stack_sound key items P rate Hr Hn Hb HP _ 0 false _ (fresh_at_bit _ L) (constructed key items P rate Hr Hn Hb HP)) in M as (t & Ht & I).
  apply in_map_iff in I as (i & E & Hi). exists i, t. auto.
Qed.
Print Assumptions C43_stack_sound.
(** It finds a member whose hash is the least of the targets', in particular a
    single target; in general it does not (below). *)
Theorem C43_stack_partial key items targets t P rate : 0 <= rate < 2 ^ 64 -> rate * len items < 2 ^ 64 -> len items < 2 ^ 64 -> 0 <= P ->
  len (construct key items P rate) < 2 ^ 64 -> In t items -> In t targets ->
  (forall t', In t' targets -> ranged (siphash key t) (rate * len items) <= ranged (siphash key t') (rate * len items)) ->
  match_stack key (construct key items P rate) targets (len items) P rate = true.
Proof.
  intros Hr Hb Hn HP L I1 I2 Least. unfold match_stack. apply (reader_stack_least key items P rate Hr Hn Hb HP _ 0 false _ (fresh_at_bit _ L) (constructed key items P rate Hr Hn Hb HP) targets t I2 Least).
  unfold hashes. apply in_map_iff. exists t. auto.
Qed.
Print Assumptions C43_stack_partial.
(** FINDING: with the BIP158 parameters and key zero, a filter of one item does
    not match a pair of targets that contains it. *)
Theorem C43_stack_refuted : exists item other,
  match_stack (0, 0) (construct (0, 0) [item] golomb_bits golomb_rate) [item; other] 1 golomb_bits golomb_rate = false /\
  match_single (0, 0) (construct (0, 0) [item] golomb_bits golomb_rate) item 1 golomb_bits golomb_rate = true.
Proof. exists [1], [2]. split; vm_compute; reflexivity. Qed.
Print Assumptions C43_stack_refuted.

(** ** Block filters *)
Lemma prevout_scripts_in l r : prevout_scripts l = Some r -> forall d, In d r <-> exists i m o, In (i, m) l /\ prevout m = Some o /\ out_script o <> [] /\ script_to_data false (out_script o) = d.
Proof.
  revert r. induction l as [|[i m] l IH]; intros r E d; cbn [prevout_scripts] in E.
  - injection E as <-. split; [intros []|intros (? & ? & ? & [] & _)].
  - destruct (prevout m) as [o|] eqn:Eo; [|discriminate]. destruct (prevout_scripts l) as [r'|]; [|discriminate]. specialize (IH r' eq_refl d). injection E as <-.
    assert (N : non_empty (out_script o) = true <-> out_script o <> []) by (destruct (out_script o); cbn; split; congruence).
    assert (G : (exists i0 m0 o0, In (i0, m0) ((i, m) :: l) /\ prevout m0 = Some o0 /\ out_script o0 <> [] /\ script_to_data false (out_script o0) = d) <->
      (out_script o <> [] /\ script_to_data false (out_script o) = d) \/ In d r').
    { rewrite IH. split.
      - intros (i0 & m0 & o0 & [H|H] & H2 & H3); [injection H as <- <-; rewrite Eo in H2; injection H2 as <-; left; exact H3|right; exists i0, m0, o0; auto].
      - intros [H|(i0 & m0 & o0 & H & H2)]; [exists i, m, o; split; [left; reflexivity|split; [exact Eo|exact H]]|exists i0, m0, o0; split; [right; exact H|exact H2]]. }
    rewrite G. destruct (non_empty (out_script o)); [cbn [In]|]; tauto || (split; [tauto|]; intros [[H _]|H]; [|exact H]; apply N in H; discriminate).
Qed.
Lemma output_scripts_in l d : In d (output_scripts l) <-> exists o, In o l /\ out_script o <> [] /\ (forall p r, out_script o = p :: r -> code p <> 106) /\ script_to_data false (out_script o) = d.
Proof.
  unfold output_scripts. rewrite in_map_iff. split.
  - intros (o & E & H). apply filter_In in H as [H1 H2]. exists o. split; [exact H1|]. destruct (out_script o) as [|p r]; [discriminate|]. cbn [non_empty andb is_pay_op_return_pattern] in H2. split; [discriminate|]. split; [|exact E]. intros p' r' X. injection X as <- <-. destruct (Z.eqb_spec (code p) 106); [discriminate|assumption].
  - intros (o & H1 & H2 & H3 & E). exists o. split; [exact E|]. apply filter_In. split; [exact H1|]. destruct (out_script o) as [|p r]; [congruence|]. cbn [non_empty andb is_pay_op_return_pattern]. destruct (Z.eqb_spec (code p) 106) as [X|X]; [exfalso; exact (H3 p r eq_refl X)|reflexivity].
Qed.
Lemma filter_scripts_in txs l : filter_scripts txs = Some l -> forall d, In d l <-> exists s, relevant txs s /\ script_to_data false s = d.
Proof.
  revert l. induction txs as [|t txs IH]; intros l E d; cbn [filter_scripts] in E.
  - injection E as <-. split; [intros []|]. intros (s & (_ & [(? & ? & ? & ? & [] & _)|(? & ? & [] & _)]) & _).
  - destruct (if is_coinbase (p_tx t) then Some [] else prevout_scripts (pins t)) as [i|] eqn:Ei; [|discriminate]. destruct (filter_scripts txs) as [r|]; [|discriminate]. specialize (IH r eq_refl d). injection E as <-.
    rewrite !in_app_iff, IH, output_scripts_in. unfold relevant. split.
    + intros [H|[(o & H1 & H2 & H3 & H4)|(s & (H1 & [(t0 & i0 & m0 & o0 & H2 & H3)|(t0 & o0 & H2 & H3)]) & H4)]].
      * destruct (is_coinbase (p_tx t)) eqn:Ec; [injection Ei as <-; destruct H|]. apply (prevout_scripts_in _ _ Ei) in H as (i0 & m & o & H1 & H2 & H3 & H4). exists (out_script o). split; [|exact H4]. split; [exact H3|]. left. exists t, i0, m, o. split; [left; reflexivity|]. auto.
      * exists (out_script o). split; [|exact H4]. split; [exact H2|]. right. exists t, o. split; [left; reflexivity|]. auto.
      * exists s. split; [|exact H4]. split; [exact H1|]. left. exists t0, i0, m0, o0. split; [right; exact H2|exact H3].
      * exists s. split; [|exact H4]. split; [exact H1|]. right. exists t0, o0. split; [right; exact H2|exact H3].
    + intros (s & (H1 & [(t0 & i0 & m0 & o0 & [<-|H2] & H3 & H5 & H6 & H7)|(t0 & o0 & [<-|H2] & H3 & H5 & H6)]) & H4).
      * left. rewrite H3 in Ei. apply (prevout_scripts_in _ _ Ei). exists i0, m0, o0. subst s. auto.
      * right. right. exists s. split; [|exact H4]. split; [exact H1|]. left. exists t0, i0, m0, o0. auto.
      * right. left. exists o0. subst s. auto.
      * right. right. exists s. split; [|exact H4]. split; [exact H1|]. right. exists t0, o0. auto.
Qed.
Lemma prevout_scripts_some l : prevout_scripts l <> None <-> (forall i m, In (i, m) l -> prevout m <> None).
Proof.
  induction l as [|[i m] l IH]; cbn [prevout_scripts]; [split; [intros _ i m []|discriminate]|]. destruct (prevout m) as [o|] eqn:Eo.
  - destruct (prevout_scripts l) as [r|].
    + split; [intros _ i0 m0 [H|H]; [injection H as <- <-; congruence|]; revert i0 m0 H; apply IH; discriminate|discriminate].
    + split; [congruence|]. intros H. apply IH. intros i0 m0 Hi. apply (H i0). right. exact Hi.
  - split; [congruence|]. intros H. exfalso. apply (H i m); [left; reflexivity|exact Eo].
Qed.
(** A filter is computed iff every needed previous output is populated. *)
Theorem C43_filter_computed hash txs : compute_filter hash txs <> None <-> all_populated txs.
Proof.
  unfold compute_filter. assert (G : filter_scripts txs <> None <-> all_populated txs).
  { unfold all_populated. induction txs as [|t txs IH]; cbn [filter_scripts]; [split; [intros _ t i m []|discriminate]|].
    destruct (if is_coinbase (p_tx t) then Some [] else prevout_scripts (pins t)) as [i|] eqn:Ei.
    - destruct (filter_scripts txs) as [r|].
      + split; [|discriminate]. intros _ t0 i0 m0 [<-|H] Hc Hi; [|eapply (proj1 IH); try eassumption; discriminate]. rewrite Hc in Ei. assert (prevout_scripts (pins t) <> None) as X by congruence. eapply (proj1 (prevout_scripts_some _) X). exact Hi.
      + split; [congruence|]. intros H. apply IH. intros t0 i0 m0 Ht. apply H. right. exact Ht.
    - split; [congruence|]. intros H. destruct (is_coinbase (p_tx t)) eqn:Ec; [discriminate|]. exfalso. apply (proj2 (prevout_scripts_some (pins t))); [|exact Ei]. intros i m Hi. apply (H t i m); [left; reflexivity|exact Ec|exact Hi]. }
  rewrite <- G. destruct (filter_scripts txs); split; congruence.
Qed.
Print Assumptions C43_filter_computed.
Lemma prevout_scripts_len l r : prevout_scripts l = Some r -> len r <= len l.
Proof.
  revert r. induction l as [|[i m] l IH]; intros r E; cbn [prevout_scripts] in E; [injection E as <-; reflexivity|]. destruct (prevout m); [|discriminate]. destruct (prevout_scripts l) as [r'|]; [|discriminate]. specialize (IH r' eq_refl). injection E as <-. rewrite len_cons. destruct (non_empty _); rewrite ?len_cons; lia.
Qed.
Lemma filter_len {A} (f : A -> bool) l : len (List.filter f l) <= len l.
Proof. induction l as [|x l IH]; [cbn; lia|]. cbn [List.filter]. rewrite len_cons. destruct (f x); rewrite ?len_cons; lia. Qed.
Lemma filter_scripts_len txs l : filter_scripts txs = Some l -> len l <= population txs.
Proof.
  revert l. induction txs as [|t txs IH]; intros l E; cbn [filter_scripts] in E; [injection E as <-; cbn; lia|].
  destruct (if is_coinbase (p_tx t) then Some [] else prevout_scripts (pins t)) as [i|] eqn:Ei; [|discriminate]. destruct (filter_scripts txs) as [r|]; [|discriminate]. specialize (IH r eq_refl). injection E as <-.
  rewrite !len_app. cbn [population fold_right]. fold (population txs). assert (len i <= len (pins t)).
  { destruct (is_coinbase (p_tx t)); [injection Ei as <-; change (len (@nil (list Z))) with 0; apply len_nonneg|apply prevout_scripts_len, Ei]. }
  assert (len (output_scripts (poutputs t)) <= len (poutputs t)) by (unfold output_scripts, len; rewrite map_length; apply (filter_len _ (poutputs t))). lia.
Qed.
Lemma nodup_len (l : list (list Z)) : len (nodup (list_eq_dec Z.eq_dec) l) <= len l.
Proof. induction l as [|x l IH]; [cbn; lia|]. cbn [nodup]. rewrite len_cons. destruct (in_dec _ x l); rewrite ?len_cons; lia. Qed.
(** The count prefix. *)
Lemma bytes_wrote d bl w : Forall byte_ok d -> wrote bl w -> wrote (bl ++ flat_map (fun b => low_bits b 8) d) (bit_write_bytes d w).
Proof.
  intros F W. rewrite bit_write_bytes_fields. pose proof (write_fields_wrote (map (fun b => (b, 8)) d) bl w) as X. replace (fields_bits (map (fun b => (b, 8)) d)) with (flat_map (fun b => low_bits b 8) d) in X.
  - apply X; [apply Forall_map, Forall_forall; intros; cbn [snd]; lia|exact W].
  - unfold fields_bits. clear. induction d as [|b d IH]; [reflexivity|]. cbn [map flat_map fst snd]. rewrite IH. reflexivity.
Qed.
Lemma read_bytes_holds src d : forall k u b, Forall byte_ok d -> at_bit src k u b -> holds src k (flat_map (fun b => low_bits b 8) d) ->
  exists b' u', bit_read_bytes (length d) b = (d, b') /\ at_bit src (k + 8 * len d) u' b'.
Proof.
  induction d as [|x d IH]; intros k u b F A H; [exists b, u; rewrite Z.mul_0_r, Z.add_0_r; auto|]. inversion F; subst. cbn [flat_map] in H. apply holds_app in H as [H1 H2']. rewrite low_bits_len in H2' by lia.
  cbn [length bit_read_bytes]. pose proof (read_bits_at src 8 k u b A ltac:(lia)) as R. pose proof H1 as (_ & L & _). rewrite low_bits_len in L by lia. destruct (Z.leb_spec (k + 8) (8 * len src)); [|lia]. destruct R as (b1 & R & A1). rewrite R.
  destruct (IH (k + 8) _ b1 H3 A1 H2') as (b2 & u2 & R2 & A2). rewrite R2. exists b2, u2. rewrite len_cons. replace (k + 8 * (1 + len d)) with (k + 8 + 8 * len d) by lia. split; [|exact A2]. f_equal. f_equal.
  rewrite (field_holds src k 8 (low_bits x 8)); [|lia|apply low_bits_len; lia|exact H1]. unfold byte_ok in H2. rewrite bits_value_low by lia. rewrite Z.mod_small by lia. apply wrap_fits; [reflexivity|]. unfold fits. cbn [imin imax u8 sg bits]. lia.
Qed.
Lemma variable_holds src n k u b : 0 <= n < 2 ^ 64 -> at_bit src k u b -> holds src k (flat_map (fun b => low_bits b 8) (write_variable n)) ->
  exists b' u', bit_read_variable b = (n, b') /\ at_bit src (k + 8 * len (write_variable n)) u' b'.
Proof.
  intros Hn A H. assert (LE : forall m v x c, x = c :: le_bytes m v -> holds src k (flat_map (fun b => low_bits b 8) x) -> 0 <= c < 256 ->
    exists b1 u1 b2 u2, bit_read_bytes 1 b = ([c], b1) /\ at_bit src (k + 8) u1 b1 /\ bit_read_bytes m b1 = (le_bytes m v, b2) /\ at_bit src (k + 8 * len x) u2 b2).
  { intros m v x c -> HX Hc. cbn [flat_map] in HX. apply holds_app in HX as [X1 X2]. rewrite low_bits_len in X2 by lia.
    destruct (read_bytes_holds src [c] k u b) as (b1 & u1 & R1 & A1); [constructor; [unfold byte_ok; lia|constructor]|exact A|cbn [flat_map]; rewrite app_nil_r; exact X1|]. change (len [c]) with 1 in A1. rewrite Z.mul_1_r in A1.
    destruct (read_bytes_holds src (le_bytes m v) (k + 8) u1 b1 (le_bytes_ok m v) A1 X2) as (b2 & u2 & R2 & A2). rewrite le_bytes_length in R2. exists b1, u1, b2, u2. split; [exact R1|]. split; [exact A1|]. split; [exact R2|]. rewrite len_cons. replace (k + 8 * (1 + len (le_bytes m v))) with (k + 8 + 8 * len (le_bytes m v)) by lia. exact A2. }
  unfold write_variable in *. destruct (Z.ltb_spec n 253).
  - rewrite (wrap_fits u8) in * by (reflexivity || (unfold fits; cbn [imin imax u8 sg bits]; lia)). destruct (LE 0%nat 0 [n] n eq_refl H ltac:(lia)) as (b1 & u1 & b2 & u2 & R1 & A1 & R2 & A2). unfold bit_read_variable. rewrite R1. cbn [hd]. destruct (Z.eqb_spec n 255); [lia|]. destruct (Z.eqb_spec n 254); [lia|]. destruct (Z.eqb_spec n 253); [lia|]. exists b1, u1. auto.
  - destruct (Z.leb_spec n 65535); [|destruct (Z.leb_spec n 4294967295)].
    + rewrite (wrap_fits u16) in * by (reflexivity || (unfold fits; cbn [imin imax u16 sg bits]; lia)). destruct (LE 2%nat n _ 253 eq_refl H ltac:(lia)) as (b1 & u1 & b2 & u2 & R1 & A1 & R2 & A2). unfold bit_read_variable. rewrite R1. cbn [hd]. change (253 =? 255) with false. change (253 =? 254) with false. change (253 =? 253) with true. cbv iota. rewrite R2.
      rewrite le_value_bytes_small by (cbn; lia). destruct (Z.leb_spec 253 n); [|lia]. exists b2, u2. auto.
    + rewrite (wrap_fits u32) in * by (reflexivity || (unfold fits; cbn [imin imax u32 sg bits]; lia)). destruct (LE 4%nat n _ 254 eq_refl H ltac:(lia)) as (b1 & u1 & b2 & u2 & R1 & A1 & R2 & A2). unfold bit_read_variable. rewrite R1. cbn [hd]. change (254 =? 255) with false. change (254 =? 254) with true. cbv iota. rewrite R2.
      rewrite le_value_bytes_small by (cbn; lia). destruct (Z.leb_spec 65536 n); [|lia]. exists b2, u2. auto.
    + destruct (LE 8%nat n _ 255 eq_refl H ltac:(lia)) as (b1 & u1 & b2 & u2 & R1 & A1 & R2 & A2). unfold bit_read_variable. rewrite R1. cbn [hd]. change (255 =? 255) with true. cbv iota. rewrite R2.
      rewrite le_value_bytes_small by (cbn; lia). destruct (Z.leb_spec 4294967296 n); [|lia]. exists b2, u2. auto.
Qed.
(** A block filter matches exactly the scripts of the block, up to equal hashes
    in range: no false negative, and false positives only by collision. *)
Theorem C43_block_filter hash txs f s : compute_filter hash txs = Some f -> population txs < 2 ^ 43 -> len f < 2 ^ 64 -> s <> [] ->
  let key := (le_value (firstn 8 hash), le_value (firstn 8 (skipn 8 hash))) in
  (exists items, NoDup items /\ (forall d, In d items <-> exists s', relevant txs s' /\ script_to_data false s' = d) /\
    (match_filter hash f s = true <->
     exists d, In d items /\ ranged (siphash key d) (784931 * len items) = ranged (siphash key (script_to_data false s)) (784931 * len items))) /\
  (relevant txs s -> match_filter hash f s = true).
Proof.
  intros C HP HL HS key. unfold compute_filter in C. destruct (filter_scripts txs) as [l|] eqn:FS; [|discriminate].
  assert (EK : filter_key hash = key). { unfold filter_key, to_siphash_key, key. rewrite firstn_firstn. change (Init.Nat.min 8 16) with 8%nat. f_equal. f_equal. rewrite skipn_firstn_comm. rewrite firstn_firstn. reflexivity. }
  rewrite EK in C. set (sc := nodup (list_eq_dec Z.eq_dec) l) in *. injection C as C.
  assert (Ln : len sc < 2 ^ 43) by (pose proof (nodup_len l) as N1; fold sc in N1; pose proof (filter_scripts_len _ _ FS); lia). pose proof (len_nonneg sc) as N0.
  assert (Rr : 0 <= golomb_rate < 2 ^ 64) by (unfold golomb_rate; lia). assert (Rb : golomb_rate * len sc < 2 ^ 64) by (unfold golomb_rate; lia). assert (R0 : 0 <= golomb_rate) by lia. assert (R1 : golomb_rate < 2 ^ 64) by lia. assert (R2 : len sc < 2 ^ 64) by lia. assert (R3 : 0 <= golomb_bits) by (unfold golomb_bits; lia).
  assert (R4 : 0 <= len sc < 2 ^ 64) by lia.
  destruct (hashed_ok key sc (len sc) golomb_rate R0 N0 Rb R2 R1) as (E & _ & U & S).
  assert (BV : Forall byte_ok (write_variable (len sc))).
  { unfold write_variable. assert (BX : forall c m v, 0 <= c < 256 -> Forall byte_ok (c :: write_le m v)) by (intros c m v Hc; constructor; [exact Hc|apply le_bytes_ok]).
    destruct (Z.ltb_spec (len sc) 253); [constructor; [|constructor]; rewrite (wrap_fits u8) by (reflexivity || (unfold fits; cbn [imin imax u8 sg bits]; lia)); unfold byte_ok; lia|]. destruct (len sc <=? 65535); [apply BX; lia|]. destruct (len sc <=? 4294967295); apply BX; lia. }
  assert (W : wrote ([] ++ flat_map (fun b => low_bits b 8) (write_variable (len sc))) (bit_write_variable (len sc) bit_writer)) by (apply bytes_wrote; [exact BV|apply wrote_fresh]). cbn [app] in W.
  assert (Z64 : 0 <= 0 < 2 ^ 64) by lia. unfold construct_into in C. rewrite E in C. apply (construct_wrote golomb_bits _ 0 _ _ R3 Z64 U S), flush_packed in W. rewrite C in W. rewrite <- (app_nil_r (_ ++ _)) in W. apply packed_holds in W. apply holds_app in W as [W1 W2].
  pose proof (fresh_at_bit f HL) as A0. destruct (variable_holds f (len sc) 0 false _ R4 A0 W1) as (b & u & RV & A1).
  assert (MF : match_filter hash f s = match_single_reader key b (script_to_data false s) (len sc) golomb_bits golomb_rate).
  { unfold match_filter. assert (NE : non_empty s = true) by (destruct s; [contradiction|reflexivity]). rewrite NE, RV, (at_bit_valid _ _ _ _ A1). cbn [negb]. rewrite EK. reflexivity. }
  assert (LB : 0 + len (flat_map (fun b => low_bits b 8) (write_variable (len sc))) = 0 + 8 * len (write_variable (len sc))).
  { f_equal. generalize (write_variable (len sc)). induction l0 as [|x l0 IH]; [reflexivity|]. cbn [flat_map]. rewrite len_app, len_cons, IH, low_bits_len by lia. lia. }
  rewrite LB in W2. pose proof (reader_single key sc golomb_bits golomb_rate Rr R2 Rb R3 f _ u b A1 W2 (script_to_data false s)) as RS.
  assert (SI : forall d, In d sc <-> exists s', relevant txs s' /\ script_to_data false s' = d) by (intros d; unfold sc; rewrite nodup_In; apply filter_scripts_in, FS).
  assert (ME : match_filter hash f s = true <-> exists d, In d sc /\ ranged (siphash key d) (784931 * len sc) = ranged (siphash key (script_to_data false s)) (784931 * len sc)).
  { rewrite MF, RS. unfold hashes. rewrite in_map_iff. change golomb_rate with 784931. split; intros (d & D1 & D2); exists d; auto. }
  split; [exists sc; split; [apply NoDup_nodup|split; [exact SI|exact ME]]|]. intros Rel. apply ME. exists (script_to_data false s). split; [apply SI; exists s; auto|reflexivity].
Qed.
Print Assumptions C43_block_filter.
(** The empty script never matches. *)
Theorem C43_empty_script hash f : match_filter hash f [] = false.
Proof. reflexivity. Qed.
Print Assumptions C43_empty_script.

(** ** Concrete cases *)
(** BIP158 test vector: the genesis block of testnet3 has filter 019dfca8. *)
Definition genesis_hash : list Z := [67; 73; 127; 215; 248; 38; 149; 113; 8; 244; 163; 15; 217; 206; 195; 174; 186; 121; 151; 32; 132; 233; 14; 173; 1; 234; 51; 9; 0; 0; 0; 0].
Definition genesis_script : script := [mkop 65 [4; 103; 138; 253; 176; 254; 85; 72; 39; 25; 103; 241; 166; 113; 48; 183; 16; 92; 214; 168; 40; 224; 57; 9; 166; 121; 98; 224; 234; 31; 97; 222; 182; 73; 246; 188; 63; 76; 239; 56; 196; 243; 85; 4; 229; 30; 193; 18; 222; 92; 56; 77; 247; 186; 11; 141; 87; 138; 76; 112; 43; 107; 241; 29; 95] false; mkop 172 [] false].
Definition genesis_coinbase : ptx := mkptx (make_tx 1 [mkinput (repeat 0 32) 4294967295 [mkop 81 [] false] 4294967295 []] [mkoutput 5000000000 genesis_script] 0) [].
Example C43_vector : compute_filter genesis_hash [genesis_coinbase] = Some [1; 157; 252; 168] /\ match_filter genesis_hash [1; 157; 252; 168] genesis_script = true /\
  match_filter genesis_hash [1; 157; 252; 168] [mkop 81 [] false] = false.
Proof. vm_compute. auto. Qed.
Example C43_case : relevant [genesis_coinbase] genesis_script /\ population [genesis_coinbase] = 2 /\ all_populated [genesis_coinbase].
Proof.
  split; [|split; [reflexivity|]].
  - split; [discriminate|]. right. exists genesis_coinbase, (mkoutput 5000000000 genesis_script). split; [left; reflexivity|]. split; [left; reflexivity|]. split; [reflexivity|]. intros p r E. injection E as <- _. discriminate.
  - intros t i m [<-|[]] H. discriminate.
Qed.
(** FINDING, at the block filter interface: asked for two scripts, one of which
    is in the block, match_filter(scripts) answers no. *)
Theorem C43_scripts_refuted : ~ (forall hash txs f l s, compute_filter hash txs = Some f -> population txs < 2 ^ 43 -> In s l -> relevant txs s -> match_filters hash f l = true).
Proof.
  intros H. specialize (H genesis_hash [genesis_coinbase] [1; 157; 252; 168] [genesis_script; [mkop 81 [] false]] genesis_script (proj1 C43_vector) eq_refl (or_introl eq_refl) (proj1 C43_case)).
  vm_compute in H. discriminate.
Qed.
Print Assumptions C43_scripts_refuted.
