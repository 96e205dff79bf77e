(** C71: a block view over a raw buffer shows the block that the buffer holds,
    and identifies it as the block object does. *)
From Verif Require Import Base Bytes MathModel MathSpec MathProofs StreamModel StreamSpec StreamProofs StreamProofs2 LineProofs LCalc StateModel OpModel OpProofs OpProofs2 OpProofs3 ChainModel RCalc ChainSpec ChainProofs ChainProofs2 ChainProofs3 ChainProofs4 ChainProps BlockModel BlockSpec BlockProofs3 BlockProps2 ViewModel ViewSpec ViewProofs ViewProofs2 ViewProofs3 ViewProofs4 ViewProofs5 ViewProofs6.

(** A view is valid exactly when the buffer begins with the serialization of an
    indexable block; that block and the remaining bytes are unique. *)
Theorem C71_accepts w buffer : bytes_ok buffer -> len buffer < 2 ^ 63 ->
  (block_view w buffer <> [] <-> exists b after, buffer = wire_block b ++ after /\ indexed_block b).
Proof.
  intros Hb Hl. split.
  - intros Ne. destruct (block_exact w buffer Hb ltac:(clear - Hl; lia) Ne) as (b & after & E & V & _).
    assert (Hs : len (block_to_data true b) < 2 ^ 63) by (apply (f_equal len) in E; rewrite len_app in E; pose proof (len_nonneg after); clear - E Hl H; lia).
    pose proof (bviewable_indexed b V Hs) as I. exists b, after. split; [|exact I]. rewrite E. f_equal. apply block_wire, indexed_ok, I.
  - intros (b & after & -> & I). rewrite <- (proj1 (block_wire b (indexed_ok b I))) in *. apply block_valid; [apply indexed_bviewable, I|]. rewrite len_app in Hl. clear - Hl. lia.
Qed.
Print Assumptions C71_accepts.
Theorem C71_unique b after b' after' : indexed_block b -> indexed_block b' -> len (wire_block b ++ after) < 2 ^ 63 ->
  wire_block b ++ after = wire_block b' ++ after' -> b = b' /\ after = after'.
Proof.
  intros I I'. pose proof (block_wire b (indexed_ok b I)) as [<- _]. pose proof (block_wire b' (indexed_ok b' I')) as [<- _]. intros Hl E. rewrite len_app in Hl.
  apply block_unique; [apply block_ok_wf, indexed_ok, I|apply block_ok_wf, indexed_ok, I'|clear - Hl; lia|exact E].
Qed.
Print Assumptions C71_unique.
(** An indexable block is one the object codec reads back from the same bytes. *)
Theorem C71_codec_accepts b after : indexed_block b -> len (wire_block b ++ after) < 2 ^ 63 ->
  exists s, block_from_data true (fresh (wire_block b ++ after)) = (b, s) /\ valid s = true /\ rest s = after.
Proof.
  intros I Hl. pose proof (indexed_ok b I) as Ok. pose proof (block_wire b Ok) as [E _]. rewrite <- E in *. rewrite len_app in Hl.
  destruct (C17_block_round_trip b [] after Ok ltac:(clear - Hl; lia)) as (s & A & B & C & _). exists s. auto.
Qed.
Print Assumptions C71_codec_accepts.

Section Shown.
Variable D : list Z -> list Z.
Variables (b : block) (after buffer : list Z).
Hypothesis I : indexed_block b.
Hypothesis E : buffer = wire_block b ++ after.
Hypothesis Hb : bytes_ok buffer.
Hypothesis Hl : len buffer < 2 ^ 63.
Lemma E' : buffer = block_to_data true b ++ after.
Proof. rewrite E. f_equal. symmetry. apply block_wire, indexed_ok, I. Qed.
Lemma V' : bviewable b. Proof. apply indexed_bviewable, I. Qed.
Lemma Hb' : bytes_ok (block_to_data true b ++ after). Proof. rewrite <- E'. exact Hb. Qed.
Lemma Hl' : len (block_to_data true b) + len after < 2 ^ 64.
Proof. rewrite <- len_app, <- E'. clear - Hl. lia. Qed.
Lemma ok_in t : In t (b_txs b) -> tx_ok t.
Proof. intros Ht. destruct I as (_ & _ & _ & F). rewrite Forall_forall in F. apply F, Ht. Qed.

(** Every transaction in order, with its counts, version, locktime, hashes,
    serializations and sizes. *)
Theorem C71_transactions w : length (block_view w buffer) = length (b_txs b) /\
  forall k t, nth_error (b_txs b) k = Some t -> exists v, nth_error (block_view w buffer) k = Some v /\
    v_in_count v = len (tx_inputs t) /\ v_out_count v = len (tx_outputs t) /\
    view_version buffer v = tx_version t /\ view_locktime buffer v = tx_locktime t /\
    v_segregated v = tx_segregated t && w /\
    view_hash D buffer false v = D (wire_legacy t) /\
    view_hash D buffer true v =
      (if tx_segregated t && w then (if (k =? 0)%nat then zeros 32 else D (wire_segwit t)) else D (wire_legacy t)) /\
    (forall x, view_data buffer x v = (if x && w then wire_tx t else wire_legacy t) /\
               view_size x v = len (if x && w then wire_tx t else wire_legacy t)) /\
    v_in_table v = input_table w t /\ v_out_table v = output_table t.
Proof.
  pose proof V' as V. pose proof Hb' as B. pose proof Hl' as L. pose proof E' as EE.
  split; [rewrite EE; eapply shown_length, block_shown; assumption|]. intros k t Et. destruct (shown_at w b after k t V B L Et) as (v & pre & post & Ev & Eb & Sh & Vt & Sz).
  pose proof (ok_in t (nth_error_In _ _ Et)) as Ok. destruct (tx_wire t Ok) as [W1 W2].
  exists v. rewrite EE. split; [exact Ev|]. rewrite Eb. split; [apply (sh_ins _ _ _ _ _ Sh)|]. split; [apply (sh_outs _ _ _ _ _ Sh)|].
  split; [eapply version_shown; eassumption|]. split; [eapply (locktime_shown D); eassumption|]. split; [apply (sh_seg _ _ _ _ _ Sh)|].
  split; [rewrite (hash_shown D _ w pre post t v Vt Sh Sz); cbn [andb]; rewrite W2; reflexivity|].
  split; [rewrite (hash_shown D _ w pre post t v Vt Sh Sz); cbn [andb]; rewrite W2|].
  { destruct (tx_segregated t && w) eqn:Q; [|reflexivity]. apply andb_true_iff in Q as [Q _]. rewrite W1. unfold wire_tx. rewrite Q. reflexivity. }
  split.
  - intros x. assert (K : tx_to_data (x && w) t = if x && w then wire_tx t else wire_legacy t) by (destruct (x && w); assumption).
    split; [rewrite (data_shown D _ w pre post t v Vt Sh); exact K|rewrite (size_shown D _ w pre post t v Vt Sh), K; reflexivity].
  - assert (Hsum : forall A (f g : A -> Z) l, (forall a, In a l -> f a = g a) -> sumz (map f l) = sum (map g l)).
    { clear. intros A f g l. induction l as [|a l IH]; intros Q; [reflexivity|]. cbn [map]. unfold sumz, sum in *. cbn [fold_right]. rewrite (Q a) by (left; reflexivity). rewrite IH by (intros; apply Q; right; assumption). reflexivity. }
    pose proof Ok as (_ & _ & _ & Oi & _ & Oo & _). rewrite Forall_forall in Oi, Oo. split.
    + rewrite (sh_it _ _ _ _ _ Sh). unfold input_table. f_equal.
      * apply Hsum. intros i Hi. unfold in_entry, prefixed_script. rewrite script_wire; [reflexivity|]. apply script_ok_swf, (Oi i Hi).
      * destruct (tx_segregated t && w) eqn:Q; [|reflexivity]. apply andb_true_iff in Q as [Q _]. unfold wit_bytes. rewrite Q. f_equal. unfold wits. apply concat_wire. apply Forall_forall. intros i Hi. apply witness_wire, (input_ok_wf i (Oi i Hi)).
    + rewrite (sh_ot _ _ _ _ _ Sh). unfold output_table. apply Hsum. intros o Ho. unfold out_entry, prefixed_script. destruct (Oo o Ho) as [Hv Hs].
      rewrite script_wire by apply script_ok_swf, Hs. rewrite <- len_write_variable, compact by exact Hv. reflexivity.
Qed.

(** The block: header hash and commitment, and the witness-free bytes and size.
    With witnesses, data and size are those of the whole buffer. *)
Theorem C71_block w :
  blockview_hash D buffer = D (wire_header (b_header b)) /\
  header_merkle_root buffer (block_view w buffer) = h_merkle (b_header b) /\
  blockview_data buffer false (block_view w buffer) = legacy_block b /\
  blockview_size buffer false (block_view w buffer) = len (legacy_block b) /\
  blockview_data buffer true (block_view w buffer) = buffer /\
  blockview_size buffer true (block_view w buffer) = len buffer /\
  blockview_segregated w (block_view w buffer) = w && existsb tx_segregated (b_txs b).
Proof.
  pose proof V' as V. pose proof Hb' as B. pose proof Hl' as L. pose proof E' as EE. pose proof (indexed_ok b I) as Ok. destruct V as (Oh & Ne & V3 & V4). assert (V : bviewable b) by exact (conj Oh (conj Ne (conj V3 V4))).
  assert (Hh : sub_bytes buffer 0 80 = wire_header (b_header b)).
  { rewrite EE. unfold block_to_data. rewrite <- app_assoc. rewrite sub_bytes_first by (symmetry; apply header_data_len, Oh). reflexivity. }
  assert (Hd : blockview_to_data buffer false (block_view w buffer) = legacy_block b).
  { unfold blockview_to_data. change header_size with 80. rewrite Hh. rewrite EE. rewrite (count_shown w b after V B L), (datas_shown D w b after V B L).
    rewrite <- (proj2 (block_wire b Ok)). unfold block_to_data. reflexivity. }
  assert (Hs : blockview_size buffer false (block_view w buffer) = len (legacy_block b)).
  { rewrite <- (proj2 (block_wire b Ok)). unfold blockview_size. rewrite EE. rewrite (count_shown w b after V B L), (sizes_shown D w b after V B L), total_sum.
    unfold block_to_data. rewrite !len_app, header_data_len by exact Oh. rewrite len_write_variable. change header_size with 80.
    assert (K : forall l, sumz (map (fun t => len (tx_to_data false t)) l) = len (concat (map (tx_to_data false) l))); [|rewrite K; clear; lia].
    clear. induction l as [|a l IH]; [reflexivity|]. cbn [map concat]. unfold sumz in *. cbn [fold_right]. rewrite IH, len_app. reflexivity. }
  split; [unfold blockview_hash; change header_size with 80; rewrite Hh; reflexivity|].
  split; [|split; [|split; [exact Hs|split; [|split; [reflexivity|]]]]].
  - unfold header_merkle_root. assert (Hv : block_view w buffer <> []) by (rewrite EE; apply block_valid; assumption). destruct (block_view w buffer); [congruence|].
    rewrite EE. unfold block_to_data, header_to_data. destruct Oh as (_ & (L1 & _) & (L2 & _) & _).
    rewrite <- !app_assoc. rewrite (app_assoc (write_le 4 _) (h_previous _)). apply sub_at; [|unfold len; rewrite L2; reflexivity].
    rewrite len_app, len_le4. unfold len. rewrite L1. reflexivity.
  - unfold blockview_data. rewrite Hs, Hd. apply fill_exact. reflexivity.
  - unfold blockview_data, blockview_size, blockview_to_data. apply fill_exact. reflexivity.
  - unfold blockview_segregated. destruct w; [|reflexivity]. cbn [andb].
    assert (K : forall A (f : A -> bool) l, existsb f l = existsb (fun x => x) (map f l)) by (clear; intros A f l; induction l as [|a l IH]; cbn; [reflexivity|rewrite IH; reflexivity]).
    rewrite (K _ v_segregated), (K _ tx_segregated), EE, (segregated_shown true b after V B L). f_equal. apply map_ext. intros t. apply andb_true_r.
Qed.

Lemma size_sized t : In t (b_txs b) -> tx_size false t = len (tx_to_data false t).
Proof.
  intros Ht. pose proof (ok_in t Ht) as Ok. apply tx_sized; [apply twf_hashes, tx_ok_wf, Ok|].
  pose proof (tx_small b after t Ht Hl') as K. rewrite tx_data_len in *. cbn [andb] in *. pose proof (len_nonneg (wits (tx_inputs t))). destruct (tx_segregated t); clear - K H; lia.
Qed.
(** A 64 byte transaction has one input. *)
Lemma sixty_four t : tx_ok t -> tx_inputs t <> [] -> len (tx_to_data false t) = 64 -> exists i, tx_inputs t = [i].
Proof.
  intros Ok Ne L. rewrite tx_data_len in L. cbn [andb] in L. destruct (tx_inputs t) as [|i [|j l]] eqn:Et; [congruence|eauto|]. exfalso.
  destruct Ok as (_ & _ & _ & F & _). rewrite Et in F. inversion F as [|? ? Fi F']; subst. inversion F' as [|? ? Fj _]; subst.
  assert (K : forall x, input_ok x -> 40 <= len (input_to_data x)).
  { clear. intros x ((L & _) & _). unfold input_to_data. rewrite !len_app, !len_le4. unfold len at 1. rewrite L. pose proof (len_nonneg (script_to_data true (in_script x))). lia. }
  cbn [map concat] in L. rewrite !len_app in L. pose proof (K i Fi). pose proof (K j Fj). pose proof (variable_size_pos (len (i :: j :: l))). pose proof (variable_size_pos (len (tx_outputs t))).
  pose proof (len_nonneg (concat (map input_to_data l))). pose proof (len_nonneg (concat (map output_to_data (tx_outputs t)))). clear - L H H0 H1 H2 H3 H4. lia.
Qed.

(** The view identifies the block exactly as the block object does: the same
    merkle commitment and malleation verdict. *)
Theorem C71_identify w : blockview_identify D buffer (block_view w buffer) = identify D b.
Proof.
  pose proof V' as V. pose proof Hb' as B. pose proof Hl' as L. pose proof E' as EE. pose proof (C71_block w) as (_ & Hm & _).
  destruct (b_txs b) as [|t l] eqn:Et; [destruct V as (_ & Ne & _); congruence|].
  destruct (first_shown w b after V B L t l Et) as (v & vl & pre & post & Ev & Eb & Sh & Vt & Sz). rewrite <- EE in Ev, Eb.
  assert (Hx : forall x, blockview_hashes D buffer false (block_view w buffer) = x -> x = transaction_hashes D false b).
  { intros x <-. rewrite EE, (txids_shown D w b after V B L). unfold transaction_hashes. apply map_ext_in. intros u _. unfold tx_hash. rewrite andb_false_r. reflexivity. }
  specialize (Hx _ eq_refl).
  assert (H64 : blockview_malleated64 buffer (block_view w buffer) = is_malleated64 b).
  { unfold is_malleated64, is_malleable64, is_first_non_coinbase. rewrite Et. cbn [nonempty andb].
    assert (Ha : forallb (fun x => view_size false x =? 2 * 32) (block_view w buffer) = forallb (fun u => tx_size false u =? 2 * 32) (t :: l)).
    { assert (K : forall A (f : A -> Z) q, forallb (fun x => f x =? 2 * 32) q = forallb (fun z => z =? 2 * 32) (map f q)) by (clear; intros A f q; induction q as [|a q IH]; cbn [map forallb]; [reflexivity|rewrite IH; reflexivity]).
      rewrite (K _ (view_size false)), (K _ (tx_size false)). f_equal. rewrite EE, (sizes_shown D w b after V B L), <- Et. apply map_ext_in. intros u Hu. symmetry. apply size_sized, Hu. }
    unfold blockview_malleated64. rewrite Ev. rewrite <- Ev. rewrite Ha. destruct (forallb _ (t :: l)) eqn:Q; [|rewrite !andb_false_r; reflexivity]. rewrite !andb_true_r. f_equal.
    cbn [forallb] in Q. apply andb_true_iff in Q as [Q _]. apply Z.eqb_eq in Q. assert (Ht : In t (b_txs b)) by (rewrite Et; left; reflexivity). rewrite (size_sized t Ht) in Q.
    destruct (sixty_four t (ok_in t Ht) ltac:(apply Vt) Q) as (i & Ei). rewrite Eb. rewrite (null_point_shown D _ w pre post t v Vt Sh i [] Ei). unfold is_coinbase. rewrite Ei. reflexivity. }
  unfold blockview_identify, identify. rewrite Ev. rewrite <- Ev. unfold blockview_malleated, blockview_malleated32_size, is_malleated, is_malleated32, malleated32_size, is_invalid_merkle_root, generate_merkle_root, blockview_root.
  rewrite H64, Hx, Hm. reflexivity.
Qed.

(** With witnesses, and in a block whose first transaction alone is a coinbase,
    the view judges the witness commitment as the block object does. *)
Theorem C71_commitment : is_first_non_coinbase b = false -> is_extra_coinbases b = false ->
  blockview_invalid_commitment D buffer true (block_view true buffer) = is_invalid_witness_commitment D b.
Proof.
  intros F X. pose proof V' as V. pose proof Hb' as B. pose proof Hl' as L. pose proof E' as EE. pose proof (C71_block true) as (_ & _ & _ & _ & _ & _ & Hs).
  destruct (b_txs b) as [|t l] eqn:Et; [destruct V as (_ & Ne & _); congruence|].
  destruct (first_shown true b after V B L t l Et) as (v & vl & pre & post & Ev & Eb & Sh & Vt & Sz). rewrite <- EE in Ev, Eb.
  unfold is_first_non_coinbase, is_extra_coinbases in F, X. rewrite Et in F, X. apply negb_false_iff in F.
  assert (Hx : blockview_hashes D buffer true (block_view true buffer) = transaction_hashes D true b).
  { rewrite EE, (hashes_shown D true b after V B L). unfold transaction_hashes. rewrite Et. cbn [by_place map andb]. f_equal.
    - unfold tx_hash. rewrite F. rewrite !andb_true_r. destruct (tx_segregated t) eqn:Q; [reflexivity|]. f_equal. symmetry. unfold tx_to_data. rewrite Q. reflexivity.
    - apply map_ext_in. intros u Hu. unfold tx_hash. rewrite !andb_true_r. assert (Q : is_coinbase u = false).
      { destruct (is_coinbase u) eqn:Q; [|reflexivity]. rewrite <- X. symmetry. apply existsb_exists. exists u. auto. }
      rewrite Q, andb_false_r. destruct (tx_segregated u) eqn:Q2; [reflexivity|]. f_equal. symmetry. unfold tx_to_data. rewrite Q2. reflexivity. }
  assert (Hs' : blockview_segregated true (block_view true buffer) = block_is_segregated b) by (rewrite Hs; unfold block_is_segregated; rewrite Et; reflexivity).
  destruct (tx_inputs t) as [|i li] eqn:Ei; [destruct Vt as (_ & Ne & _); congruence|].
  unfold blockview_invalid_commitment, is_invalid_witness_commitment, is_empty_block, get_witness_commitment, get_witness_reservation, generate_merkle_root, blockview_root.
  rewrite Hs', Hx, Ev, Et, Ei. rewrite Eb at 1. rewrite (commitment_shown D _ true pre post t v Vt Sh Sz).
  change (len (t :: l) =? 0) with false. cbv iota. destruct (first_committed _); [|reflexivity].
  rewrite Eb. rewrite (reservation_shown D _ true pre post t v Vt Sh i li Ei). reflexivity.
Qed.
End Shown.
Print Assumptions C71_transactions.
Print Assumptions C71_block.
Print Assumptions C71_identify.
Print Assumptions C71_commitment.

(** The sample block meets the hypotheses. *)
Example sample_indexed : indexed_block sample_block /\ bytes_ok (wire_block sample_block ++ [1; 2; 3]) /\ len (wire_block sample_block ++ [1; 2; 3]) < 2 ^ 63 /\
  length (block_view true (wire_block sample_block ++ [1; 2; 3])) = 2%nat.
Proof.
  split; [|split; [|split; vm_compute; reflexivity]].
  - pose proof (proj1 sample_block_ok) as (A & B & C). split; [exact A|]. split; [discriminate|]. split; [exact B|].
    cbn [sample_block b_txs] in *. inversion C as [|? ? [C1 _] C']; subst. inversion C' as [|? ? [C2 _] _]; subst.
    constructor; [|constructor; [|constructor]].
    + split; [exact C1|]. split; [discriminate|]. split; [discriminate|]. split; [repeat constructor; vm_compute; discriminate|]. split; [repeat constructor; vm_compute; discriminate|].
      intros _. apply some_spec. vm_compute. reflexivity.
    + split; [exact C2|]. split; [discriminate|]. split; [discriminate|]. split; [repeat constructor; vm_compute; discriminate|]. split; [repeat constructor; vm_compute; discriminate|].
      intros (i & [<-|[<-|[]]] & Q); cbn in Q; congruence.
  - apply Forall_forall. assert (K : forallb (fun b => (0 <=? b) && (b <? 256)) (wire_block sample_block ++ [1; 2; 3]) = true) by (vm_compute; reflexivity).
    intros x Hx. rewrite forallb_forall in K. specialize (K x Hx). unfold byte_ok. lia.
Qed.

(** The object codec reads blocks that a view refuses: one with a transaction
    whose witness stacks hold only empty elements. *)
Theorem C71_empty_elements_refuted : let b := mkblock (b_header sample_block) [empty_element_tx] in
  (exists s, block_from_data true (fresh (block_to_data true b)) = (b, s) /\ valid s = true) /\
  block_view true (block_to_data true b) = [] /\ block_view false (block_to_data true b) = [].
Proof. cbv zeta. split; [eexists; split; vm_compute; reflexivity|]. split; vm_compute; reflexivity. Qed.
Print Assumptions C71_empty_elements_refuted.
(** Bytes after the block count in the witnessed size and serialization. *)
Theorem C71_trailing_refuted : exists b after, indexed_block b /\ let buffer := wire_block b ++ after in
  block_view true buffer <> [] /\ blockview_size buffer true (block_view true buffer) <> len (wire_block b) /\
  blockview_data buffer true (block_view true buffer) <> wire_block b.
Proof. exists sample_block, [1; 2; 3]. split; [apply sample_indexed|]. cbv zeta. split; [vm_compute; discriminate|]. split; vm_compute; discriminate. Qed.
Print Assumptions C71_trailing_refuted.

(** A block with a coinbase that reserves a witness value meets the hypotheses of C71_commitment. *)
Definition coinbase_block : block := mkblock (b_header sample_block)
  [mktx 1 [mkinput (zeros 32) 4294967295 push_true 4294967295 [zeros 32]] [mkoutput 5000 push_true] 0 true].
Example coinbase_block_indexed : indexed_block coinbase_block /\ is_first_non_coinbase coinbase_block = false /\ is_extra_coinbases coinbase_block = false.
Proof.
  split; [|split; reflexivity]. split; [apply sample_block_ok|]. split; [discriminate|]. split; [rng|]. constructor; [|constructor].
  assert (P : script_ok push_true) by (apply (script_ok_by [81]); vm_compute; reflexivity).
  split; [|split; [discriminate|split; [discriminate|split; [repeat constructor; vm_compute; discriminate|split; [repeat constructor; vm_compute; discriminate|intros _; apply some_spec; vm_compute; reflexivity]]]]].
  split; [rng|]. split; [rng|]. split; [rng|]. split; [|split; [rng|split; [constructor; [split; [rng|exact P]|constructor]|]]].
  - constructor; [|constructor]. split; [apply hash_ok_by; vm_compute; reflexivity|]. split; [rng|]. split; [exact P|]. split; [rng|]. split; [rng|].
    constructor; [|constructor]. split; [apply (hash_ok_by (zeros 32)); vm_compute; reflexivity|vm_compute; discriminate].
  - split; [intros _|reflexivity]. eexists. split; [left; reflexivity|discriminate].
Qed.
