(** C59 BIP34 coinbase height, C60 BIP141 witness commitment. *)
From Verif Require Import Base Bytes MathModel StreamModel StreamSpec StreamProofs StreamProofs2 LCalc NumberModel NumberSpec NumberProofs OpModel OpProofs OpProofs2 OpProofs3 ChainModel RCalc ChainSpec ChainProofs ChainProofs4 ChainProps BlockModel BlockSpec BlockProofs BlockProofs2 BlockProofs3 BlockProps.

Lemma parse_first o r : op_wf o -> bytes_ok r -> parse_script (op_to_data o ++ r) = o :: parse_script r.
Proof.
  intros W Hr. unfold parse_script at 1. cbn [split_ops]. rewrite split_op_complete by exact W.
  pose proof (op_to_data_pos o W) as P. destruct (op_to_data o ++ r) eqn:E.
  - apply app_eq_nil in E as [E _]. rewrite E in P. cbn in P. lia.
  - f_equal. unfold parse_script. apply split_ops_fuel; [exact Hr| |lia]. rewrite <- E, app_length. unfold len in P. lia.
Qed.
Lemma parse_short d r : bytes_ok d -> bytes_ok r -> 0 <= len d <= 75 -> parse_script (len d :: d ++ r) = mkop (len d) d false :: parse_script r.
Proof.
  intros Hd Hr Hl. set (o := mkop (len d) d false).
  assert (W : op_wf o).
  { split; [reflexivity|]. split; [unfold byte_ok; cbn; lia|]. split; [exact Hd|]. cbn [code data o].
    repeat match goal with |- context [?x =? ?y] => destruct (Z.eqb_spec x y); [lia|] end. destruct (Z.leb_spec (len d) 75); lia. }
  change (len d :: d ++ r) with ((len d :: d) ++ r). replace (len d :: d) with (op_to_data o); [apply parse_first; assumption|].
  unfold op_to_data, o, push_one_size, push_two_size, push_four_size. cbn [underflow code data]. repeat match goal with |- context [?x =? ?y] => destruct (Z.eqb_spec x y); [lia|] end. reflexivity.
Qed.
Lemma short_op_data o : op_wf o -> 0 <= code o <= 75 -> op_to_data o = len (data o) :: data o /\ code o = len (data o).
Proof.
  intros (U & _ & _ & W) H. unfold op_to_data, push_one_size, push_two_size, push_four_size. rewrite U. revert W.
  repeat match goal with |- context [?x =? ?y] => destruct (Z.eqb_spec x y); [lia|] end. destruct (Z.leb_spec (code o) 75); [|lia]. intros ->. auto.
Qed.
Lemma ok_wf s : script_ok s -> script_wf s /\ parse_script (script_bytes s) = s /\ bytes_ok (script_bytes s).
Proof. intros H. destruct (script_ok_swf s H) as [W _]. split; [exact W|]. split; [apply parse_of_data, W|apply script_wf_ok, W]. Qed.

Lemma min_len d h : bytes_ok d -> minimal d -> script_value d = h -> 0 <= h < 2 ^ 63 -> len d <= 8.
Proof.
  intros Hd Hm Hv Hh. destruct (list_eq_dec Z.eq_dec d []) as [->|N]; [change (len (@nil Z)) with 0; lia|].
  pose proof (minimal_bound d Hd N Hm) as (M1 & M2). pose proof (magnitude_bound d Hd N) as M3.
  destruct (Z.le_gt_cases (len d) 8) as [|G]; [assumption|exfalso]. specialize (M2 ltac:(lia)).
  assert (2 ^ 63 <= 2 ^ (8 * (len d - 1) - 1)) by (apply Z.pow_le_mono_r; lia). unfold script_value in Hv. destruct (last d 0 <? 128); lia.
Qed.

(** ** C59 *)
(** The pattern holds exactly when the coinbase script bytes begin with a data
    push (opcode = length) of the shortest script number denoting the height. *)
Theorem C59_coinbase_pattern s height : script_ok s -> 0 <= height < 2 ^ 63 ->
  (is_coinbase_pattern s height = true <->
   exists d, bytes_ok d /\ script_value d = height /\ minimal d /\ starts_with (len d :: d) (script_bytes s)).
Proof.
  intros Ok Hh. destruct (ok_wf s Ok) as (W & P & B). unfold is_coinbase_pattern.
  rewrite (wrap_fits i64 height) by (try reflexivity; unfold fits; cbn; lia).
  destruct (encode_ok height) as (d & E & Hd & Hm & Hv); [unfold fits; cbn; lia|cbn; lia|]. rewrite E.
  pose proof (min_len d height Hd Hm Hv Hh) as L8. pose proof (len_nonneg d) as L0. split.
  - intros H. destruct s as [|o os]; [discriminate|]. apply andb_true_iff in H as [H1 H2]. apply bytes_eq_true in H2.
    unfold is_nominal_push, nominal_opcode_from_data, opcode_from_size, push_size_75 in H1. rewrite H2 in H1. destruct (Z.leb_spec (len d) 75); [|lia]. apply Z.eqb_eq in H1.
    exists d. split; [exact Hd|]. split; [exact Hv|]. split; [exact Hm|]. inversion W as [|? T|? ? Wo Ws]; subst.
    + destruct T as (_ & C & _). unfold any_invalid, op_verif in C. lia.
    + destruct (short_op_data o Wo ltac:(lia)) as [Ed Ec]. exists (ops_to_data os). unfold script_bytes, script_to_data, ops_to_data. cbn [app map concat]. rewrite Ed. reflexivity.
  - intros (d' & Hd' & Hv' & Hm' & r & Er). assert (d' = d) by (apply minimal_unique; congruence). subst d'. 
    assert (Br : bytes_ok r). { rewrite Er in B. apply bytes_ok_app in B. tauto. }
    rewrite <- P, Er. change ((len d :: d) ++ r) with (len d :: d ++ r). rewrite parse_short by (assumption || lia).
    unfold is_nominal_push, nominal_opcode_from_data, opcode_from_size, push_size_75. cbn [code data]. destruct (Z.leb_spec (len d) 75); [|lia]. rewrite Z.eqb_refl. apply bytes_eq_true. reflexivity.
Qed.
Print Assumptions C59_coinbase_pattern.

(** The reference (CScript() << height): heights up to 16 are small opcodes. *)
Definition reference_height_push (height : Z) (d : list Z) : list Z :=
  if height =? 0 then [0] else if height <=? 16 then [80 + height] else len d :: d.
(** Above 16 the rule is the reference's. *)
Theorem C59_matches_reference_partial s height d : script_ok s -> 16 < height < 2 ^ 63 ->
  bytes_ok d -> script_value d = height -> minimal d ->
  (is_coinbase_pattern s height = true <-> starts_with (reference_height_push height d) (script_bytes s)).
Proof.
  intros Ok Hh Hd Hv Hm. rewrite C59_coinbase_pattern by (assumption || lia). unfold reference_height_push.
  destruct (Z.eqb_spec height 0); [lia|]. destruct (Z.leb_spec height 16); [lia|]. split.
  - intros (d' & H1 & H2 & H3 & H4). assert (d' = d) by (apply minimal_unique; congruence). subst. exact H4.
  - intros SW. exists d. auto.
Qed.
Print Assumptions C59_matches_reference_partial.
(** At heights 1 to 16 it is not: the reference form is rejected and the form
    the reference rejects is accepted (test networks, BIP34 from height 1). *)
Theorem C59_small_heights_refuted height : 1 <= height <= 16 ->
  is_coinbase_pattern [mkop (80 + height) [] false; mkop 0 [] false] height = false /\
  is_coinbase_pattern [mkop 1 [height] false; mkop 0 [] false] height = true /\
  script_bytes [mkop (80 + height) [] false; mkop 0 [] false] = [80 + height; 0] /\
  starts_with (reference_height_push height [height]) (script_bytes [mkop (80 + height) [] false; mkop 0 [] false]) /\
  ~ starts_with (reference_height_push height [height]) (script_bytes [mkop 1 [height] false; mkop 0 [] false]).
Proof.
  intros H. assert (C : In height (map Z.of_nat (seq 1 16))).
  { apply in_map_iff. exists (Z.to_nat height). split; [lia|]. apply in_seq. lia. }
  cbn in C. repeat (destruct C as [<-|C]; [repeat split; try (vm_compute; reflexivity); [exists [0]; reflexivity|intros [r E]; cbn in E; discriminate]|]). destruct C.
Qed.
Print Assumptions C59_small_heights_refuted.

(** ** C60 *)
Lemma some_inj {A} (x y : A) : Some x = Some y -> x = y.
Proof. congruence. Qed.
Lemma committed_spec o : script_ok (out_script o) -> forall h, committed_hash o = Some h <-> commitment_bytes h (script_bytes (out_script o)).
Proof.
  intros Ok h. destruct (ok_wf _ Ok) as (W & P & B). unfold committed_hash, commitment_bytes. set (s := out_script o) in *. split.
  - intros H. destruct s as [|a [|b os]]; try discriminate.
    destruct ((code a =? 106) && (code b =? 36) && (len (data b) >=? 4) && bytes_eq (firstn 4 (data b)) witness_head) eqn:E; [|discriminate]. apply some_inj in H. rewrite <- H. clear H h.
    apply andb_true_iff in E as [E E4]. apply andb_true_iff in E as [E E3]. apply andb_true_iff in E as [E1 E2]. apply Z.eqb_eq in E1. apply Z.eqb_eq in E2. apply bytes_eq_true in E4.
    inversion W as [|? T|? ? Wa Ws]; subst. inversion Ws as [|? T|? ? Wb Wo]; subst; [destruct T as (_ & C & _); unfold any_invalid, op_verif in C; lia|].
    assert (Ea : op_to_data a = [106]).
    { destruct Wa as (U & _ & _ & L). unfold op_to_data. rewrite U, E1 in *. cbn in L |- *. destruct (data a); [reflexivity|unfold len in L; cbn in L; lia]. }
    destruct (short_op_data b Wb ltac:(lia)) as [Eb Ec].
    assert (L : length (data b) = 36%nat) by (unfold len in Ec; lia).
    split; [rewrite firstn_length, skipn_length; lia|]. exists (ops_to_data os). unfold script_bytes, script_to_data, ops_to_data. cbn [app map concat]. rewrite Ea, Eb, <- Ec, E2. cbn [app].
    do 2 f_equal. change (170 :: 33 :: 169 :: 237 :: firstn 32 (skipn 4 (data b)) ++ concat (map op_to_data os)) with (witness_head ++ firstn 32 (skipn 4 (data b)) ++ concat (map op_to_data os)).
    rewrite <- E4, app_assoc. f_equal. rewrite <- (firstn_skipn 4 (data b)) at 1. f_equal. symmetry. apply firstn_all2. rewrite skipn_length. lia.
  - intros (L & r & Er).
    assert (Br : bytes_ok ([106; 36; 170; 33; 169; 237] ++ h) /\ bytes_ok r) by (apply bytes_ok_app; rewrite <- Er; exact B). destruct Br as [Bh Br].
    set (d := witness_head ++ h). assert (Ld : len d = 36) by (unfold d, len; rewrite app_length, L; reflexivity).
    assert (Bd : bytes_ok d) by (inversion Bh as [|? ? _ X]; subst; inversion X as [|? ? _ Y]; subst; exact Y).
    assert (E : script_bytes s = op_to_data (mkop 106 [] false) ++ len d :: d ++ r).
    { rewrite Er, Ld. unfold d. cbn [app op_to_data underflow code data]. reflexivity. }
    rewrite <- P, E, parse_first, parse_short.
    + cbn [code data]. rewrite Ld. change (106 =? 106) with true. change (36 =? 36) with true. change (36 >=? 4) with true. cbn [andb].
      unfold d. rewrite firstn_app. change (firstn 4 witness_head) with witness_head. change (4 - length witness_head)%nat with 0%nat. rewrite firstn_O, app_nil_r.
      rewrite (proj2 (bytes_eq_true _ _) eq_refl). rewrite skipn_app. change (skipn 4 witness_head) with (@nil Z). change (4 - length witness_head)%nat with 0%nat. cbn [app skipn].
      rewrite firstn_all2 by lia. reflexivity.
    + exact Bd.
    + exact Br.
    + lia.
    + split; [reflexivity|]. split; [unfold byte_ok; cbn; lia|]. split; [constructor|reflexivity].
    + apply bytes_ok_cons. split; [unfold byte_ok; lia|]. apply bytes_ok_app. auto.
Qed.
Lemma first_committed_rev l : Forall (fun o => script_ok (out_script o)) l -> last_commitment l (first_committed (rev l)).
Proof.
  induction l as [|o l IH] using rev_ind; intros H.
  - constructor. intros o [].
  - apply Forall_app in H as [H1 H2]. inversion H2 as [|? ? H3 _]; subst. rewrite rev_app_distr. cbn [rev app first_committed].
    destruct (committed_hash o) as [h|] eqn:E.
    + apply (committed_spec o H3) in E. apply a_commitment; [exact E|]. intros o' [].
    + assert (N : forall h, ~ commitment_bytes h (script_bytes (out_script o))) by (intros h X; apply (committed_spec o H3) in X; congruence).
      specialize (IH H1). inversion IH as [l0 X E1 E2|l1 o1 l2 h X Y E1 E2]; subst.
      * constructor. intros o' Ho. apply in_app_or in Ho as [Ho|[<-|[]]]; [apply X, Ho|exact N].
      * rewrite <- app_assoc. cbn [app]. apply a_commitment; [exact X|]. intros o' Ho. apply in_app_or in Ho as [Ho|[<-|[]]]; [apply Y, Ho|exact N].
Qed.

(** The witness commitment is invalid exactly when the block has a witness and
    no commitment, or has a commitment that is not the digest of the witness
    root and the coinbase's 32 byte reserved value.  The witness hash of the
    coinbase counts as zero when it is serialized with a witness. *)
Theorem C60_witness_commitment D b first others : b_txs b = first :: others -> Forall tx_ok (b_txs b) ->
  forall commit, last_commitment (tx_outputs first) commit ->
  (is_invalid_witness_commitment D b = true <->
   match commit with
   | None => exists t, In t (b_txs b) /\ carries_witness t
   | Some h => ~ exists i rest_ins reserve, tx_inputs first = i :: rest_ins /\ in_witness i = [reserve] /\ len reserve = 32 /\
                 h = D (merkle_root D (map (tx_hash D true) (b_txs b)) ++ reserve)
   end).
Proof.
  intros Eb Ok commit Hc. unfold is_invalid_witness_commitment, is_empty_block, get_witness_commitment, get_witness_reservation, generate_merkle_root, transaction_hashes, block_is_segregated.
  pose proof Ok as Ok'. rewrite Eb in Ok |- *. change (len (first :: others) =? 0) with false. cbv iota.
  inversion Ok as [|? ? (_ & _ & _ & _ & _ & Oo & _) _]; subst.
  assert (LC : last_commitment (tx_outputs first) (first_committed (rev (tx_outputs first)))) by (apply first_committed_rev; eapply Forall_impl; [|exact Oo]; intros o (_ & X); exact X).
  assert (U : first_committed (rev (tx_outputs first)) = commit).
  { clear - LC Hc Oo. remember (tx_outputs first) as l. clear Heql.
    assert (G : forall l c, last_commitment l c -> forall l1 o l2 h, l = l1 ++ o :: l2 -> commitment_bytes h (script_bytes (out_script o)) -> (forall o', In o' l2 -> forall h', ~ commitment_bytes h' (script_bytes (out_script o'))) -> c = Some h).
    { clear. intros l c H l1 o l2 h E C N. destruct H as [l X|k1 p k2 g X Y].
      - exfalso. apply (X o) with h; [rewrite E; apply in_or_app; right; left; reflexivity|exact C].
      - assert (k2 = l2 /\ p = o) as [-> ->].
        { clear - E C N X Y. revert k1 E. induction l1 as [|z l1 IH]; intros [|y k1] E; cbn in E; injection E as E1 E2; subst.
          - auto.
          - exfalso. apply (N p) with g; [apply in_or_app; right; left; reflexivity|exact X].
          - exfalso. apply (Y o) with h; [apply in_or_app; right; left; reflexivity|exact C].
          - apply (IH k1 E2). }
        f_equal. destruct X as (L1 & r1 & R1), C as (L2 & r2 & R2). rewrite R1 in R2. cbn [app] in R2. injection R2 as R2. clear - L1 L2 R2. revert h L2 R2. revert L1. generalize 32%nat as n. induction g as [|x g IH]; intros n L1 [|y h] L2 R2; cbn in *; subst; try lia; [reflexivity|].
        injection R2 as -> R2. f_equal. injection L2 as L2. apply (IH (length g) eq_refl); assumption. }
    destruct Hc as [l X|l1 o l2 h X Y].
    - destruct LC as [l Z|l1 o l2 h Z W]; [reflexivity|]. exfalso. apply (X o) with h; [apply in_or_app; right; left; reflexivity|exact Z].
    - apply (G _ _ LC l1 o l2 h eq_refl X Y). }
  rewrite U. destruct commit as [h|].
  - unfold reserved_hash. destruct (tx_inputs first) as [|i ri] eqn:Ei.
    { split; [|reflexivity]. intros _ (i & ri & r & X & _). discriminate. }
    destruct (in_witness i) as [|e [|e2 w]] eqn:Ew.
    + split; [|reflexivity]. intros _ (j & rj & r & X & Y & _). injection X as <- <-. congruence.
    + destruct (Z.eqb_spec (len e) 32) as [Le|Le].
      * rewrite negb_true_iff, bytes_eq_false. split.
        -- intros N (j & rj & r & X & Y & L & Z). injection X as <- <-. rewrite Ew in Y. injection Y as <-. congruence.
        -- intros N E. apply N. exists i, ri, e. auto.
      * split; [|reflexivity]. intros _ (j & rj & r & X & Y & L & Z). injection X as <- <-. rewrite Ew in Y. injection Y as <-. congruence.
    + split; [|reflexivity]. intros _ (j & rj & r & X & Y & _). injection X as <- <-. congruence.
  - rewrite existsb_exists. rewrite Eb in Ok'. rewrite Forall_forall in Ok'. split; intros (t & Ht & X); exists t; (split; [exact Ht|]); destruct (Ok' t Ht) as (_ & _ & _ & _ & _ & _ & S); tauto.
Qed.
Print Assumptions C60_witness_commitment.
(** The hypothesis above is met: the commitment is a function of the block. *)
Theorem C60_commitment_exists_for_every_block b : Forall tx_ok (b_txs b) ->
  forall first others, b_txs b = first :: others -> exists commit, last_commitment (tx_outputs first) commit.
Proof.
  intros Ok first others E. rewrite E in Ok. inversion Ok as [|? ? (_ & _ & _ & _ & _ & Oo & _) _]; subst.
  eexists. apply first_committed_rev. eapply Forall_impl; [|exact Oo]. intros o (_ & X). exact X.
Qed.
Print Assumptions C60_commitment_exists_for_every_block.
