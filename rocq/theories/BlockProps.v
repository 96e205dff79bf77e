(** C26 merkle root and malleation, C27 merkle branches, C28 ordering and double
    spends.  Vocabulary: BlockSpec.v.  [D] is any function with 32 byte digests;
    "or collision" exhibits two byte strings with one digest. *)
From Verif Require Import Base Bytes MathModel StreamModel StreamSpec StreamProofs StreamProofs2 LCalc OpModel OpProofs OpProofs2 OpProofs3 ChainModel RCalc ChainSpec ChainProofs ChainProofs4 ChainProps BlockModel BlockSpec BlockProofs BlockProofs2 BlockProofs3.

(** ** C26 *)

(** merkle_root is the root of the tree over the leaves (zero when empty). *)
Theorem C26_merkle_root_is_tree_root D leaves r :
  (leaves <> [] -> (merkle_root D leaves = r <-> exists height, tree_root D height leaves r)) /\
  merkle_root D [] = repeat 0 32.
Proof. split; [intros H; apply tree_root_iff, H|reflexivity]. Qed.
Print Assumptions C26_merkle_root_is_tree_root.

(** A block reported malleated (type 32) repeats its last hashes, and the block
    without the repeated transactions is shorter, not empty and has the same root. *)
Theorem C26_malleated_has_shorter_original D b : is_malleated32 D b = true ->
  let n := malleated32_size D b in
  let original := firstn (Z.to_nat (len (b_txs b) - n)) (b_txs b) in
  0 < n /\ 0 < len original < len (b_txs b) /\
  merkle_root D (map (tx_hash D false) original) = merkle_root D (map (tx_hash D false) (b_txs b)).
Proof.
  intros H. cbv zeta. unfold is_malleated32 in H. apply negb_true_iff, Z.eqb_neq in H. unfold malleated32_size in *. cbv zeta in *.
  destruct (malleated_sound D _ H) as (A & T & Eh & LT & NT & NA & d & r & T1 & T2).
  set (n := malleated32_loop (S (length (transaction_hashes D false b))) 1 (transaction_hashes D false b)) in *. unfold transaction_hashes in Eh.
  assert (LH : len (b_txs b) = len A + 2 * len T).
  { unfold len. rewrite <- (map_length (tx_hash D false)), Eh, !app_length. lia. }
  assert (0 < len T) by (destruct T; [congruence|unfold len; cbn; lia]). assert (0 < len A) by (destruct A; [congruence|unfold len; cbn; lia]).
  split; [lia|]. split; [unfold len at 1 3; rewrite firstn_length; unfold len in *; lia|].
  rewrite <- firstn_map, Eh. rewrite app_assoc. replace (Z.to_nat (len (b_txs b) - n)) with (length (A ++ T)) by (rewrite app_length; unfold len in *; lia).
  rewrite firstn_app, firstn_all, Nat.sub_diag, app_nil_r. rewrite <- app_assoc, <- Eh. unfold transaction_hashes in T2.
  rewrite (proj2 (tree_root_iff D (A ++ T) r ltac:(destruct A; discriminate)) (ex_intro _ d T1)).
  symmetry. apply tree_root_iff; [|exists d; exact T2]. rewrite Eh. destruct A; discriminate.
Qed.
Print Assumptions C26_malleated_has_shorter_original.

(** Two leaf lists with trees of equal height and equal root have the same
    complete tree: they differ at most in which copies of a last node they
    write out.  Lists without repeats are then equal. *)
Theorem C26_equal_height_equal_root D height l m r : digest32 D ->
  Forall (fun h => length h = 32%nat) l -> Forall (fun h => length h = 32%nat) m ->
  tree_root D height l r -> tree_root D height m r ->
  ((exists t, tree_of height l t /\ tree_of height m t) \/ collision D) /\
  (NoDup l -> NoDup m -> l = m \/ collision D).
Proof. intros D32 Hl Hm T1 T2. split; [eapply same_tree; eassumption|]. intros Nl Nm. eapply same_height; eassumption. Qed.
Print Assumptions C26_equal_height_equal_root.

(** The header commits to the transactions of a checked block: two blocks that
    pass check with the same merkle root have the same transactions up to
    witnesses, unless the digest collides or one consists of 64 byte
    transactions only (which is_malleable64 reports). *)
Theorem C26_checked_commitment_is_unique D b c : digest32 D -> block_fits b -> block_fits c ->
  block_check D true b = success -> block_check D true c = success ->
  h_merkle (b_header b) = h_merkle (b_header c) ->
  map strip (b_txs b) = map strip (b_txs c) \/
  (is_malleable64 b = true /\ all_64_bytes b) \/ (is_malleable64 c = true /\ all_64_bytes c) \/ collision D.
Proof.
  intros D32 Fb Fc Cb Cc E.
  destruct (distinct_or D true b Fb Cb) as [Nb|C]; [|auto]. destruct (distinct_or D true c Fc Cc) as [Nc|C]; [|auto].
  apply check_success in Cb as (B1 & _ & _ & _ & _ & _ & B2 & B3). apply check_success in Cc as (C1 & _ & _ & _ & _ & _ & C2 & C3).
  cbn [andb] in B2, C2. unfold is_invalid_merkle_root in *. apply negb_false_iff, bytes_eq_true in B2. apply negb_false_iff, bytes_eq_true in C2.
  unfold is_empty_block in *. apply Z.eqb_neq in B1. apply Z.eqb_neq in C1.
  assert (Zb : b_txs b <> []) by (intros X; rewrite X in B1; apply B1; reflexivity). assert (Zc : b_txs c <> []) by (intros X; rewrite X in C1; apply C1; reflexivity).
  destruct (same_root D D32 (transaction_hashes D false b) (transaction_hashes D false c)) as [S|[S|[S|S]]]; try assumption.
  - apply hashes_32, D32.
  - apply hashes_32, D32.
  - unfold transaction_hashes. destruct (b_txs b); [congruence|discriminate].
  - unfold transaction_hashes. destruct (b_txs c); [congruence|discriminate].
  - unfold generate_merkle_root in *. congruence.
  - destruct (same_strips D b c Fb Fc) as [S'|S']; try assumption; [..|left; exact S'|right; right; right; exact S'].
    + eapply Forall_impl; [|exact B3]. intros t. apply tx_check_inputs.
    + eapply Forall_impl; [|exact C3]. intros t. apply tx_check_inputs.
  - destruct (inner_64 D b Fb S) as [A|C]; [|auto]. right. left. split; [apply malleable64_spec; auto|exact A].
  - destruct (inner_64 D c Fc S) as [A|C]; [|auto]. right. right. left. split; [apply malleable64_spec; auto|exact A].
  - auto.
Qed.
Print Assumptions C26_checked_commitment_is_unique.

(** Detection is complete for a single copied node: when the number of original
    transactions is width times an odd number above one (width a power of two)
    and the last width transactions are appended again. *)
Theorem C26_single_copy_detected D b k e A T : 0 <= k -> 1 <= e ->
  map (tx_hash D false) (b_txs b) = A ++ T ++ T -> len T = 2 ^ k -> len A = 2 ^ k * (2 * e) ->
  is_malleated32 D b = true.
Proof.
  intros Hk He Eh LT LA. unfold is_malleated32, malleated32_size. cbv zeta. unfold transaction_hashes. rewrite Eh. set (hs := A ++ T ++ T).
  assert (Pk : 0 < 2 ^ k) by (apply pow2_pos; lia).
  assert (Lh : len hs = 2 ^ k * (2 * e + 2)) by (unfold hs, len in *; rewrite !app_length; lia).
  assert (MS : is_malleable32_set (len hs - 2 ^ k) (2 ^ k) = true).
  { replace (len hs - 2 ^ k) with (2 ^ k * (2 * e + 1)) by lia. unfold is_malleable32_set. clear - Hk He Pk.
    assert (G : forall f i, 0 <= i <= k -> k - i < Z.of_nat f -> malleable32_loop f (2 ^ i) (2 ^ (k - i) * (2 * e + 1)) (2 ^ k) = true).
    { induction f as [|f IH]; intros i Hi Hf; [lia|]. cbn [malleable32_loop].
      rewrite (proj2 (Z.leb_le (2 ^ i) (2 ^ k))) by (apply Z.pow_le_mono_r; lia).
      destruct (Z.eq_dec i k) as [->|Ne].
      - rewrite Z.sub_diag. change (2 ^ 0) with 1. rewrite Z.mul_1_l. replace (Z.odd (2 * e + 1)) with true by (symmetry; apply Z.odd_spec; exists e; reflexivity).
        rewrite Z.eqb_refl. cbn [andb]. destruct (Z.eqb_spec (2 * e + 1) 1); [lia|reflexivity].
      - replace (2 ^ (k - i)) with (2 * 2 ^ (k - (i + 1))) by (rewrite <- Z.pow_succ_r by lia; f_equal; lia).
        rewrite <- Z.mul_assoc. replace (Z.odd (2 * (2 ^ (k - (i + 1)) * (2 * e + 1)))) with false by (rewrite Z.odd_mul; reflexivity).
        rewrite Z.mul_comm with (n := 2) (m := 2 ^ (k - (i + 1)) * (2 * e + 1)), Z.div_mul by lia.
        replace (2 ^ i * 2) with (2 ^ (i + 1)) by (rewrite Z.pow_add_r by lia; lia). apply IH; lia. }
    specialize (G (S (Z.to_nat (2 ^ k))) 0). rewrite Z.sub_0_r in G. apply G; [lia|].
    assert (k < 2 ^ k) by (apply Z.pow_gt_lin_r; lia). lia. }
  assert (MW : is_malleated32_width (2 ^ k) hs = true).
  { unfold is_malleated32_width. destruct (Z.eqb_spec (2 ^ k) 0); [lia|]. destruct (Z.gtb_spec (2 ^ k) (len hs / 2)) as [X|_].
    - exfalso. rewrite Lh in X. replace (2 ^ k * (2 * e + 2)) with (2 ^ k * (e + 1) * 2) in X by lia. rewrite Z.div_mul in X by lia. nia.
    - cbn [orb]. unfold hs. rewrite !rev_app_distr, <- app_assoc. replace (Z.to_nat (2 ^ k)) with (length (rev T)) by (rewrite rev_length; unfold len in LT; lia).
      rewrite skipn_app, skipn_all, Nat.sub_diag. cbn [app skipn]. generalize (rev T ++ rev A) at 1 as y. generalize (rev A) as z. induction (rev T) as [|x l IH]; intros z y; [reflexivity|].
      cbn [app length repeats]. rewrite (proj2 (bytes_eq_true x x) eq_refl). cbn [andb]. apply IH. }
  assert (G : forall f i, 0 <= i <= k -> k - i < Z.of_nat f -> malleated32_loop f (2 ^ i) hs <> 0).
  { induction f as [|f IH]; intros i Hi Hf; [lia|]. cbn [malleated32_loop].
    rewrite (proj2 (Z.leb_le (2 ^ i) (len hs / 2))).
    2:{ rewrite Lh. replace (2 ^ k * (2 * e + 2)) with (2 ^ k * (e + 1) * 2) by lia. rewrite Z.div_mul by lia. assert (2 ^ i <= 2 ^ k) by (apply Z.pow_le_mono_r; lia). nia. }
    destruct (Z.eq_dec i k) as [->|Ne]; [rewrite MS, MW; cbn [andb]; lia|].
    destruct (is_malleable32_set _ _ && _); [pose proof (pow2_pos i); lia|]. replace (2 ^ i * 2) with (2 ^ (i + 1)) by (rewrite Z.pow_add_r by lia; lia). apply IH; lia. }
  apply negb_true_iff, Z.eqb_neq. change 1 with (2 ^ 0). apply G; [lia|]. assert (k < 2 ^ k) by (apply Z.pow_gt_lin_r; lia).
  fold hs. unfold len in Lh. nia.
Qed.
Print Assumptions C26_single_copy_detected.

(** The full claim fails: a copy made at two levels of the tree is missed.  For
    any five transactions [cb;a;b;c;x] the seven transactions [cb;a;b;c;x;x;x]
    have the same root under the same header, yet are not reported malleated, so
    identify accepts both (CVE-2012-2459). *)
Theorem C26_two_level_copy_refuted D h cb a b c x : is_coinbase cb = true ->
  let original := mkblock h [cb; a; b; c; x] in
  let malleated := mkblock h [cb; a; b; c; x; x; x] in
  generate_merkle_root D false malleated = generate_merkle_root D false original /\
  is_malleated D malleated = false /\
  identify D malleated = identify D original.
Proof.
  intros H. cbv zeta.
  assert (R : generate_merkle_root D false (mkblock h [cb; a; b; c; x; x; x]) = generate_merkle_root D false (mkblock h [cb; a; b; c; x])) by reflexivity.
  assert (M : forall l, is_malleated D (mkblock h (cb :: l)) = is_malleated32 D (mkblock h (cb :: l))) by (intros l; unfold is_malleated, is_malleated64, is_first_non_coinbase; cbn [b_txs]; rewrite H; reflexivity).
  assert (M7 : is_malleated32 D (mkblock h [cb; a; b; c; x; x; x]) = false) by reflexivity.
  assert (M5 : is_malleated32 D (mkblock h [cb; a; b; c; x]) = false) by reflexivity.
  split; [exact R|]. split; [rewrite M; exact M7|]. unfold identify, is_invalid_merkle_root. rewrite !M, M7, M5, R. reflexivity.
Qed.
Print Assumptions C26_two_level_copy_refuted.

(** ** C27 *)
(** For every position the branch climbs from the leaf to the root, with one
    sibling per level. *)
Theorem C27_branch_proves_leaf D leaves position : 0 <= position < len leaves ->
  climb D position (nth (Z.to_nat position) leaves []) (merkle_branch D position leaves) = merkle_root D leaves /\
  exists height, tree_root D height leaves (merkle_root D leaves) /\ length (merkle_branch D position leaves) = height.
Proof.
  intros H. unfold merkle_branch. destruct (Z.geb_spec position (len leaves)); [lia|].
  assert (N : leaves <> []) by (intros ->; change (len (@nil (list Z))) with 0 in H; lia). destruct (merkle_root_spec D leaves N) as [n T].
  destruct (branch_spec D (length leaves) leaves position _ n (Nat.le_refl _) T H) as [E L]. split; [exact E|]. exists n. auto.
Qed.
Print Assumptions C27_branch_proves_leaf.
(** Out of range positions give no branch. *)
Theorem C27_no_branch_out_of_range D leaves position : len leaves <= position -> merkle_branch D position leaves = [].
Proof. intros H. unfold merkle_branch. destruct (Z.geb_spec position (len leaves)); [reflexivity|lia]. Qed.
Print Assumptions C27_no_branch_out_of_range.
(** A branch binds the leaf: two leaves climbing to the same root with the same
    position and number of siblings are equal, or the digest collides. *)
Theorem C27_branch_binds_leaf D position a b s t : digest32 D ->
  length a = 32%nat -> length b = 32%nat -> Forall (fun h => length h = 32%nat) s -> Forall (fun h => length h = 32%nat) t ->
  length s = length t -> climb D position a s = climb D position b t -> (a = b /\ s = t) \/ collision D.
Proof.
  intros D32. revert position a b t. induction s as [|x s IH]; intros p a b [|y t] Ha Hb Hs Ht L E; try discriminate; cbn in E; [auto|].
  inversion Hs as [|? ? X1 X2]; subst. inversion Ht as [|? ? Y1 Y2]; subst. injection L as L.
  destruct (Z.even p).
  - destruct (IH _ _ _ t (D32 _) (D32 _) X2 Y2 L E) as [[E1 ->]|C]; [|auto]. apply pair_inj in E1; try assumption. destruct E1 as [[-> ->]|C]; auto.
  - destruct (IH _ _ _ t (D32 _) (D32 _) X2 Y2 L E) as [[E1 ->]|C]; [|auto]. apply pair_inj in E1; try assumption. destruct E1 as [[-> ->]|C]; auto.
Qed.
Print Assumptions C27_branch_binds_leaf.

(** ** C28 *)
Theorem C28_forward_reference D b : 
  is_forward_reference D b = true <-> spends_later D (tl (b_txs b)).
Proof.
  unfold is_forward_reference. destruct (b_txs b) as [|t l]; cbn [tl]; [|apply forward_spec].
  split; [discriminate|]. intros (p & t & m & u & a & i & E & _). destruct p; discriminate.
Qed.
Print Assumptions C28_forward_reference.
Theorem C28_internal_double_spend b :
  is_internal_double_spend b = true <-> ~ NoDup (spent_points (tl (b_txs b))).
Proof.
  unfold is_internal_double_spend. destruct (b_txs b) as [|t l]; cbn [tl]; [|apply (double_loop_spec l [] (NoDup_nil _))].
  split; [discriminate|]. intros H. exfalso. apply H. constructor.
Qed.
Print Assumptions C28_internal_double_spend.
(** A block passes check exactly when it is well formed in every respect. *)
Lemma coinbase_spec t : is_coinbase t = true <-> coinbase_like t.
Proof.
  unfold is_coinbase, coinbase_like. destruct (tx_inputs t) as [|i [|j l]].
  - split; [discriminate|]. intros (i & E & _). discriminate.
  - unfold input_is_null. rewrite andb_true_iff, Z.eqb_eq, bytes_eq_true. split.
    + intros [A B]. exists i. split; [reflexivity|]. split; [exact B|exact A].
    + intros (k & E & A & B). injection E as <-. split; [exact B|exact A].
  - split; [discriminate|]. intros (k & E & _). discriminate.
Qed.
Lemma tx_check_spec t : tx_check t = success <-> tx_rules t.
Proof.
  unfold tx_check, tx_rules, is_empty_tx.
  assert (Z1 : forall A (l : list A), (len l =? 0) = true <-> l = []).
  { intros A l. rewrite Z.eqb_eq. destruct l; [split; reflexivity|]. unfold len. cbn. split; [lia|discriminate]. }
  destruct (len (tx_inputs t) =? 0) eqn:E1.
  { cbn [orb]. split; [discriminate|]. intros (N & _). apply Z1 in E1. congruence. }
  destruct (len (tx_outputs t) =? 0) eqn:E2.
  { cbn [orb]. split; [discriminate|]. intros (_ & N & _). apply Z1 in E2. congruence. }
  cbn [orb]. assert (N1 : tx_inputs t <> []) by (intros X; apply Z1 in X; congruence). assert (N2 : tx_outputs t <> []) by (intros X; apply Z1 in X; congruence).
  rewrite <- coinbase_spec. destruct (is_coinbase t) eqn:C.
  - cbn [andb negb]. unfold is_invalid_coinbase_size. destruct (proj1 (coinbase_spec t) C) as (i & Ei & _). rewrite Ei. unfold script_size, script_to_data. rewrite ops_size_len. cbn [app].
    destruct (Z.ltb_spec (len (ops_to_data (in_script i))) min_coinbase_size) as [L|L]; unfold min_coinbase_size in L.
    { cbn [orb]. split; [discriminate|]. intros (_ & _ & X & _). specialize (X eq_refl i (or_introl eq_refl)). lia. }
    destruct (Z.gtb_spec (len (ops_to_data (in_script i))) max_coinbase_size) as [L'|L']; unfold max_coinbase_size in L'.
    { cbn [orb]. split; [discriminate|]. intros (_ & _ & X & _). specialize (X eq_refl i (or_introl eq_refl)). lia. }
    cbn [orb]. split; [|reflexivity]. intros _. split; [congruence|]. split; [exact N2|]. split; [|congruence]. intros _ j [<-|[]]. lia.
  - cbn [andb negb]. destruct (is_null_non_coinbase t) eqn:E.
    + split; [discriminate|]. intros (_ & _ & _ & X). unfold is_null_non_coinbase in E. apply existsb_exists in E as (i & Hi & Hn). unfold input_is_null in Hn.
      rewrite andb_true_iff, Z.eqb_eq, bytes_eq_true in Hn. exfalso. apply (X ltac:(discriminate) i Hi). split; tauto.
    + split; [|reflexivity]. intros _. split; [exact N1|]. split; [exact N2|]. split; [discriminate|]. intros _ i Hi [A B].
      assert (X : is_null_non_coinbase t = true). { apply existsb_exists. exists i. split; [exact Hi|]. unfold input_is_null. rewrite andb_true_iff, Z.eqb_eq, bytes_eq_true. auto. } congruence.
Qed.
Theorem C28_check_accepts_exactly D identity b : block_check D identity b = success <->
  block_size false b <= 1000000 /\
  (exists first others, b_txs b = first :: others /\ coinbase_like first /\ Forall (fun t => ~ coinbase_like t) others /\
     ~ spends_later D others /\ NoDup (spent_points others)) /\
  (identity = true -> merkle_root D (map (fun t => D (tx_to_data false t)) (b_txs b)) = h_merkle (b_header b)) /\
  Forall tx_rules (b_txs b).
Proof.
  rewrite check_success. unfold is_empty_block, is_oversized_block, is_first_non_coinbase, is_extra_coinbases, is_invalid_merkle_root, generate_merkle_root, transaction_hashes.
  assert (EM : map (tx_hash D false) (b_txs b) = map (fun t => D (tx_to_data false t)) (b_txs b)) by (apply map_ext; intros t; apply (txid_data D t)). rewrite EM.
  pose proof (C28_forward_reference D b) as FR. pose proof (C28_internal_double_spend b) as DS.
  assert (RT : Forall (fun t => tx_check t = success) (b_txs b) <-> Forall tx_rules (b_txs b)) by (split; apply Forall_impl; intros t; apply tx_check_spec). rewrite RT. clear RT EM.
  assert (ID : forall r h, identity && negb (bytes_eq r h) = false <-> (identity = true -> r = h)).
  { intros r h. destruct identity; cbn [andb]; [rewrite negb_false_iff, bytes_eq_true; tauto|]. split; [discriminate|reflexivity]. } rewrite ID. clear ID.
  destruct (b_txs b) as [|f l]; cbn [tl] in *.
  { split; [intros (X & _); discriminate|]. intros (_ & (f & l & X & _) & _). discriminate. }
  change (len (f :: l) =? 0) with false.
  rewrite negb_false_iff, coinbase_spec. rewrite <- (not_true_iff_false (block_size false b >? max_block_size)), Z.gtb_lt. unfold max_block_size.
  assert (EX : existsb is_coinbase l = false <-> Forall (fun t => ~ coinbase_like t) l).
  { rewrite <- not_true_iff_false, existsb_exists, Forall_forall. split.
    - intros N t Ht X. apply N. exists t. split; [exact Ht|apply coinbase_spec, X].
    - intros N (t & Ht & X). apply (N t Ht), coinbase_spec, X. } rewrite EX.
  rewrite <- (not_true_iff_false (is_forward_reference D b)), FR, <- (not_true_iff_false (is_internal_double_spend b)), DS.
  assert (NN : ~ ~ NoDup (spent_points l) <-> NoDup (spent_points l)) by (destruct (NoDup_points (spent_points l)); tauto). rewrite NN.
  split.
  - intros (_ & A & B & C & E & F & G & H). split; [lia|]. split; [|auto]. exists f, l. auto.
  - intros (A & (f' & l' & E & B) & G & H). injection E as <- <-. split; [reflexivity|]. split; [lia|]. tauto.
Qed.
Print Assumptions C28_check_accepts_exactly.

