From Verif Require Import Base Bytes BitProofs MathModel MathSpec MathProofs ShaModel ShaSpec AccModel ShaProps KdfSpec KdfModel.
From Verif Require Import StateModel StreamModel StreamProofs NumberModel NumberSpec NumberProofs NumberProps OpModel OpSpec OpProofs OpProofs2 OpProofs3 OpProps
  ChainModel ChainSpec ChainProofs ChainProofs4 ChainProps BlockModel ValidModel SigopSpec SigopProofs PatternModel
  InterpEnv InterpModel InterpSpec InterpElem InterpSim InterpSim3 InterpRun InterpProps
  SighashSpec SighashModel SighashProofs SighashProofs2 SighashProps ConnectSpec ConnectModel ConnectProofs.

(** ** Taproot hashes *)
Section H.
Variables (checked s8 : bool) (widths : list nat).
Lemma lex_value a : forall b, bytes_ok a -> bytes_ok b -> length a = length b -> lexicographical a b = (be_value a <? be_value b).
Proof.
  induction a as [|x a IH]; intros [|y b] Ha Hb L; try discriminate; [reflexivity|]. cbn [lexicographical].
  apply Forall_cons_iff in Ha as [Hx Ha]. apply Forall_cons_iff in Hb as [Hy Hb]. assert (L' : length a = length b) by (cbn in L; lia).
  change (x :: a) with ([x] ++ a). change (y :: b) with ([y] ++ b). rewrite !be_value_app. rewrite (IH b Ha Hb L').
  replace (len b) with (len a) by (unfold len; lia). pose proof (be_value_range a Ha) as Ra. pose proof (be_value_range b Hb) as Rb. replace (len b) with (len a) in Rb by (unfold len; lia).
  replace (be_value [x]) with x by (unfold be_value; cbn; lia). replace (be_value [y]) with y by (unfold be_value; cbn; lia).
  set (M := 256 ^ len a) in *. destruct (Z.ltb_spec x y); [symmetry; apply Z.ltb_lt; nia|]. destruct (Z.ltb_spec y x); [symmetry; apply Z.ltb_ge; nia|].
  assert (x = y) by lia. subst y. destruct (Z.ltb_spec (be_value a) (be_value b)); symmetry; [apply Z.ltb_lt; lia|apply Z.ltb_ge; lia].
Qed.
Lemma sha256_bytes x : bytes_ok (SHA256 x).
Proof.
  unfold SHA256, digest. generalize (fold_left (SHA2_block SHA256_params) (blocks 64 8 x) (SHA2_H 32)). intros l. unfold bytes_ok. apply Forall_flat_map. apply Forall_forall. intros v _. apply be_bytes_ok.
Qed.
Lemma tagged_ok tag x : length (tagged tag x) = 32%nat /\ bytes_ok (tagged tag x).
Proof. unfold tagged. split; [apply (sha256_length s8 widths)|apply sha256_bytes]. Qed.
Lemma branch_ok a b : length a = 32%nat -> length b = 32%nat -> branch_hash checked s8 widths a b = tagged TapBranch (a ++ b).
Proof.
  intros La Lb. unfold branch_hash. rewrite sinkt_ok; [cbn [concat]; rewrite app_nil_r; reflexivity|cbn; lia|]. cbn [concat]. rewrite !len_app. unfold len. rewrite La, Lb. cbn. lia.
Qed.
Lemma sorted_ok a b : length a = 32%nat -> length b = 32%nat -> bytes_ok a -> bytes_ok b -> sorted_branch_hash checked s8 widths a b = branch_of a b.
Proof. intros La Lb Ba Bb. unfold sorted_branch_hash, branch_of. rewrite lex_value by (assumption || lia). rewrite !branch_ok by assumption. reflexivity. Qed.
Lemma leaf_ok v l : bytes_ok l -> len l <= 4000000 -> leaf_hash checked s8 widths v (parse_script l) = leaf_of v l.
Proof.
  intros B L. unfold leaf_hash, leaf_of. rewrite data_wire; cbn [skipn].
  2:{ rewrite parse_script_data by exact B. change (2 ^ 64) with 18446744073709551616. lia. }
  change (script_bytes (parse_script l)) with (ops_to_data (parse_script l)). rewrite parse_script_data by exact B.
  rewrite sinkt_ok; [cbn [concat]; rewrite app_nil_r; reflexivity|cbn; lia|]. cbn [concat]. rewrite app_nil_r. pose proof (var_len l). rewrite len_app. change (len [v]) with 1. change (2 ^ 60) with 1152921504606846976. lia.
Qed.
Lemma script_hash_ok l : bytes_ok l -> len l <= 4000000 -> script_hash checked s8 widths (parse_script l) = SHA256 l.
Proof.
  intros B L. unfold script_hash. rewrite parse_script_data by exact B. rewrite sink_ok; cbn [concat]; rewrite app_nil_r; [reflexivity|]. apply max_59. rewrite two59. lia.
Qed.
(** The path. *)
Lemma in_32s_nth n : forall l i, (i < n)%nat -> nth_error (in_32s n l) i = Some (firstn 32 (skipn (32 * i) l)).
Proof.
  induction n as [|n IH]; intros l i Hi; [lia|]. destruct i as [|i]; [reflexivity|]. cbn [in_32s nth_error]. rewrite IH by lia. rewrite skipn_skipn. f_equal. f_equal. f_equal. lia.
Qed.
Lemma in_32s_length n : forall l, length (in_32s n l) = n. Proof. induction n as [|n IH]; intros l; [reflexivity|]. cbn. rewrite IH. reflexivity. Qed.
Lemma nth_error_same {A} (l : list A) : forall l', (forall i, nth_error l i = nth_error l' i) -> l = l'.
Proof.
  induction l as [|a l IH]; intros [|b l'] Q; [reflexivity|specialize (Q O); discriminate|specialize (Q O); discriminate|].
  f_equal; [specialize (Q O); cbn in Q; congruence|]. apply IH. intros i. exact (Q (S i)).
Qed.
Lemma path_seq c : path_of c = map (nth_key c) (seq 0 (Z.to_nat ((len c - 33) / 32))).
Proof.
  unfold path_of. set (n := Z.to_nat ((len c - 33) / 32)). apply nth_error_same. intros i. destruct (Nat.lt_ge_cases i n) as [L|L].
  - rewrite in_32s_nth by exact L. rewrite nth_error_map. rewrite (nth_error_nth' _ O) by (rewrite seq_length; exact L). rewrite seq_nth by exact L. cbn [option_map Nat.add]. unfold nth_key. rewrite skipn_skipn. f_equal. f_equal. f_equal. lia.
  - transitivity (@None (list Z)); [|symmetry]; apply nth_error_None; [rewrite in_32s_length|rewrite map_length, seq_length]; exact L.
Qed.
Lemma fold_seq {A} (f : A -> list Z -> A) (g : nat -> list Z) l : forall a, fold_left (fun h i => f h (g i)) l a = fold_left f (map g l) a.
Proof. induction l as [|i l IH]; intros a; [reflexivity|]. cbn [fold_left map]. apply IH. Qed.
Lemma control_same c : is_control c = control_ok c.
Proof.
  unfold is_control, control_ok. rewrite Z.gtb_ltb. change (1 + 32 * 129) with 4129. change (33 + 32 * 128) with 4129.
  assert (M : (len c - 1) mod 32 = (len c - 33) mod 32) by (replace (len c - 1) with (len c - 33 + 1 * 32) by lia; apply Z.mod_add; lia). rewrite M. clear M.
  destruct ((len c - 33) mod 32 =? 0); rewrite ?andb_true_r, ?andb_false_r; [|reflexivity].
  destruct (Z.ltb_spec (len c) 33), (Z.ltb_spec 4129 (len c)), (Z.leb_spec 33 (len c)), (Z.leb_spec (len c) 4129); try lia; reflexivity.
Qed.
Lemma root_ok c leaf : bytes_ok c -> control_ok c = true -> length leaf = 32%nat -> bytes_ok leaf ->
  merkle_root checked s8 widths c leaf = fold_left branch_of (path_of c) leaf /\
  length (fold_left branch_of (path_of c) leaf) = 32%nat.
Proof.
  intros B C Ll Bl. unfold control_ok in C. rewrite !andb_true_iff in C. destruct C as [[C1 C2] C3]. apply Z.leb_le in C1. apply Z.eqb_eq in C3.
  unfold merkle_root. rewrite (fold_seq (sorted_branch_hash checked s8 widths)). unfold key_count. destruct (Z.ltb_spec (len c) 33); [lia|]. rewrite <- path_seq.
  assert (G : Forall (fun k => length k = 32%nat /\ bytes_ok k) (path_of c)).
  { rewrite path_seq. apply Forall_map, Forall_forall. intros i Hi. apply in_seq in Hi. unfold nth_key. split.
    - rewrite firstn_length, skipn_length. unfold len in *. assert (32 * ((Z.of_nat (length c) - 33) / 32) = Z.of_nat (length c) - 33) by (pose proof (Z.div_mod (Z.of_nat (length c) - 33) 32 ltac:(lia)); lia).
      assert (Z.of_nat i < (Z.of_nat (length c) - 33) / 32) by lia. lia.
    - apply bytes_ok_firstn, bytes_ok_skipn, B. }
  revert leaf Ll Bl. induction G as [|k l [Lk Bk] _ IH]; intros leaf Ll Bl; [split; [reflexivity|exact Ll]|]. cbn [fold_left]. rewrite sorted_ok by assumption.
  apply IH; unfold branch_of; destruct (be_value leaf <? be_value k); apply tagged_ok.
Qed.
Lemma land_1 v : byte_ok v -> negb (Z.land v 1 =? 0) = (v mod 2 =? 1).
Proof. intros _. change 1 with (Z.ones 1). rewrite Z.land_ones by lia. change (2 ^ 1) with 2. change (Z.ones 1) with 1. pose proof (Z.mod_pos_bound v 2). destruct (Z.eqb_spec (v mod 2) 0), (Z.eqb_spec (v mod 2) 1); try reflexivity; lia. Qed.
Lemma land_254 v : byte_ok v -> Z.land v 254 = v - v mod 2.
Proof.
  intros Hv. assert (G : forallb (fun n => Z.land (Z.of_nat n) 254 =? Z.of_nat n - Z.of_nat n mod 2) (seq 0 256) = true) by (vm_compute; reflexivity).
  rewrite forallb_forall in G. specialize (G (Z.to_nat v)). unfold byte_ok in Hv. rewrite Z2Nat.id in G by lia. apply Z.eqb_eq, G. apply in_seq. lia.
Qed.
Lemma hd_nth (c : list Z) : hd 0 c = nth 0 c 0. Proof. destruct c; reflexivity. Qed.
Lemma commit_ok sp c program leaf : bytes_ok c -> control_ok c = true -> length leaf = 32%nat -> bytes_ok leaf ->
  verify_commit checked s8 widths sp c program leaf = committed sp program c leaf.
Proof.
  intros B C Ll Bl. destruct (root_ok c leaf B C Ll Bl) as [R1 R2]. unfold verify_commit, committed. rewrite R1. fold (control_key c).
  assert (Lk : len (control_key c) <= 32) by (unfold control_key, len; rewrite firstn_length; lia).
  assert (B0 : byte_ok (nth 0 c 0)).
  { destruct c as [|x c]; [discriminate|]. apply Forall_cons_iff in B as [B _]. exact B. }
  unfold parity. rewrite hd_nth, land_1 by exact B0. f_equal. unfold tweak_hash. rewrite sinkt_ok; [cbn [concat]; rewrite app_nil_r; reflexivity|cbn; lia|].
  cbn [concat]. rewrite app_nil_r, len_app. unfold len at 2. rewrite R2. change (2 ^ 60) with 1152921504606846976. lia.
Qed.
Lemma version_ok c : bytes_ok c -> control_ok c = true -> control_version c = leaf_version c.
Proof.
  intros B C. unfold control_version, leaf_version. rewrite hd_nth. apply land_254. destruct c as [|x c]; [discriminate|]. apply Forall_cons_iff in B as [B _]. exact B.
Qed.
End H.
