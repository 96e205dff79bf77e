From Verif Require Import Base Bytes MathModel StreamModel StreamSpec StreamProofs StreamProofs2 LCalc OpModel OpProofs ChainModel RCalc ChainSpec ChainProofs ChainProofs4 ChainProps BlockModel BlockSpec BlockProofs BlockProofs2.

Lemma bytes_eq_true a b : bytes_eq a b = true <-> a = b.
Proof. unfold bytes_eq. destruct (list_eq_dec Z.eq_dec a b); split; congruence. Qed.
Lemma bytes_eq_false a b : bytes_eq a b = false <-> a <> b.
Proof. unfold bytes_eq. destruct (list_eq_dec Z.eq_dec a b); split; congruence. Qed.
Lemma has_hash_in h l : has_hash h l = true <-> In h l.
Proof.
  unfold has_hash. rewrite existsb_exists. split; [intros (x & Hx & E); apply bytes_eq_true in E; subst; exact Hx|intros H; exists h; split; [exact H|apply bytes_eq_true; reflexivity]].
Qed.
Lemma point_eq_true p q : point_eq p q = true <-> p = q.
Proof.
  destruct p as [a i], q as [b j]. unfold point_eq. cbn [fst snd]. rewrite andb_true_iff, bytes_eq_true, Z.eqb_eq. split; [intros [-> ->]; reflexivity|intros E; injection E; auto].
Qed.
Lemma has_point_in p l : has_point p l = true <-> In p l.
Proof.
  unfold has_point. rewrite existsb_exists. split; [intros (x & Hx & E); apply point_eq_true in E; subst; exact Hx|intros H; exists p; split; [exact H|apply point_eq_true; reflexivity]].
Qed.

Lemma NoDup_points (l : list (list Z * Z)) : NoDup l \/ ~ NoDup l.
Proof.
  induction l as [|p l [IH|IH]]; [left; constructor| |right; intros X; inversion X; auto].
  destruct (has_point p l) eqn:E; [right; intros X; inversion X; subst; apply has_point_in in E; auto|].
  left. constructor; [|exact IH]. intros X. apply has_point_in in X. congruence.
Qed.
Section B.
Variable D : list Z -> list Z.

(** ** Double spends *)
Lemma points_loop_spec l : forall ps, NoDup ps ->
  let (dup, ps') := points_loop ps l in
  if dup then ~ NoDup (rev (map point_of l) ++ ps) else ps' = rev (map point_of l) ++ ps /\ NoDup ps'.
Proof.
  induction l as [|i l IH]; intros ps Hn; cbn [points_loop map rev]; [auto|].
  destruct (has_point (point_of i) ps) eqn:E.
  - apply has_point_in in E. rewrite <- app_assoc. cbn [app]. intros N. apply NoDup_remove_2 in N. apply N, in_or_app. right. exact E.
  - assert (N : NoDup (point_of i :: ps)). { constructor; [|exact Hn]. intros H. apply has_point_in in H. congruence. }
    specialize (IH _ N). destruct (points_loop (point_of i :: ps) l) as [dup ps']. rewrite <- app_assoc. cbn [app]. exact IH.
Qed.
Lemma nodup_app_r {A} (a b : list A) : NoDup (a ++ b) -> NoDup b.
Proof. induction a as [|x a IH]; [auto|]. intros H. inversion H; auto. Qed.
Lemma nodup_app_l {A} (a b : list A) : NoDup (a ++ b) -> NoDup a.
Proof. induction a as [|x a IH]; [constructor|]. intros H. inversion H; subst. constructor; [|auto]. intros X. apply H2, in_or_app. auto. Qed.
Lemma double_loop_spec l : forall ps, NoDup ps -> (double_loop ps l = true <-> ~ NoDup (ps ++ spent_points l)).
Proof.
  induction l as [|t l IH]; intros ps Hn.
  - cbn. rewrite app_nil_r. split; [discriminate|tauto].
  - cbn [double_loop]. pose proof (points_loop_spec (tx_inputs t) ps Hn) as P. destruct (points_loop ps (tx_inputs t)) as [dup ps'].
    change (spent_points (t :: l)) with (map point_of (tx_inputs t) ++ spent_points l).
    assert (PM : Permutation (rev (map point_of (tx_inputs t)) ++ ps) (ps ++ map point_of (tx_inputs t))).
    { rewrite Permutation_app_comm. apply Permutation_app_head. symmetry. apply Permutation_rev. }
    destruct dup.
    + split; [|reflexivity]. intros _ N. apply P. eapply Permutation_NoDup; [symmetry; exact PM|]. rewrite app_assoc in N. apply nodup_app_l in N. exact N.
    + destruct P as [-> N]. rewrite (IH _ N). rewrite app_assoc. 
      assert (Q : Permutation ((rev (map point_of (tx_inputs t)) ++ ps) ++ spent_points l) ((ps ++ map point_of (tx_inputs t)) ++ spent_points l)) by (apply Permutation_app_tail, PM).
      split; intros H X; apply H; eapply Permutation_NoDup; try exact X; [symmetry|]; exact Q.
Qed.

(** ** Forward references *)
Lemma forward_loop_spec l : forall hs, forward_loop D hs l = true <->
  exists p t q i, l = p ++ t :: q /\ In i (tx_inputs t) /\ In (in_hash i) (map (txid D) p ++ hs).
Proof.
  induction l as [|t l IH]; intros hs; cbn [forward_loop].
  - split; [discriminate|]. intros (p & t & q & i & E & _). destruct p; discriminate.
  - destruct (existsb _ (tx_inputs t)) eqn:E.
    + split; [|reflexivity]. intros _. apply existsb_exists in E as (i & Hi & Hh). apply has_hash_in in Hh. exists [], t, l, i. auto.
    + rewrite IH. split.
      * intros (p & u & q & i & -> & Hi & Hh). exists (t :: p), u, q, i. split; [reflexivity|]. split; [exact Hi|]. cbn.
        apply in_app_or in Hh as [Hh|[Hh|Hh]]; [right; apply in_or_app; auto|left; exact Hh|right; apply in_or_app; auto].
      * intros (p & u & q & i & E2 & Hi & Hh). destruct p as [|v p]; cbn in E2; injection E2 as -> ->.
        -- exfalso. cbn in Hh. assert (X : existsb (fun i0 => has_hash (in_hash i0) hs) (tx_inputs u) = true) by (apply existsb_exists; exists i; split; [exact Hi|apply has_hash_in, Hh]). congruence.
        -- exists p, u, q, i. split; [reflexivity|]. split; [exact Hi|]. cbn in Hh. destruct Hh as [Hh|Hh]; [apply in_or_app; right; left; exact Hh|].
           apply in_app_or in Hh as [Hh|Hh]; apply in_or_app; [auto|right; right; exact Hh].
Qed.
Lemma txid_data t : txid D t = D (tx_to_data false t).
Proof. unfold txid, tx_hash. rewrite andb_false_r. reflexivity. Qed.
Lemma forward_spec l : forward_loop D [] (rev l) = true <-> spends_later D l.
Proof.
  rewrite forward_loop_spec. split.
  - intros (p & t & q & i & E & Hi & Hh). rewrite app_nil_r in Hh. apply in_map_iff in Hh as (u & Hu & Hp). rewrite txid_data in Hu.
    apply in_split in Hp as (p1 & p2 & ->). exists (rev q), t, (rev p2), u, (rev p1), i.
    split; [|auto]. apply (f_equal (@rev tx)) in E. rewrite rev_involutive in E. rewrite E, rev_app_distr. cbn [rev]. rewrite rev_app_distr. cbn [rev]. rewrite <- !app_assoc. reflexivity.
  - intros (b & t & m & u & a & i & -> & Hi & Hh). exists (rev a ++ u :: rev m), t, (rev b), i. split.
    + rewrite rev_app_distr. cbn [rev]. rewrite rev_app_distr. cbn [rev]. rewrite <- !app_assoc. reflexivity.
    + split; [exact Hi|]. rewrite app_nil_r, map_app. apply in_or_app. right. left. rewrite txid_data. symmetry. exact Hh.
Qed.

(** ** check *)
Lemma first_error_success {A} (f : A -> errc) l : first_error f l = success <-> Forall (fun a => f a = success) l.
Proof.
  induction l as [|a l IH]; cbn; [split; auto|]. split.
  - destruct (f a) eqn:E; try discriminate. intros H. constructor; [exact E|apply IH, H].
  - intros H. inversion H as [|? ? H1 H2]; subst. rewrite H1. apply IH, H2.
Qed.
Lemma malleated_or_fails c b : c <> success -> malleated_or D c b <> success.
Proof. intros H. unfold malleated_or. destruct (is_malleated D b); [discriminate|exact H]. Qed.

Lemma check_success id b : block_check D id b = success <->
  is_empty_block b = false /\ is_oversized_block b = false /\ is_first_non_coinbase b = false /\ is_extra_coinbases b = false /\
  is_forward_reference D b = false /\ is_internal_double_spend b = false /\ id && is_invalid_merkle_root D b = false /\
  Forall (fun t => tx_check t = success) (b_txs b).
Proof.
  unfold block_check. rewrite <- first_error_success.
  destruct (is_empty_block b); [split; [discriminate|intros [X _]; discriminate]|].
  destruct (is_oversized_block b); [split; [discriminate|intros (_ & X & _); discriminate]|].
  destruct (is_first_non_coinbase b).
  { split; [intros X; exfalso; eapply malleated_or_fails; [|exact X]; discriminate|intros (_ & _ & X & _); discriminate]. }
  destruct (is_extra_coinbases b); [split; [discriminate|intros (_ & _ & _ & X & _); discriminate]|].
  destruct (is_forward_reference D b); [split; [discriminate|intros (_ & _ & _ & _ & X & _); discriminate]|].
  destruct (is_internal_double_spend b).
  { split; [intros X; exfalso; eapply malleated_or_fails; [|exact X]; discriminate|intros (_ & _ & _ & _ & _ & X & _); discriminate]. }
  destruct (id && is_invalid_merkle_root D b); [split; [discriminate|intros (_ & _ & _ & _ & _ & _ & X & _); discriminate]|]. tauto.
Qed.

(** ** Distinct transaction hashes *)
Lemma strip_inj t u : tx_ok t -> tx_ok u -> tx_inputs t <> [] -> tx_inputs u <> [] -> len (tx_to_data false t) < 2 ^ 64 ->
  tx_to_data false t = tx_to_data false u -> strip t = strip u.
Proof.
  intros Ot Ou Nt Nu Hl E.
  destruct (C16_stripped_round_trip t [] [] false Ot (or_introl Nt) ltac:(change (len (@nil Z)) with 0; lia)) as (s & P & _).
  destruct (C16_stripped_round_trip u [] [] false Ou (or_introl Nu) ltac:(rewrite <- E; change (len (@nil Z)) with 0; lia)) as (s' & P' & _).
  rewrite <- E, P in P'. exact (f_equal fst P').
Qed.
Lemma strip_points t u : strip t = strip u -> map point_of (tx_inputs t) = map point_of (tx_inputs u).
Proof.
  intros E. apply (f_equal tx_inputs) in E. cbn in E. apply (f_equal (map point_of)) in E. rewrite !map_map in E. exact E.
Qed.
Lemma strip_coinbase t : is_coinbase (strip t) = is_coinbase t.
Proof. unfold is_coinbase, strip. cbn. destruct (tx_inputs t) as [|i [|j l]]; reflexivity. Qed.
Lemma tx_check_inputs t : tx_check t = success -> tx_inputs t <> [].
Proof. unfold tx_check, is_empty_tx. intros H E. rewrite E in H. discriminate. Qed.

Lemma distinct_or id b : block_fits b -> block_check D id b = success -> NoDup (transaction_hashes D false b) \/ collision D.
Proof.
  intros Hf Hc. apply check_success in Hc as (_ & _ & C1 & C2 & _ & C3 & _ & C4).
  unfold transaction_hashes, is_first_non_coinbase, is_extra_coinbases, is_internal_double_spend, block_fits in *.
  destruct (b_txs b) as [|cb l]; [left; constructor|]. change (map (tx_hash D false)) with (map (txid D)).
  assert (Inj : forall t u, In t (cb :: l) -> In u (cb :: l) -> txid D t = txid D u -> strip t = strip u \/ collision D).
  { intros t u Ht Hu E. rewrite !txid_data in E. rewrite Forall_forall in Hf, C4. 
    destruct (list_eq_dec Z.eq_dec (tx_to_data false t) (tx_to_data false u)) as [E2|N]; [left|right; exists (tx_to_data false t), (tx_to_data false u); auto].
    destruct (Hf t Ht), (Hf u Hu). apply strip_inj; try assumption; apply tx_check_inputs, C4; assumption. }
  assert (NL : NoDup (map (txid D) l) \/ collision D).
  { assert (ND : NoDup (spent_points l)) by (destruct (double_loop [] l) eqn:E; [discriminate|]; destruct (NoDup_points (spent_points l)) as [N|N]; [exact N|]; apply (double_loop_spec l [] (NoDup_nil _)) in N; congruence).
    clear C3. assert (Inj' : forall t u, In t l -> In u l -> txid D t = txid D u -> strip t = strip u \/ collision D) by (intros; apply Inj; cbn; auto).
    assert (NE : forall t, In t l -> tx_inputs t <> []) by (intros t Ht; rewrite Forall_forall in C4; apply tx_check_inputs, C4; right; exact Ht).
    clear Inj C4 Hf C2. induction l as [|t l IH]; [left; constructor|]. cbn [map].
    change (spent_points (t :: l)) with (map point_of (tx_inputs t) ++ spent_points l) in ND.
    destruct IH as [IH|C]; [eapply nodup_app_r; exact ND|intros; apply Inj'; cbn; auto|intros; apply NE; cbn; auto| |right; exact C].
    destruct (in_dec (list_eq_dec Z.eq_dec) (txid D t) (map (txid D) l)) as [Hi|Hi]; [|left; constructor; assumption].
    apply in_map_iff in Hi as (u & Eu & Hu). destruct (Inj' t u) as [E|C]; [left; reflexivity|right; exact Hu|congruence| |right; exact C].
    exfalso. apply strip_points in E. pose proof (NE t (or_introl eq_refl)) as Nt. destruct (tx_inputs t) as [|i r]; [congruence|]. cbn [map] in *.
    cbn [app] in ND. inversion ND as [|? ? N1 N2]; subst. apply N1. apply in_or_app. right. unfold spent_points. apply in_concat.
    exists (map point_of (tx_inputs u)). split; [apply in_map_iff; exists u; auto|]. rewrite <- E. left. reflexivity. }
  destruct NL as [NL|C]; [|auto].
  destruct (in_dec (list_eq_dec Z.eq_dec) (txid D cb) (map (txid D) l)) as [Hi|Hi]; [|left; constructor; assumption].
  apply in_map_iff in Hi as (u & Eu & Hu). destruct (Inj cb u) as [E|C]; [left; reflexivity|right; exact Hu|congruence| |right; exact C].
  exfalso. apply negb_false_iff in C1. apply (f_equal is_coinbase) in E. rewrite !strip_coinbase in E. rewrite C1 in E.
  assert (X : existsb is_coinbase l = true) by (apply existsb_exists; exists u; auto). congruence.
Qed.

(** ** Same tree *)
Fixpoint balanced (n : nat) (t : mtree) : Prop :=
  match n, t with
  | O, leaf h => length h = 32%nat
  | S m, node a b => balanced m a /\ balanced m b
  | _, _ => False
  end.
Hypothesis D32 : digest32 D.
Lemma mhash32 n t : balanced n t -> length (mhash D t) = 32%nat.
Proof. destruct n, t; cbn; try tauto. intros _. apply D32. Qed.
Lemma mhash_inj n : forall t u, balanced n t -> balanced n u -> mhash D t = mhash D u -> t = u \/ collision D.
Proof.
  induction n as [|n IH]; intros [h|a b] [k|c d] Bt Bu E; cbn in *; try tauto.
  - left. congruence.
  - destruct Bt as [B1 B2], Bu as [B3 B4]. destruct (pair_inj D _ _ _ _ (mhash32 _ _ B1) (mhash32 _ _ B3) E) as [[E1 E2]|C]; [|auto].
    destruct (IH _ _ B1 B3 E1) as [->|C]; [|auto]. destruct (IH _ _ B2 B4 E2) as [->|C]; auto.
Qed.
Lemma tree_level_hash l : map (mhash D) (tree_level l) = level D (map (mhash D) l).
Proof. induction l as [|a|a b l IH] using list_ind2; cbn; [reflexivity|reflexivity|rewrite IH; reflexivity]. Qed.
Lemma tree_level_balanced n l : Forall (balanced n) l -> Forall (balanced (S n)) (tree_level l).
Proof.
  induction l as [|a|a b l IH] using list_ind2; intros H; cbn; [constructor|inversion H; subst; constructor; [cbn; auto|constructor]|].
  inversion H as [|? ? H1 H2]; subst. inversion H2; subst. constructor; [cbn; auto|auto].
Qed.
Lemma full_tree_root n : forall k l r, Forall (balanced k) l -> tree_root D n (map (mhash D) l) r ->
  exists t, full_tree n l t /\ mhash D t = r /\ balanced (n + k) t.
Proof.
  induction n as [|n IH]; intros k l r B T; remember (map (mhash D) l) as ml eqn:Em; inversion T as [a Ea Eb Ec|? a b l' ? T' Ea Eb Ec].
  - rewrite <- Eb in Em. destruct l as [|x [|y l]]; try discriminate. injection Em as Em. exists x. inversion B as [|? ? B1 B2]; subst. cbn. split; [constructor|]. split; [reflexivity|exact B1].
  - rewrite <- Eb in Em. destruct l as [|x [|y l]]; try discriminate. cbn [map] in Em. injection Em as E1 E2 E3. subst a b l'.
    change (tree_root D n (level D (map (mhash D) (x :: y :: l))) r) in T'.
    rewrite <- tree_level_hash in T'. destruct (IH (S k) _ r (tree_level_balanced k _ B) T') as (t & F & Hh & Bt).
    exists t. split; [constructor; exact F|]. split; [exact Hh|]. replace (S n + k)%nat with (n + S k)%nat by lia. exact Bt.
Qed.
Lemma same_tree n l m r : all32 l -> all32 m -> tree_root D n l r -> tree_root D n m r ->
  (exists t, tree_of n l t /\ tree_of n m t) \/ collision D.
Proof.
  intros Hl Hm T1 T2.
  assert (Bl : forall l, all32 l -> Forall (balanced 0) (map leaf l)) by (intros x Hx; apply Forall_map; exact Hx).
  assert (Ml : forall l : list (list Z), map (mhash D) (map leaf l) = l) by (intros x; rewrite map_map; apply map_id).
  rewrite <- (Ml l) in T1. rewrite <- (Ml m) in T2.
  destruct (full_tree_root n 0 _ r (Bl _ Hl) T1) as (t & F1 & E1 & B1). destruct (full_tree_root n 0 _ r (Bl _ Hm) T2) as (u & F2 & E2 & B2).
  destruct (mhash_inj _ _ _ B1 B2) as [->|C]; [congruence| |auto]. left. exists u. auto.
Qed.

(** ** Identity *)
Lemma hashes_32 b : all32 (transaction_hashes D false b).
Proof. apply Forall_map, Forall_forall. intros t _. fold (txid D t). rewrite txid_data. apply D32. Qed.
Lemma inner_64 b : block_fits b -> Forall (inner D) (transaction_hashes D false b) -> all_64_bytes b \/ collision D.
Proof.
  unfold block_fits, all_64_bytes, transaction_hashes. intros Hf Hi. induction (b_txs b) as [|t l IH]; [left; constructor|].
  inversion Hf as [|? ? F1 F2]; subst. inversion Hi as [|? ? I1 I2]; subst. destruct (IH F2 I2) as [IH'|C]; [|auto].
  destruct I1 as (x & y & Lx & Ly & E). fold (txid D t) in E. rewrite txid_data in E.
  destruct (list_eq_dec Z.eq_dec (tx_to_data false t) (x ++ y)) as [E2|N]; [|right; exists (tx_to_data false t), (x ++ y); auto].
  left. constructor; [|exact IH']. rewrite E2. unfold len. rewrite app_length. lia.
Qed.
Lemma same_strips b c : block_fits b -> block_fits c -> Forall (fun t => tx_inputs t <> []) (b_txs b) -> Forall (fun t => tx_inputs t <> []) (b_txs c) ->
  transaction_hashes D false b = transaction_hashes D false c -> map strip (b_txs b) = map strip (b_txs c) \/ collision D.
Proof.
  unfold block_fits, transaction_hashes. generalize (b_txs c). induction (b_txs b) as [|t l IH]; intros [|u m] Hf Hg Nb Nc E; try discriminate; [auto|].
  cbn [map] in E. injection E as E1 E2. inversion Hf as [|? ? [F1 F1'] F2]; subst. inversion Hg as [|? ? [G1 G1'] G2]; subst. inversion Nb; subst. inversion Nc; subst.
  destruct (IH m F2 G2) as [IH'|C]; try assumption; [|auto]. fold (txid D t) (txid D u) in E1. rewrite !txid_data in E1.
  destruct (list_eq_dec Z.eq_dec (tx_to_data false t) (tx_to_data false u)) as [E3|N]; [|right; eexists _, _; split; [exact N|exact E1]].
  left. cbn [map]. rewrite IH'. f_equal. apply strip_inj; assumption.
Qed.
Lemma malleable64_spec b : block_fits b -> (is_malleable64 b = true <-> b_txs b <> [] /\ all_64_bytes b).
Proof.
  intros Hf. unfold is_malleable64, all_64_bytes. rewrite andb_true_iff, forallb_forall, Forall_forall. unfold block_fits in Hf. rewrite Forall_forall in Hf.
  split; intros [A B]; (split; [destruct (b_txs b); [discriminate|congruence] || (destruct (b_txs b); [congruence|reflexivity])|]); intros t Ht; specialize (B t Ht); destruct (Hf t Ht) as [Ok Hl];
    destruct (C16_size_is_length t false Ok Hl) as [E _]; [apply Z.eqb_eq in B|apply Z.eqb_eq]; lia.
Qed.
End B.
