(** Views: from the shape lemmas to whole blocks. *)
From Verif Require Import Base Bytes MathModel MathSpec MathProofs StreamModel StreamSpec StreamProofs StreamProofs2 LineProofs LCalc StateModel OpModel OpProofs OpProofs2 OpProofs3 ChainModel RCalc ChainSpec ChainProofs ChainProofs2 ChainProofs3 ChainProofs4 ChainProps BlockModel BlockSpec BlockProofs3 BlockProps2 ViewModel ViewSpec ViewProofs ViewProofs2 ViewProofs3 ViewProofs4 ViewProofs5.

Lemma some_spec l : some_witness_element l = true <-> exists i e, In i l /\ In e (in_witness i) /\ e <> [].
Proof.
  unfold some_witness_element. rewrite existsb_exists. split.
  - intros (i & Hi & E). unfold some_element in E. apply existsb_exists in E as (e & He & N). exists i, e. split; [exact Hi|]. split; [exact He|]. destruct e; [discriminate|discriminate].
  - intros (i & e & Hi & He & N). exists i. split; [exact Hi|]. unfold some_element. apply existsb_exists. exists e. split; [exact He|]. destruct e; [congruence|reflexivity].
Qed.
Lemma indexed_viewable t : indexed_tx t -> viewable t.
Proof.
  intros (Ok & Ni & No & Si & So & W). pose proof (tx_ok_wf t Ok) as Wf. destruct Ok as (_ & _ & _ & Oi & _ & Oo & Sg). split; [exact Wf|]. split; [exact Ni|]. split; [exact No|]. split; [|split].
  - rewrite Forall_forall in *. intros i Hi. split; [|exact (Si i Hi)]. destruct (Oi i Hi) as (_ & _ & Hs & _). apply script_ok_swf, Hs.
  - rewrite Forall_forall in *. intros i Hi. split; [|exact (So i Hi)]. destruct (Oo i Hi) as (_ & Hs). apply script_ok_swf, Hs.
  - intros E. apply some_spec, W, Sg, E.
Qed.
Lemma viewable_indexed t : viewable t -> len (tx_to_data true t) < 2 ^ 63 -> indexed_tx t.
Proof.
  intros (Wf & Ni & No & Si & So & W) Hl. pose proof (twf_ok t Wf Hl) as Ok. split; [exact Ok|]. split; [exact Ni|]. split; [exact No|].
  split; [eapply Forall_impl; [|exact Si]; intros i [_ L]; exact L|]. split; [eapply Forall_impl; [|exact So]; intros i [_ L]; exact L|].
  intros C. apply some_spec, W. destruct Ok as (_ & _ & _ & _ & _ & _ & Sg). apply Sg, C.
Qed.
Lemma indexed_bviewable b : indexed_block b -> bviewable b.
Proof. intros (H1 & H2 & H3 & H4). split; [exact H1|]. split; [exact H2|]. split; [exact H3|]. eapply Forall_impl; [|exact H4]. apply indexed_viewable. Qed.
Lemma bviewable_indexed b : bviewable b -> len (block_to_data true b) < 2 ^ 63 -> indexed_block b.
Proof.
  intros (H1 & H2 & H3 & H4) Hl. split; [exact H1|]. split; [exact H2|]. split; [exact H3|]. rewrite Forall_forall in *. intros t Ht. apply viewable_indexed; [apply H4, Ht|].
  pose proof (len_concat_in (tx_to_data true) _ _ Ht) as K. unfold block_to_data in Hl. rewrite !len_app in Hl.
  pose proof (len_nonneg (header_to_data (b_header b))). pose proof (len_nonneg (write_variable (len (b_txs b)))). clear - K Hl H H0. lia.
Qed.
Lemma indexed_ok b : indexed_block b -> block_ok b.
Proof. intros (H1 & _ & H3 & H4). split; [exact H1|]. split; [exact H3|]. eapply Forall_impl; [|exact H4]. intros t (A & B & _). split; [exact A|left; exact B]. Qed.
Lemma tx_wire t : tx_ok t -> tx_to_data true t = wire_tx t /\ tx_to_data false t = wire_legacy t.
Proof.
  intros Ok. destruct (C16_wire_format t Ok) as (A & B & C). split; [|exact A]. unfold wire_tx. pose proof Ok as (_ & _ & _ & _ & _ & _ & Sg). destruct (tx_segregated t) eqn:E.
  - apply C, Sg. reflexivity.
  - apply B. intros K. apply Sg in K. congruence.
Qed.
Lemma block_wire b : block_ok b -> block_to_data true b = wire_block b /\ block_to_data false b = legacy_block b.
Proof.
  intros Ok. destruct (C17_block_wire_format b Ok) as [A B]. split; [|exact B]. rewrite A. unfold wire_block, counted. f_equal. f_equal. apply concat_wire.
  destruct Ok as (_ & _ & F). eapply Forall_impl; [|exact F]. intros t [K _]. apply tx_wire, K.
Qed.

(** Per transaction. *)
Lemma shown_nth w cb p l vs : shows_all w cb p l vs -> forall k t, nth_error l k = Some t ->
  exists v, nth_error vs k = Some v /\ viewable t /\ shows (cb && (k =? 0)%nat) w (p + len (concat (map (tx_to_data true) (firstn k l)))) t v.
Proof.
  induction 1 as [cb p|cb p t v l vs Vt Sh Sa IH]; intros k t' E; [destruct k; discriminate|].
  destruct k as [|k]; cbn [nth_error firstn map concat] in *.
  - injection E as <-. exists v. change (len (@nil Z)) with 0. rewrite Z.add_0_r. cbn [Nat.eqb]. rewrite andb_true_r. auto.
  - destruct (IH k t' E) as (v' & Ev & Vt' & Sh'). exists v'. split; [exact Ev|]. split; [exact Vt'|]. rewrite andb_false_l in Sh'. cbn [Nat.eqb]. rewrite andb_false_r. rewrite len_app, Z.add_assoc. exact Sh'.
Qed.
Lemma shown_length w cb p l vs : shows_all w cb p l vs -> length vs = length l.
Proof. induction 1; cbn; congruence. Qed.
Lemma split_nth {A} (f : A -> list Z) l k t : nth_error l k = Some t ->
  concat (map f l) = concat (map f (firstn k l)) ++ f t ++ concat (map f (skipn (S k) l)).
Proof.
  revert k. induction l as [|a l IH]; intros k E; [destruct k; discriminate|]. destruct k as [|k]; cbn [nth_error firstn skipn map concat app] in *.
  - injection E as <-. reflexivity.
  - rewrite (IH k E). rewrite <- app_assoc. reflexivity.
Qed.
Lemma len_write_head b : header_ok (b_header b) -> len (header_to_data (b_header b) ++ write_variable (len (b_txs b))) = txs_at b.
Proof. intros Oh. rewrite len_app, header_data_len, len_write_variable by exact Oh. reflexivity. Qed.
Lemma tx_small b (after : list Z) t : In t (b_txs b) -> len (block_to_data true b) + len after < 2 ^ 64 -> len (tx_to_data true t) < 2 ^ 64.
Proof.
  intros Ht Hl. pose proof (len_concat_in (tx_to_data true) _ _ Ht) as K. unfold block_to_data in Hl. rewrite !len_app in Hl.
  pose proof (len_nonneg (header_to_data (b_header b))). pose proof (len_nonneg (write_variable (len (b_txs b)))). pose proof (len_nonneg after). clear - K Hl H H0 H1. lia.
Qed.
Lemma shown_at w b after k t : bviewable b -> bytes_ok (block_to_data true b ++ after) -> len (block_to_data true b) + len after < 2 ^ 64 ->
  nth_error (b_txs b) k = Some t ->
  exists v pre post, nth_error (block_view w (block_to_data true b ++ after)) k = Some v /\
    block_to_data true b ++ after = pre ++ tx_to_data true t ++ post /\ shows (k =? 0)%nat w (len pre) t v /\ viewable t /\ len (tx_to_data true t) < 2 ^ 64.
Proof.
  intros V Hb Hl E. pose proof (block_shown w b after V Hb Hl) as Sa. destruct (shown_nth w true _ _ _ Sa k t E) as (v & Ev & Vt & Sh).
  exists v, ((header_to_data (b_header b) ++ write_variable (len (b_txs b))) ++ concat (map (tx_to_data true) (firstn k (b_txs b)))), (concat (map (tx_to_data true) (skipn (S k) (b_txs b))) ++ after).
  split; [exact Ev|]. split; [|split; [|split; [exact Vt|apply (tx_small b after t); [eapply nth_error_In, E|exact Hl]]]].
  - unfold block_to_data. rewrite (split_nth (tx_to_data true) _ _ _ E). rewrite <- !app_assoc. reflexivity.
  - rewrite len_app, len_write_head by apply V. rewrite andb_true_l in Sh. exact Sh.
Qed.
(** Over all of the transactions. *)
Definition by_place {A} (g : bool -> tx -> A) (l : list tx) : list A := match l with [] => [] | t :: l' => g true t :: map (g false) l' end.
Lemma nth_by_place {A} (g : bool -> tx -> A) l k : nth_error (by_place g l) k = option_map (g (k =? 0)%nat) (nth_error l k).
Proof. destruct l as [|t l]; [destruct k; reflexivity|]. destruct k; cbn; [reflexivity|]. rewrite nth_error_map. reflexivity. Qed.
Lemma nth_ext' {A} (a b : list A) : (forall k, nth_error a k = nth_error b k) -> a = b.
Proof.
  revert b. induction a as [|x a IH]; intros [|y b] E; [reflexivity|specialize (E O); discriminate|specialize (E O); discriminate|].
  f_equal; [specialize (E O); cbn in E; congruence|]. apply IH. intros k. exact (E (S k)).
Qed.
Lemma map_shown {A} w b after (f : txview -> A) (g : bool -> tx -> A) :
  bviewable b -> bytes_ok (block_to_data true b ++ after) -> len (block_to_data true b) + len after < 2 ^ 64 ->
  (forall cb pre post t v, In t (b_txs b) -> viewable t -> shows cb w (len pre) t v -> len (tx_to_data true t) < 2 ^ 64 ->
     block_to_data true b ++ after = pre ++ tx_to_data true t ++ post -> f v = g cb t) ->
  map f (block_view w (block_to_data true b ++ after)) = by_place g (b_txs b).
Proof.
  intros V Hb Hl Hf. apply nth_ext'. intros k. rewrite nth_by_place, nth_error_map. destruct (nth_error (b_txs b) k) as [t|] eqn:E.
  - destruct (shown_at w b after k t V Hb Hl E) as (v & pre & post & Ev & Eb & Sh & Vt & Sz). rewrite Ev. cbn [option_map]. f_equal. eapply Hf; eauto. eapply nth_error_In, E.
  - pose proof (shown_length _ _ _ _ _ (block_shown w b after V Hb Hl)) as Ln. apply nth_error_None in E. rewrite <- Ln in E. apply nth_error_None in E. rewrite E. reflexivity.
Qed.
Lemma by_place_same {A} (g : tx -> A) l : by_place (fun _ => g) l = map g l.
Proof. destruct l; reflexivity. Qed.

Section Whole.
Variable D : list Z -> list Z.
Variables (w : bool) (b : block) (after : list Z).
Hypothesis V : bviewable b.
Let buffer := block_to_data true b ++ after.
Hypothesis Hb : bytes_ok buffer.
Hypothesis Hl : len (block_to_data true b) + len after < 2 ^ 64.
Let vs := block_view w buffer.

Lemma hashes_shown x : blockview_hashes D buffer x vs =
  by_place (fun cb t => if x && (tx_segregated t && w) then (if cb then null_hash else D (tx_to_data true t)) else D (tx_to_data false t)) (b_txs b).
Proof.
  unfold blockview_hashes. apply map_shown; [exact V|exact Hb|exact Hl|]. intros cb pre post t v _ Vt Sh Sz E. fold buffer in E. rewrite E. apply hash_shown with (cb := cb) (w := w); assumption.
Qed.
Lemma txids_shown : blockview_hashes D buffer false vs = map (fun t => D (tx_to_data false t)) (b_txs b).
Proof. rewrite hashes_shown. cbn [andb]. apply by_place_same. Qed.
Lemma sizes_shown : map (view_size false) vs = map (fun t => len (tx_to_data false t)) (b_txs b).
Proof. rewrite <- by_place_same. apply map_shown; [exact V|exact Hb|exact Hl|]. intros cb pre post t v _ Vt Sh Sz E. apply (size_shown D cb w pre post t v Vt Sh false). Qed.
Lemma datas_shown : map (view_to_data buffer false) vs = map (tx_to_data false) (b_txs b).
Proof. rewrite <- by_place_same. apply map_shown; [exact V|exact Hb|exact Hl|]. intros cb pre post t v _ Vt Sh Sz E. fold buffer in E. rewrite E. apply (to_data_shown D cb w pre post t v Vt Sh false). Qed.
Lemma segregated_shown : map v_segregated vs = map (fun t => tx_segregated t && w) (b_txs b).
Proof. rewrite <- by_place_same. apply map_shown; [exact V|exact Hb|exact Hl|]. intros cb pre post t v _ Vt Sh Sz E. apply (sh_seg _ _ _ _ _ Sh). Qed.
Lemma count_shown : len vs = len (b_txs b).
Proof. unfold len. f_equal. eapply shown_length, block_shown; eassumption. Qed.
Lemma first_shown t l : b_txs b = t :: l -> exists v vl pre post, vs = v :: vl /\ buffer = pre ++ tx_to_data true t ++ post /\ shows true w (len pre) t v /\ viewable t /\ len (tx_to_data true t) < 2 ^ 64.
Proof.
  intros E. destruct (shown_at w b after 0 t V Hb Hl) as (v & pre & post & Ev & R); [rewrite E; reflexivity|]. fold buffer in Ev, R. fold vs in Ev.
  destruct vs as [|v' vl]; [discriminate|]. cbn [nth_error] in Ev. injection Ev as ->. exists v, vl, pre, post. destruct R as (R1 & R2 & R3 & R4). auto.
Qed.
End Whole.
