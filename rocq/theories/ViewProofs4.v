(** What the view's functions return, in terms of the transaction shown. *)
From Verif Require Import Base Bytes MathModel MathSpec MathProofs StreamModel StreamSpec StreamProofs StreamProofs2 LineProofs LCalc OpModel OpProofs OpProofs2 OpProofs3 ChainModel RCalc ChainSpec ChainProofs ChainProofs2 ChainProofs3 ChainProofs4 ChainProps BlockModel BlockSpec BlockProofs3 BlockProps2 ViewModel ViewProofs ViewProofs2 ViewProofs3.

Lemma skipn_pre (a b : list Z) n : n = len a -> skipn (Z.to_nat n) (a ++ b) = b.
Proof. intros ->. apply skipn_len_app. reflexivity. Qed.
Lemma sub_at (a m c : list Z) from size : from = len a -> size = len m -> sub_bytes (a ++ m ++ c) from size = m.
Proof. intros -> ->. apply sub_bytes_app. Qed.
Lemma app_eq4 {A} (l : list A) a b c : l = a ++ b ++ c -> l = a ++ b ++ c. Proof. auto. Qed.

Section One.
Variable D : list Z -> list Z.
Variables (cb w : bool) (before after : list Z) (t : tx) (v : txview).
Hypothesis V : viewable t.
Hypothesis Sh : shows cb w (len before) t v.
Hypothesis Sz : len (tx_to_data true t) < 2 ^ 64.
Let buffer := before ++ tx_to_data true t ++ after.

Lemma at_shown : at_tx buffer v = tx_to_data true t ++ after.
Proof. unfold at_tx, buffer. rewrite (sh_start _ _ _ _ _ Sh). apply skipn_pre. reflexivity. Qed.
Lemma wits_zero : (v_wits v =? 0) = negb (tx_segregated t).
Proof.
  rewrite (sh_wits _ _ _ _ _ Sh). unfold wit_bytes. destruct (tx_segregated t) eqn:Sg; [|reflexivity].
  destruct V as (_ & Ni & _). apply Z.eqb_neq. unfold wits. destruct (tx_inputs t) as [|i l]; [congruence|]. cbn [map concat]. unfold witness_to_data.
  rewrite !len_app, len_write_variable. pose proof (variable_size_pos (len (in_witness i))). pose proof (len_nonneg (concat (map element_to_data (in_witness i)))).
  pose proof (len_nonneg (concat (map (fun i => write_variable (len (in_witness i)) ++ concat (map element_to_data (in_witness i))) l))). lia.
Qed.
Lemma lens : len (tx_to_data true t) = len (tx_to_data false t) + (if tx_segregated t then 2 + len (wit_bytes t) else 0).
Proof. rewrite !tx_data_len. cbn [andb]. unfold wit_bytes. destruct (tx_segregated t); lia. Qed.
Lemma stripped_shown : stripped_size v = len (tx_to_data false t).
Proof.
  unfold stripped_size. rewrite wits_zero, (sh_size _ _ _ _ _ Sh), (sh_wits _ _ _ _ _ Sh), lens. destruct (tx_segregated t); cbn [negb]; lia.
Qed.
Lemma plain_same : tx_segregated t = false -> tx_to_data true t = tx_to_data false t.
Proof. intros Sg. unfold tx_to_data. rewrite Sg. reflexivity. Qed.
Lemma txid_shown : view_txid D buffer v = D (tx_to_data false t).
Proof.
  unfold view_txid. rewrite (sh_marked _ _ _ _ _ Sh), at_shown. destruct V as (W & _). destruct (tx_segregated t) eqn:Sg.
  - rewrite stripped_shown, (sh_size _ _ _ _ _ Sh). rewrite <- (desegregated D t after W Sg Sz). pose proof (twf_hashes t W) as Hh.
    rewrite (tx_sized true t Hh Sz). rewrite (tx_sized false t Hh); [reflexivity|]. pose proof lens as L. rewrite Sg in L. pose proof (len_nonneg (wit_bytes t)). lia.
  - rewrite sub_bytes_first by apply (sh_size _ _ _ _ _ Sh). rewrite plain_same by exact Sg. reflexivity.
Qed.
Lemma hash_shown x : view_hash D buffer x v =
  if x && (tx_segregated t && w) then (if cb then null_hash else D (tx_to_data true t)) else D (tx_to_data false t).
Proof.
  unfold view_hash. rewrite (sh_seg _ _ _ _ _ Sh). destruct (x && (tx_segregated t && w)) eqn:Q; [|apply txid_shown].
  apply andb_true_iff in Q as [_ Q]. unfold view_wtxid. rewrite (sh_seg _ _ _ _ _ Sh), (sh_cb _ _ _ _ _ Sh), Q, at_shown. cbn [andb].
  destruct cb; cbn [negb]; [reflexivity|]. rewrite sub_bytes_first by apply (sh_size _ _ _ _ _ Sh). reflexivity.
Qed.
Lemma len_le4 n : len (write_le 4 n) = 4. Proof. unfold write_le. rewrite len_le_bytes. reflexivity. Qed.
Lemma le4_value n : u32_ok n -> le_value (write_le 4 n) = n.
Proof. intros H. unfold write_le. rewrite le_value_bytes. apply Z.mod_small. exact H. Qed.
Lemma version_shown : view_version buffer v = tx_version t.
Proof.
  unfold view_version. rewrite at_shown, tx_bytes. rewrite <- app_assoc. rewrite sub_bytes_first by (symmetry; apply len_le4). apply le4_value. apply V.
Qed.
Definition body_bytes : list Z := write_variable (len (tx_inputs t)) ++ ins_bytes t ++ write_variable (len (tx_outputs t)) ++ outs_bytes t.
Lemma true_bytes : tx_to_data true t = write_le 4 (tx_version t) ++ mark t ++ body_bytes ++ wit_bytes t ++ write_le 4 (tx_locktime t).
Proof. rewrite tx_bytes. unfold body_bytes. rewrite <- !app_assoc. reflexivity. Qed.
Lemma false_bytes : tx_to_data false t = write_le 4 (tx_version t) ++ body_bytes ++ write_le 4 (tx_locktime t).
Proof. rewrite tx_bytes_plain. unfold body_bytes. rewrite <- !app_assoc. reflexivity. Qed.
Lemma len_true : len (tx_to_data true t) = 8 + len (mark t) + len body_bytes + len (wit_bytes t).
Proof. rewrite true_bytes, !len_app, !len_le4. lia. Qed.
Lemma locktime_bytes_shown : sub_bytes (at_tx buffer v) (v_size v - 4) 4 = write_le 4 (tx_locktime t).
Proof.
  rewrite at_shown, (sh_size _ _ _ _ _ Sh), len_true, true_bytes.
  replace ((write_le 4 (tx_version t) ++ mark t ++ body_bytes ++ wit_bytes t ++ write_le 4 (tx_locktime t)) ++ after)
    with ((write_le 4 (tx_version t) ++ mark t ++ body_bytes ++ wit_bytes t) ++ write_le 4 (tx_locktime t) ++ after) by (rewrite <- !app_assoc; reflexivity).
  apply sub_at; [rewrite !len_app, len_le4; lia|symmetry; apply len_le4].
Qed.
Lemma locktime_shown : view_locktime buffer v = tx_locktime t.
Proof. unfold view_locktime. rewrite locktime_bytes_shown. apply le4_value. apply V. Qed.
Lemma size_shown x : view_size x v = len (tx_to_data (x && w) t).
Proof.
  unfold view_size. rewrite (sh_seg _ _ _ _ _ Sh), stripped_shown, (sh_size _ _ _ _ _ Sh). destruct x, w; cbn [andb]; rewrite ?andb_true_r, ?andb_false_r; try reflexivity.
  destruct (tx_segregated t) eqn:Sg; [reflexivity|]. rewrite plain_same by exact Sg. reflexivity.
Qed.
Lemma to_data_shown x : view_to_data buffer x v = tx_to_data (x && w) t.
Proof.
  unfold view_to_data. rewrite (sh_seg _ _ _ _ _ Sh), wits_zero, locktime_bytes_shown, at_shown.
  assert (P : sub_bytes (tx_to_data true t ++ after) 0 4 ++
    sub_bytes (tx_to_data true t ++ after) (4 + (if negb (tx_segregated t) then 0 else 2)) (v_size v - v_wits v - 4 - 4 - (if negb (tx_segregated t) then 0 else 2)) ++
    write_le 4 (tx_locktime t) = tx_to_data false t).
  { rewrite false_bytes, true_bytes, <- !app_assoc. f_equal. f_equal.
    rewrite (app_assoc (write_le 4 (tx_version t)) (mark t)). apply sub_at.
    - rewrite len_app, len_le4. unfold mark. destruct (tx_segregated t); reflexivity.
    - rewrite (sh_size _ _ _ _ _ Sh), (sh_wits _ _ _ _ _ Sh), len_true. unfold mark. destruct (tx_segregated t); cbn [negb]; change (len [0; 1]) with 2; change (len (@nil Z)) with 0; lia. }
  destruct x, w; cbn [andb]; rewrite ?andb_true_r, ?andb_false_r; try exact P.
  destruct (tx_segregated t) eqn:Sg; [apply sub_bytes_first, (sh_size _ _ _ _ _ Sh)|]. rewrite (plain_same Sg) in P |- *. exact P.
Qed.
Lemma data_shown x : view_data buffer x v = tx_to_data (x && w) t.
Proof. unfold view_data. rewrite size_shown, to_data_shown. apply fill_exact. reflexivity. Qed.

Lemma null_point_shown i l : tx_inputs t = i :: l -> view_null_point buffer v = input_is_null i.
Proof.
  intros Ei. unfold view_null_point, input_is_null. rewrite at_shown, (sh_in _ _ _ _ _ Sh), tx_bytes. unfold ins_bytes. rewrite Ei. cbn [map concat]. unfold input_to_data at 1 3.
  destruct V as (W & _). destruct W as (_ & _ & _ & Fi & _). rewrite Ei in Fi. inversion Fi as [|? ? ((Lh & _) & Hx & _) _]; subst. pose proof (len_hash _ Lh) as L32.
  rewrite <- !app_assoc. rewrite andb_comm. f_equal.
  - rewrite (app_assoc (write_le 4 (tx_version t))), (app_assoc (_ ++ _) (write_variable _)), (app_assoc (_ ++ _) (in_hash i)).
    rewrite sub_at; [rewrite le4_value by exact Hx; reflexivity| |symmetry; apply len_le4]. rewrite !len_app, len_le4, len_write_variable. lia.
  - rewrite (app_assoc (write_le 4 (tx_version t))), (app_assoc (_ ++ _) (write_variable _)).
    rewrite sub_at; [reflexivity| |symmetry; exact L32]. rewrite !len_app, len_le4, len_write_variable. lia.
Qed.

(** The commitment scan. *)
Definition commitment_of (sc : list Z) : option (list Z) :=
  if is_commitment_bytes sc (len sc) then Some (sub_bytes sc 6 32) else None.
Lemma firstn_pre (n : nat) (a b : list Z) : (n <= length a)%nat -> firstn n (a ++ b) = firstn n a.
Proof. intros H. rewrite firstn_app. replace (n - length a)%nat with 0%nat by lia. rewrite firstn_O, app_nil_r. reflexivity. Qed.
Lemma skipn_pre' (n : nat) (a b : list Z) : (n <= length a)%nat -> skipn n (a ++ b) = skipn n a ++ b.
Proof. intros H. rewrite skipn_app. replace (n - length a)%nat with 0%nat by lia. reflexivity. Qed.
Lemma commitment_pre sc more found : (if is_commitment_bytes (sc ++ more) (len sc) then Some (sub_bytes (sc ++ more) 6 32) else found) =
  match commitment_of sc with Some h => Some h | None => found end.
Proof.
  unfold commitment_of, is_commitment_bytes. destruct (Z.gtb_spec (6 + 32) (len sc)) as [L|L]; [reflexivity|].
  assert (38 <= length sc)%nat by (unfold len in L; lia). rewrite firstn_pre by lia.
  destruct (bytes_eq _ _); [|reflexivity]. unfold sub_bytes. change (Z.to_nat 6) with 6%nat. change (Z.to_nat 32) with 32%nat.
  rewrite skipn_pre' by lia. rewrite firstn_pre by (rewrite skipn_length; lia). reflexivity.
Qed.
Lemma commitment_hash o : script_ok (out_script o) -> committed_hash o = commitment_of (script_bytes (out_script o)).
Proof.
  intros Ok. pose proof (committed_spec o Ok) as C.
  assert (C' : forall h, commitment_of (script_bytes (out_script o)) = Some h <-> commitment_bytes h (script_bytes (out_script o))).
  { intros h. unfold commitment_of, is_commitment_bytes, commitment_bytes. set (b := script_bytes (out_script o)). split.
    - destruct (Z.gtb_spec (6 + 32) (len b)) as [L|L]; [discriminate|]. destruct (bytes_eq _ _) eqn:Q; [|discriminate]. apply bytes_eq_true in Q.
      intros X. injection X as <-. assert (38 <= length b)%nat by (unfold len in L; lia). unfold sub_bytes. change (Z.to_nat 6) with 6%nat. change (Z.to_nat 32) with 32%nat.
      split; [rewrite firstn_length, skipn_length; lia|]. exists (skipn 32 (skipn 6 b)). rewrite <- app_assoc, firstn_skipn.
      rewrite <- (firstn_skipn 6 b) at 1. rewrite Q. reflexivity.
    - intros (L & r & E). rewrite E. assert (Lb : len (([106; 36; 170; 33; 169; 237] ++ h) ++ r) = 38 + len r) by (unfold len; rewrite !app_length, L; cbn [length]; lia). rewrite Lb.
      pose proof (len_nonneg r). destruct (Z.gtb_spec (6 + 32) (38 + len r)); [lia|]. rewrite <- app_assoc. cbn [app firstn]. rewrite (proj2 (bytes_eq_true _ _) eq_refl).
      unfold sub_bytes. change (Z.to_nat 6) with 6%nat. change (Z.to_nat 32) with 32%nat. cbn [skipn]. rewrite firstn_pre by lia. rewrite firstn_all2 by lia. reflexivity. }
  destruct (committed_hash o) as [h|]; destruct (commitment_of _) as [k|]; try reflexivity.
  - f_equal. symmetry. pose proof (proj1 (C h) eq_refl) as X. apply C' in X. congruence.
  - pose proof (proj1 (C h) eq_refl) as X. apply C' in X. discriminate.
  - pose proof (proj1 (C' k) eq_refl) as X. apply C in X. discriminate.
Qed.
Lemma loop_shown l : Forall ook l -> forall pre tail found s, good s = true -> past s = rev pre -> rest s = concat (map output_to_data l) ->
  len (rest s) <= lim s <= 2 ^ 64 - 1 ->
  commitment_loop (length l) (pre ++ concat (map output_to_data l) ++ tail) s found =
  match first_committed (rev l) with Some h => Some h | None => found end.
Proof.
  induction 1 as [|o l ((Hv & Hs) & (_ & Small)) _ IH]; intros pre tail found s Hg Hp Hr Hl; [reflexivity|]. cbn [length commitment_loop map concat] in *.
  unfold output_to_data at 1 in Hr. rewrite script_enc in Hr. rewrite <- !app_assoc in Hr. set (sc := ops_to_data (out_script o)) in *. set (more := concat (map output_to_data l)) in *.
  rewrite Hr, !len_app in Hl. pose proof (len_nonneg more). pose proof (len_nonneg sc). pose proof (len_nonneg (write_variable (len sc))). pose proof (len_nonneg (write_le 8 (out_value o))).
  assert (L8 : len (write_le 8 (out_value o)) = 8) by (unfold write_le; rewrite len_le_bytes; reflexivity).
  pose proof (f_equal snd (do_skip_parses (write_le 8 (out_value o)) s _ Hg Hr ltac:(lia))) as E1. cbv beta in E1. cbn [snd] in E1.
  rewrite L8 in E1. rewrite E1. clear E1.
  destruct Hs as (Ws & Fs). unfold script_fits in Fs. fold sc in Fs.
  rewrite (read_size_parses max_size_t (len sc) ltac:(lia) ltac:(unfold max_size_t; lia) (eat (write_le 8 (out_value o)) (write_variable (len sc) ++ sc ++ more) s) (sc ++ more) eq_refl eq_refl) by (unfold eat; cbn [lim]; lia).
  set (s2 := eat (write_variable (len sc)) (sc ++ more) (eat (write_le 8 (out_value o)) (write_variable (len sc) ++ sc ++ more) s)).
  assert (P2 : past s2 = rev (pre ++ write_le 8 (out_value o) ++ write_variable (len sc))).
  { unfold s2, eat. cbn [past]. rewrite Hp, !rev_app_distr, <- !app_assoc. reflexivity. }
  assert (P : position s2 = len (pre ++ write_le 8 (out_value o) ++ write_variable (len sc))) by (unfold position; rewrite P2, len_rev; reflexivity).
  assert (Eb : pre ++ (output_to_data o ++ more) ++ tail = (pre ++ write_le 8 (out_value o) ++ write_variable (len sc)) ++ sc ++ more ++ tail).
  { unfold output_to_data. rewrite script_enc. fold sc. rewrite <- !app_assoc. reflexivity. }
  rewrite P, Eb, skipn_pre by reflexivity. rewrite commitment_pre.
  pose proof (do_skip_parses sc s2 more eq_refl eq_refl ltac:(unfold s2, eat; cbn [lim]; lia)) as E3. apply (f_equal snd) in E3. cbv beta in E3. cbn [snd] in E3. rewrite E3.
  assert (Eb2 : (pre ++ write_le 8 (out_value o) ++ write_variable (len sc)) ++ sc ++ more ++ tail = (pre ++ write_le 8 (out_value o) ++ write_variable (len sc) ++ sc) ++ more ++ tail).
  { rewrite <- !app_assoc. reflexivity. }
  rewrite Eb2. rewrite IH; [|reflexivity| |reflexivity|].
  - assert (Oo : script_ok (out_script o)) by (apply swf_script_ok; [split; [exact Ws|exact Fs]|]; fold sc in Small |- *; lia).
    pose proof (commitment_hash o Oo) as CH. change (script_bytes (out_script o)) with sc in CH.
    cbn [rev]. assert (FC : forall a, first_committed (a ++ [o]) = match first_committed a with Some h => Some h | None => committed_hash o end).
    { induction a as [|x a IHa]; cbn [app first_committed]; [destruct (committed_hash o); reflexivity|]. rewrite IHa. destruct (committed_hash x); reflexivity. }
    rewrite FC, CH. destruct (first_committed (rev l)); [reflexivity|]. destruct (commitment_of sc); reflexivity.
  - unfold eat. cbn [past]. rewrite P2, !rev_app_distr, <- !app_assoc. reflexivity.
  - unfold s2, eat. cbn [rest lim]. lia.
Qed.
End One.
Section Two.
Variable D : list Z -> list Z.
Variables (cb w : bool) (before after : list Z) (t : tx) (v : txview).
Hypothesis V : viewable t.
Hypothesis Sh : shows cb w (len before) t v.
Hypothesis Sz : len (tx_to_data true t) < 2 ^ 64.
Let buffer := before ++ tx_to_data true t ++ after.

Lemma commitment_shown : view_commitment buffer v = first_committed (rev (tx_outputs t)).
Proof.
  unfold view_commitment. pose proof (at_shown cb w before after t v Sh) as A. fold buffer in A. rewrite A.
  assert (E : skipn (Z.to_nat (v_out v)) (tx_to_data true t ++ after) = outs_bytes t ++ wit_bytes t ++ write_le 4 (tx_locktime t) ++ after).
  { rewrite tx_bytes. replace (_ ++ after) with ((write_le 4 (tx_version t) ++ mark t ++ write_variable (len (tx_inputs t)) ++ ins_bytes t ++
      write_variable (len (tx_outputs t))) ++ outs_bytes t ++ wit_bytes t ++ write_le 4 (tx_locktime t) ++ after) by (rewrite <- !app_assoc; reflexivity).
    apply skipn_pre. rewrite !len_app, !len_write_variable, len_le4. rewrite (sh_out _ _ _ _ _ Sh), (sh_in _ _ _ _ _ Sh). lia. }
  rewrite E. assert (O : outputs_size v = len (outs_bytes t)).
  { unfold outputs_size. rewrite (sh_size _ _ _ _ _ Sh), (sh_out _ _ _ _ _ Sh), (sh_in _ _ _ _ _ Sh), (sh_wits _ _ _ _ _ Sh), tx_bytes.
    rewrite !len_app, !len_write_variable, !len_le4. lia. }
  rewrite O, firstn_len_app by reflexivity. rewrite (sh_outs _ _ _ _ _ Sh), len_nat. destruct V as (Wf & _ & _ & _ & So & _).
  destruct Wf as (_ & _ & _ & _ & _ & _ & Fo & _). unfold outs_bytes.
  rewrite (loop_shown D (tx_outputs t)) with (pre := []) (tail := wit_bytes t ++ write_le 4 (tx_locktime t) ++ after); try reflexivity.
  - destruct (first_committed (rev (tx_outputs t))); reflexivity.
  - rewrite Forall_forall in *. intros o Ho. split; auto.
  - cbn [fresh rest lim]. unfold max_size_t. pose proof (len_nonneg (concat (map output_to_data (tx_outputs t)))).
    rewrite tx_bytes, !len_app in Sz. unfold outs_bytes in Sz. 
    pose proof (len_nonneg (write_le 4 (tx_version t))). pose proof (len_nonneg (mark t)). pose proof (len_nonneg (write_variable (len (tx_inputs t)))). pose proof (len_nonneg (ins_bytes t)).
    pose proof (len_nonneg (write_variable (len (tx_outputs t)))). pose proof (len_nonneg (wit_bytes t)). pose proof (len_nonneg (write_le 4 (tx_locktime t))). lia.
Qed.
Lemma write_variable_head n b u : 0 <= n -> write_variable n = b :: u -> b < 253 -> n = b /\ u = [].
Proof.
  intros H E Hb. unfold write_variable in E. destruct (Z.ltb_spec n 253).
  - rewrite (wrap_fits u8) in E; [|reflexivity|unfold fits; cbn; lia]. injection E as <- <-. auto.
  - destruct (n <=? 65535); [|destruct (n <=? 4294967295)]; injection E as <- _; lia.
Qed.
Lemma reservation_shown i l : tx_inputs t = i :: l -> view_reservation buffer v = reserved_hash i.
Proof.
  intros Ei. unfold view_reservation. pose proof (at_shown cb w before after t v Sh) as A. fold buffer in A. rewrite A.
  assert (E : skipn (Z.to_nat (v_size v - (v_wits v + 4))) (tx_to_data true t ++ after) = wit_bytes t ++ write_le 4 (tx_locktime t) ++ after).
  { rewrite (sh_size _ _ _ _ _ Sh), (sh_wits _ _ _ _ _ Sh), tx_bytes.
    replace (_ ++ after) with ((write_le 4 (tx_version t) ++ mark t ++ write_variable (len (tx_inputs t)) ++ ins_bytes t ++
      write_variable (len (tx_outputs t)) ++ outs_bytes t) ++ wit_bytes t ++ write_le 4 (tx_locktime t) ++ after) by (rewrite <- !app_assoc; reflexivity).
    apply skipn_pre. rewrite !len_app, !len_le4. lia. }
  rewrite E, (sh_wits _ _ _ _ _ Sh). destruct V as (Wf & _ & _ & _ & _ & _). destruct Wf as (_ & _ & _ & _ & Fw & _ & _ & Sg).
  rewrite Ei in Fw. inversion Fw as [|? ? (W1 & W2) _]; subst. unfold is_reserved_bytes. unfold wit_bytes. rewrite Sg. destruct (has_witness_data (tx_inputs t)) eqn:Hw.
  2:{ change (2 + 32 >? len (@nil Z)) with true. cbv iota. rewrite Ei in Hw. cbn in Hw. apply orb_false_iff in Hw as [Hw _]. unfold reserved_hash. destruct (in_witness i); [reflexivity|discriminate]. }
  unfold wits. rewrite Ei. cbn [map concat]. fold (wits l). unfold witness_to_data at 1 2 3. set (tail := write_le 4 (tx_locktime t) ++ after).
  destruct (2 + 32 >? _) eqn:Q.
  - (* too short to hold the pattern *)
    unfold reserved_hash. destruct (in_witness i) as [|e [|e' es]]; try reflexivity. destruct (Z.eqb_spec (len e) 32) as [Le|]; [|reflexivity]. exfalso.
    apply Z.gtb_lt in Q. cbn [map concat] in Q. unfold element_to_data in Q. rewrite !len_app, !len_write_variable, Le in Q. change (variable_size 32) with 1 in Q. change (variable_size (len [e])) with 1 in Q.
    change (len (@nil Z)) with 0 in Q. pose proof (len_nonneg (wits l)). lia.
  - destruct (bytes_eq (firstn 2 _) [1; 32]) eqn:P.
    + apply bytes_eq_true in P. rewrite <- !app_assoc in P.
      destruct (write_variable_cons (len (in_witness i)) (len_nonneg _)) as (b & u & Eb & B1 & _). rewrite Eb in P. cbn [app firstn] in P. injection P as -> P.
      destruct (write_variable_head _ 1 u (len_nonneg _) Eb ltac:(lia)) as [L1 ->]. rewrite L1 in *. cbn [app] in P.
      destruct (in_witness i) as [|e [|e' es]] eqn:Ew; [discriminate L1| |rewrite !len_cons in L1; pose proof (len_nonneg es); lia].
      cbn [map concat] in *. rewrite app_nil_r in *. unfold element_to_data in *.
      destruct (write_variable_cons (len e) (len_nonneg _)) as (b2 & u2 & Eb2 & _ & _). rewrite Eb2 in P. cbn [app firstn] in P. injection P as ->.
      destruct (write_variable_head _ 32 u2 (len_nonneg _) Eb2 ltac:(lia)) as [L2 ->]. unfold reserved_hash. rewrite Ew, L2. cbn [Z.eqb Pos.eqb].
      f_equal. change (write_variable 1) with [1]. change (write_variable 32) with [32]. rewrite <- !app_assoc. cbn [app]. change (1 :: 32 :: e ++ wits l ++ tail) with ([1; 32] ++ e ++ wits l ++ tail). apply sub_at; [reflexivity|symmetry; exact L2].
    + unfold reserved_hash. destruct (in_witness i) as [|e [|e' es]] eqn:Ew; try reflexivity. destruct (Z.eqb_spec (len e) 32) as [Le|]; [|reflexivity]. exfalso.
      apply bytes_eq_false in P. apply P. cbn [map concat]. unfold element_to_data. rewrite Le. reflexivity.
Qed.
End Two.
