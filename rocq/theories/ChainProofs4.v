From Verif Require Import Base Bytes MathModel MathSpec MathProofs MathProofs2 StreamModel StreamSpec StreamProofs StreamProofs2 LCalc OpModel OpProofs OpProofs2 OpProofs3 ChainModel RCalc ChainSpec ChainProofs ChainProofs2.

(** ** Sizes *)
Lemma fits64 x : 0 <= x < 2 ^ 64 -> fits u64 x.
Proof. intros H. unfold fits. cbn [imin imax u64 sg bits]. lia. Qed.
Lemma cadd_sum x y : 0 <= x -> 0 <= y -> x + y < 2 ^ 64 -> cadd x y = x + y.
Proof.
  intros Hx Hy H. unfold cadd. rewrite ceilinged_add_clamps; [|cbn; lia|apply fits64; lia|apply fits64; lia].
  unfold clamp. cbn [imin imax u64 sg bits]. lia.
Qed.
Lemma cadd_min x y : 0 <= x < 2 ^ 64 -> 0 <= y < 2 ^ 64 -> cadd x y = Z.min (2 ^ 64 - 1) (x + y).
Proof.
  intros Hx Hy. unfold cadd. rewrite ceilinged_add_clamps; [|cbn; lia|apply fits64; lia|apply fits64; lia].
  unfold clamp. cbn [imin imax u64 sg bits]. lia.
Qed.
Lemma cmul_prod x y : 0 <= x < 2 ^ 64 -> 0 <= y < 2 ^ 64 -> x * y < 2 ^ 64 -> cmul x y = x * y.
Proof.
  intros Hx Hy H. unfold cmul. rewrite ceilinged_multiply_clamps; [|cbn; lia|reflexivity|apply fits64; lia|apply fits64; lia].
  unfold clamp. cbn [imin imax u64 sg bits]. assert (0 <= x * y) by nia. lia.
Qed.
Lemma variable_size_pos n : 1 <= variable_size n <= 9.
Proof. unfold variable_size. repeat match goal with |- context[if ?b then _ else _] => destruct b end; lia. Qed.

Definition sized {A} (enc : A -> list Z) (f : A -> Z) (a : A) : Prop := len (enc a) < 2 ^ 64 -> f a = len (enc a).
Lemma sum_from {A} (f : A -> Z) (enc : A -> list Z) l : (forall a, sized enc f a) -> forall acc, 0 <= acc ->
  acc + len (concat (map enc l)) < 2 ^ 64 -> fold_left (fun total a => cadd total (f a)) l acc = acc + len (concat (map enc l)).
Proof.
  intros Hf. induction l as [|a l IH]; intros acc Ha H; cbn [fold_left map concat] in *; [change (len (@nil Z)) with 0 in *; lia|].
  rewrite len_app in *. pose proof (len_nonneg (enc a)). pose proof (len_nonneg (concat (map enc l))).
  rewrite (Hf a) by lia. rewrite cadd_sum by lia. rewrite IH by lia. lia.
Qed.
Lemma sum_sizes_len {A} (f : A -> Z) (enc : A -> list Z) l : (forall a, sized enc f a) ->
  len (concat (map enc l)) < 2 ^ 64 -> sum_sizes f l = len (concat (map enc l)).
Proof. intros Hf H. unfold sum_sizes. rewrite (sum_from f enc l Hf 0); lia. Qed.

Lemma script_sized : forall s, sized (script_to_data true) (script_size true) s.
Proof.
  intros s H. unfold script_to_data, script_size in *. rewrite ops_size_len in *. rewrite len_app, len_write_variable in *.
  fold (cadd (len (ops_to_data s)) (variable_size (len (ops_to_data s)))). pose proof (variable_size_pos (len (ops_to_data s))). pose proof (len_nonneg (ops_to_data s)).
  rewrite cadd_sum by lia. lia.
Qed.
Lemma output_sized : forall o, sized output_to_data output_size o.
Proof.
  intros o H. unfold output_to_data, output_size in *. rewrite len_app in *. unfold write_le in *. rewrite len_le_bytes in *.
  pose proof (len_nonneg (script_to_data true (out_script o))). change (Z.of_nat 8) with 8 in *. rewrite script_sized by lia. apply cadd_sum; lia.
Qed.
Lemma input_sized i : length (in_hash i) = 32%nat -> sized input_to_data input_nominal_size i.
Proof.
  intros Hh H. unfold input_to_data, input_nominal_size in *. rewrite !len_app in *. unfold write_le in *. rewrite !len_le_bytes in *.
  rewrite (len_hash _ Hh) in *. change (Z.of_nat 4) with 4 in *. change (cadd 36 4) with 40.
  pose proof (len_nonneg (script_to_data true (in_script i))). rewrite script_sized by lia. rewrite cadd_sum by lia. lia.
Qed.
Lemma element_sized : forall e, sized element_to_data element_size e.
Proof.
  intros e H. unfold element_to_data, element_size in *. rewrite len_app, len_write_variable in *. pose proof (variable_size_pos (len e)). pose proof (len_nonneg e).
  apply cadd_sum; lia.
Qed.
Lemma witness_sized : forall w, sized witness_to_data witness_size w.
Proof.
  intros w H. unfold witness_to_data, witness_size in *. rewrite len_app, len_write_variable in *. pose proof (variable_size_pos (len w)).
  pose proof (len_nonneg (concat (map element_to_data w))). rewrite (sum_from element_size element_to_data w element_sized 0) by lia. rewrite cadd_sum; lia.
Qed.
Lemma input_witnessed_sized i : length (in_hash i) = 32%nat ->
  sized (fun i => input_to_data i ++ witness_to_data (in_witness i)) input_witnessed_size i.
Proof.
  intros Hh H. cbv beta in *. rewrite len_app in *. unfold input_witnessed_size. pose proof (len_nonneg (input_to_data i)). pose proof (len_nonneg (witness_to_data (in_witness i))).
  rewrite (input_sized i Hh) by lia. rewrite witness_sized by lia. apply cadd_sum; lia.
Qed.

(** Only the well-formed inputs of a transaction matter. *)
Lemma sum_sizes_len' {A} (f : A -> Z) (enc : A -> list Z) l : Forall (sized enc f) l ->
  forall acc, 0 <= acc -> acc + len (concat (map enc l)) < 2 ^ 64 -> fold_left (fun total a => cadd total (f a)) l acc = acc + len (concat (map enc l)).
Proof.
  induction 1 as [|a l Ha _ IH]; intros acc H0 H; cbn [fold_left map concat] in *; [change (len (@nil Z)) with 0 in *; lia|].
  rewrite len_app in *. pose proof (len_nonneg (enc a)). pose proof (len_nonneg (concat (map enc l))).
  rewrite Ha by lia. rewrite cadd_sum by lia. rewrite IH by lia. lia.
Qed.
Definition hashes_sized (t : tx) : Prop := Forall (fun i => length (in_hash i) = 32%nat) (tx_inputs t).
Lemma twf_hashes t : twf t -> hashes_sized t.
Proof. intros (_ & _ & _ & F & _). eapply Forall_impl; [|exact F]. intros i ((H & _) & _). exact H. Qed.

Lemma interleave_len l : len (concat (map (fun i => input_to_data i ++ witness_to_data (in_witness i)) l)) =
  len (concat (map input_to_data l)) + len (wits l).
Proof.
  unfold wits. induction l as [|i l IH]; [reflexivity|]. cbn [map concat]. rewrite !len_app, IH. lia.
Qed.
Lemma tx_data_len w t : len (tx_to_data w t) = 8 + variable_size (len (tx_inputs t)) + len (concat (map input_to_data (tx_inputs t))) +
  variable_size (len (tx_outputs t)) + len (concat (map output_to_data (tx_outputs t))) +
  (if w && tx_segregated t then 2 + len (wits (tx_inputs t)) else 0).
Proof.
  unfold tx_to_data. rewrite !len_app, !len_write_variable. unfold write_le. rewrite !len_le_bytes. change (Z.of_nat 4) with 4.
  destruct (w && tx_segregated t); unfold wits; [change (len [witness_marker; witness_enabled]) with 2|change (len (@nil Z)) with 0]; lia.
Qed.
Lemma tx_sized w t : hashes_sized t -> sized (tx_to_data w) (tx_size w) t.
Proof.
  intros Hh H. rewrite tx_data_len in H |- *. unfold tx_size, tx_base_size.
  pose proof (variable_size_pos (len (tx_inputs t))). pose proof (variable_size_pos (len (tx_outputs t))).
  pose proof (len_nonneg (concat (map input_to_data (tx_inputs t)))). pose proof (len_nonneg (concat (map output_to_data (tx_outputs t)))).
  pose proof (len_nonneg (wits (tx_inputs t))).
  assert (HO : len (concat (map output_to_data (tx_outputs t))) < 2 ^ 64) by (destruct (w && tx_segregated t); lia).
  rewrite (sum_sizes_len output_size output_to_data (tx_outputs t) output_sized HO).
  rewrite (cadd_sum 8) by lia. rewrite (cadd_sum (8 + _)) by lia.
  rewrite (cadd_sum (8 + _ + _)) by (destruct (w && tx_segregated t); lia).
  unfold sum_sizes. destruct (w && tx_segregated t).
  - rewrite (sum_sizes_len' input_witnessed_size (fun i => input_to_data i ++ witness_to_data (in_witness i))); [rewrite interleave_len|eapply Forall_impl; [|exact Hh]; intros i; apply input_witnessed_sized|lia|rewrite interleave_len; lia].
    rewrite (cadd_sum _ 2) by lia. rewrite cadd_sum by lia. lia.
  - rewrite (sum_sizes_len' input_nominal_size input_to_data); [|eapply Forall_impl; [|exact Hh]; intros i; apply input_sized|lia|lia].
    rewrite cadd_sum by lia. lia.
Qed.
Lemma fill_exact n b : n = len b -> fill n b = b.
Proof. intros ->. unfold fill. destruct (Z.gtb_spec (len b) (len b)); [lia|]. rewrite Z.sub_diag. apply app_nil_r. Qed.

(** ** Headers and blocks *)
Lemma header_parsesL h : header_ok h -> parsesL header_from_data (header_to_data h) h.
Proof.
  intros (H1 & H2 & H3 & H4 & H5 & H6). unfold header_from_data, header_to_data.
  eapply parsesL_bind'; [apply le4_parsesL, H1|]. eapply parsesL_bind'; [apply read_hash_parsesL, H2|]. eapply parsesL_bind'; [apply read_hash_parsesL, H3|].
  eapply parsesL_bind'; [apply le4_parsesL, H4|]. eapply parsesL_bind'; [apply le4_parsesL, H5|].
  eapply parsesL_enc; [apply app_nil_r|]. eapply parsesL_bind'; [apply le4_parsesL, H6|]. destruct h. apply parsesL_ret'.
Qed.
Ltac StkH := repeat first [ apply sticky_ret | apply read_le_sticky | apply read_hash_sticky | apply sticky_bind'; [|intros] ].
Lemma header_sticky : sticky header_from_data. Proof. unfold header_from_data. StkH. Qed.
Lemma header_exactL : exactL header_from_data header_to_data header_ok.
Proof.
  unfold header_from_data. eapply exactL_weaken.
  - eapply (exactL_bind' h_version); [apply le4_exactL| |StkH|intros; StkH|].
    intros a1 A1. eapply (exactL_bind' h_previous); [apply read_hash_exactL| |StkH|intros; StkH|].
    intros a2 A2. eapply (exactL_bind' h_merkle); [apply read_hash_exactL| |StkH|intros; StkH|].
    intros a3 A3. eapply (exactL_bind' h_time); [apply le4_exactL| |StkH|intros; StkH|].
    intros a4 A4. eapply (exactL_bind' h_bits); [apply le4_exactL| |StkH|intros; StkH|].
    intros a5 A5. eapply (exactL_bind' h_nonce); [apply le4_exactL| |StkH|intros; StkH|].
    intros a6 A6. apply exactL_ret.
    + intros a b ->. reflexivity.
    + cbv beta. intros a b (a6 & _ & ->). reflexivity.
    + cbv beta. intros a b (a5 & _ & a6 & _ & ->). reflexivity.
    + cbv beta. intros a b (a4 & _ & a5 & _ & a6 & _ & ->). reflexivity.
    + cbv beta. intros a b (a3 & _ & a4 & _ & a5 & _ & a6 & _ & ->). reflexivity.
    + cbv beta. intros a b (a2 & _ & a3 & _ & a4 & _ & a5 & _ & a6 & _ & ->). reflexivity.
  - cbv beta. intros h (a1 & A1 & a2 & A2 & a3 & A3 & a4 & A4 & a5 & A5 & a6 & A6 & ->). split.
    + unfold header_ok. cbn [h_version h_previous h_merkle h_time h_bits h_nonce]. auto 10.
    + unfold header_to_data. cbn [h_version h_previous h_merkle h_time h_bits h_nonce]. rewrite app_nil_r. reflexivity.
Qed.
Lemma header_data_len h : header_ok h -> len (header_to_data h) = 80.
Proof.
  intros (_ & (H2 & _) & (H3 & _) & _). unfold header_to_data. rewrite !len_app. unfold write_le. rewrite !len_le_bytes, (len_hash _ H2), (len_hash _ H3). reflexivity.
Qed.

Definition bwf (b : block) : Prop := header_ok (b_header b) /\ len (b_txs b) <= 1000000 /\ Forall parsed_ok (b_txs b).
Lemma block_parsesL b : bwf b -> parsesL (block_from_data true) (block_to_data true b) b.
Proof.
  intros (H1 & H2 & H3). unfold block_from_data, block_to_data. eapply parsesL_bind'; [apply header_parsesL, H1|].
  eapply parsesL_enc; [apply app_nil_r|]. eapply parsesL_bind'; [apply (read_list_parsesL max_count (tx_from_data true) (tx_to_data true)); [exact H2|lia|]|].
  - eapply Forall_impl; [|exact H3]. apply tx_parsesL.
  - destruct b. apply parsesL_ret'.
Qed.
Lemma block_exactL : exactL (block_from_data true) (block_to_data true) bwf.
Proof.
  unfold block_from_data. eapply exactL_weaken.
  - eapply (exactL_bind' b_header); [apply header_exactL| |apply header_sticky|intros; apply sticky_bind'; [apply read_list_sticky, tx_sticky|intros; apply sticky_ret]|].
    intros h Hh. eapply (exactL_bind' b_txs); [apply (read_list_exactL max_count _ (tx_to_data true)); [apply tx_sticky|apply tx_exactL]| |apply read_list_sticky, tx_sticky|intros; apply sticky_ret|].
    intros txs Ht. apply exactL_ret.
    + intros a b ->. reflexivity.
    + cbv beta. intros a b (q & _ & ->). reflexivity.
  - cbv beta. intros b (h & Hh & txs & (T1 & _ & T2) & ->). split; [split; [exact Hh|split; [exact T1|exact T2]]|].
    unfold block_to_data, list_enc. cbn [b_header b_txs]. rewrite app_nil_r. reflexivity.
Qed.
Lemma block_sized w b : header_ok (b_header b) -> Forall hashes_sized (b_txs b) -> sized (block_to_data w) (block_size w) b.
Proof.
  intros Hh Ht H. unfold block_to_data, block_size, header_size in *. rewrite !len_app, len_write_variable, (header_data_len _ Hh) in *.
  pose proof (variable_size_pos (len (b_txs b))). pose proof (len_nonneg (concat (map (tx_to_data w) (b_txs b)))).
  unfold sum_sizes. rewrite (sum_sizes_len' (tx_size w) (tx_to_data w)); [|eapply Forall_impl; [|exact Ht]; intros t; apply tx_sized|lia|lia].
  rewrite (cadd_sum 80) by lia. rewrite cadd_sum by lia. lia.
Qed.

(** ** Identity hashes *)
Lemma sub_bytes_app a m c : sub_bytes (a ++ m ++ c) (len a) (len m) = m.
Proof. unfold sub_bytes. rewrite skipn_len_app by reflexivity. apply firstn_len_app. reflexivity. Qed.
Lemma sub_bytes_first m c n : n = len m -> sub_bytes (m ++ c) 0 n = m.
Proof. intros ->. apply (sub_bytes_app [] m c). Qed.
Lemma fsub_exact x y : 0 <= y <= x -> x < 2 ^ 64 -> fsub x y = x - y.
Proof.
  intros H1 H2. unfold fsub. rewrite floored_subtract_clamps; [|cbn; lia|apply fits64; lia|apply fits64; lia].
  unfold clamp. cbn [imin imax u64 sg bits]. lia.
Qed.
Section H.
Variable H : list Z -> list Z.
Lemma desegregated t rest : twf t -> tx_segregated t = true -> len (tx_to_data true t) < 2 ^ 64 ->
  desegregated_hash H (tx_size true t) (tx_size false t) (tx_to_data true t ++ rest) = H (tx_to_data false t).
Proof.
  intros W Sg Hl. pose proof (twf_hashes t W) as Hh. rewrite (tx_sized true t Hh Hl).
  assert (Hl' : len (tx_to_data false t) < 2 ^ 64).
  { rewrite tx_data_len in *. cbn [andb]. rewrite Sg in Hl. cbn [andb] in Hl. pose proof (len_nonneg (wits (tx_inputs t))). lia. }
  rewrite (tx_sized false t Hh Hl'). unfold desegregated_hash. f_equal.
  set (v := write_le 4 (tx_version t)). set (k := write_le 4 (tx_locktime t)).
  set (M := write_variable (len (tx_inputs t)) ++ concat (map input_to_data (tx_inputs t)) ++
    write_variable (len (tx_outputs t)) ++ concat (map output_to_data (tx_outputs t))).
  set (W' := wits (tx_inputs t)).
  assert (E1 : tx_to_data true t = v ++ [0; 1] ++ M ++ W' ++ k).
  { unfold tx_to_data, v, k, M, W', wits. rewrite Sg. cbn [andb]. rewrite <- !app_assoc. reflexivity. }
  assert (E0 : tx_to_data false t = v ++ M ++ k).
  { unfold tx_to_data, v, k, M. cbn [andb app]. rewrite <- !app_assoc. reflexivity. }
  assert (Lv : len v = 4) by apply len_le_bytes. assert (Lk : len k = 4) by apply len_le_bytes.
  pose proof (len_nonneg M). pose proof (len_nonneg W').
  assert (L1 : len (tx_to_data true t) = 10 + len M + len W') by (rewrite E1, !len_app, Lv, Lk; change (len [0; 1]) with 2; lia).
  assert (L0 : len (tx_to_data false t) = 8 + len M) by (rewrite E0, !len_app, Lv, Lk; lia).
  rewrite L1, L0 in *. rewrite !fsub_exact by lia. clear L1 L0. rewrite E1, E0.
  assert (A1 : sub_bytes ((v ++ [0; 1] ++ M ++ W' ++ k) ++ rest) 0 4 = v).
  { rewrite <- !app_assoc. apply sub_bytes_first. symmetry. exact Lv. }
  assert (A2 : sub_bytes ((v ++ [0; 1] ++ M ++ W' ++ k) ++ rest) 6 (8 + len M - 8) = M).
  { replace (8 + len M - 8) with (len M) by lia. replace 6 with (len (v ++ [0; 1])) by (rewrite len_app, Lv; reflexivity).
    replace ((v ++ [0; 1] ++ M ++ W' ++ k) ++ rest) with ((v ++ [0; 1]) ++ M ++ (W' ++ k ++ rest)) by (rewrite <- !app_assoc; reflexivity).
    apply sub_bytes_app. }
  assert (A3 : sub_bytes ((v ++ [0; 1] ++ M ++ W' ++ k) ++ rest) (10 + len M + len W' - 4) 4 = k).
  { replace (10 + len M + len W' - 4) with (len (v ++ [0; 1] ++ M ++ W')) by (rewrite !len_app, Lv; change (len [0; 1]) with 2; lia).
    replace ((v ++ [0; 1] ++ M ++ W' ++ k) ++ rest) with ((v ++ [0; 1] ++ M ++ W') ++ k ++ rest) by (rewrite <- !app_assoc; reflexivity).
    rewrite <- Lk. apply sub_bytes_app. }
  rewrite A1, A2, A3. reflexivity.
Qed.
Lemma size_variable_prefix n t : 0 <= n < 2 ^ 64 -> size_variable (hd 0 (write_variable n ++ t)) = variable_size n.
Proof.
  intros Hn. unfold write_variable, variable_size, size_variable. destruct (Z.ltb_spec n 253).
  - cbn [app hd]. rewrite (wrap_fits u8); [|reflexivity|unfold fits; cbn; lia].
    destruct (Z.eqb_spec n 253); [lia|]. destruct (Z.eqb_spec n 254); [lia|]. destruct (Z.eqb_spec n 255); [lia|reflexivity].
  - destruct (n <=? 65535); [reflexivity|]. destruct (n <=? 4294967295); reflexivity.
Qed.
Lemma cache_spec txs : Forall twf txs -> forall first rest k t c, len (concat (map (tx_to_data true) txs)) < 2 ^ 64 ->
  nth_error txs k = Some t -> nth_error (cache_hashes H first txs (concat (map (tx_to_data true) txs) ++ rest)) k = Some c ->
  cached_hash H false t c = H (tx_to_data false t) /\
  ((k = O /\ first = true) \/ is_coinbase t = false -> cached_hash H true t c = tx_hash H true t).
Proof.
  induction 1 as [|t0 txs W _ IH]; intros first rest k t c Hl Ht Hc; [destruct k; discriminate|].
  cbn [map concat cache_hashes] in *. rewrite len_app in Hl. pose proof (len_nonneg (tx_to_data true t0)). pose proof (len_nonneg (concat (map (tx_to_data true) txs))).
  assert (L0 : len (tx_to_data true t0) < 2 ^ 64) by lia. pose proof (tx_sized true t0 (twf_hashes _ W) L0) as SZ.
  destruct k as [|k]; cbn [nth_error] in *.
  - injection Ht as <-. pose proof (f_equal (fun o => match o with Some x => x | None => c end) Hc) as Ec. cbv beta iota in Ec. rewrite <- Ec. clear Hc Ec c. rewrite <- app_assoc. unfold cached_hash, tx_hash.
    destruct (tx_segregated t0) eqn:Sg.
    + cbn [fst snd andb]. rewrite desegregated by assumption. split; [reflexivity|]. intros C.
      destruct first.
      * destruct (is_coinbase t0); reflexivity.
      * destruct C as [[_ C]|C]; [discriminate|]. rewrite C, sub_bytes_first by exact SZ. reflexivity.
    + cbn [fst snd andb]. rewrite sub_bytes_first by exact SZ. unfold tx_to_data. rewrite Sg. auto.
  - rewrite SZ, <- app_assoc, skipn_len_app in Hc by reflexivity.
    destruct (IH false rest k t c ltac:(lia) Ht Hc) as [I1 I2]. split; [exact I1|]. intros [[C _]|C]; [discriminate|]. apply I2. right. exact C.
Qed.
Lemma set_hashes_spec b : bwf b -> len (block_to_data true b) < 2 ^ 64 ->
  fst (set_hashes H b (block_to_data true b)) = H (header_to_data (b_header b)) /\
  length (snd (set_hashes H b (block_to_data true b))) = length (b_txs b) /\
  forall k t c, nth_error (b_txs b) k = Some t -> nth_error (snd (set_hashes H b (block_to_data true b))) k = Some c ->
  cached_hash H false t c = tx_hash H false t /\ (k = O \/ is_coinbase t = false -> cached_hash H true t c = tx_hash H true t).
Proof.
  intros (Wh & Wn & Wt) Hl. pose proof (header_data_len _ Wh) as L80. unfold set_hashes, header_size. cbn [fst snd].
  unfold block_to_data in *. split; [rewrite sub_bytes_first by lia; reflexivity|].
  rewrite skipn_len_app by lia. pose proof (len_nonneg (b_txs b)). rewrite size_variable_prefix by lia.
  rewrite skipn_len_app by (rewrite len_write_variable; reflexivity). rewrite !len_app, len_write_variable in Hl. pose proof (variable_size_pos (len (b_txs b))). split.
  - clear. generalize (concat (map (tx_to_data true) (b_txs b))). generalize true. induction (b_txs b) as [|t l IH]; intros f d; [reflexivity|]. cbn [cache_hashes length]. rewrite IH. reflexivity.
  - intros k t c Ht Hc. rewrite <- (app_nil_r (concat _)) in Hc.
    destruct (cache_spec (b_txs b)) with (first := true) (rest := @nil Z) (k := k) (t := t) (c := c) as [I1 I2]; auto; [eapply Forall_impl; [|exact Wt]; intros x [Hx _]; exact Hx|lia|].
    split; [rewrite I1; unfold tx_hash; rewrite andb_false_r; reflexivity|]. intros C. apply I2. destruct C as [C|C]; auto.
Qed.
End H.

(** ** Weight *)
Lemma cdiv4 x : 0 <= x < 2 ^ 64 -> is_ceil x 4 (cdiv x 4).
Proof.
  intros Hx. unfold cdiv. rewrite ceilinged_divide_eq; [|cbn; lia|apply fits64; lia|apply fits64; lia|lia|cbn;lia].
  unfold is_ceil. cbn [Z.ltb Z.compare]. pose proof (Z.div_mod (- x) 4 ltac:(lia)). pose proof (Z.mod_pos_bound (- x) 4 ltac:(lia)). lia.
Qed.
