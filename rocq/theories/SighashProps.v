(** C70: the signature hashes are those of the original client, BIP143 and
    BIP341/BIP342, for every history of calls on a transaction object. *)
From Verif Require Import Base Bytes BitProofs MathModel ShaModel ShaSpec AccModel ShaProps KdfSpec KdfModel KdfProofs KdfProps.
From Verif Require Import StreamModel StreamProofs OpModel OpProofs3 ChainModel ChainSpec ChainProofs ChainProps InterpEnv SighashSpec SighashModel SighashProofs SighashProofs2.

(** ** Specification of a request *)
Definition is_segwit (v : script_version) : bool := match v with segwit => true | _ => false end.
Definition is_taproot (v : script_version) : bool := match v with taproot => true | _ => false end.
Definition by_v0 (q : request) : bool := Z.testbit (r_rules q) bip143_rule && is_segwit (r_version q).
Definition by_v1 (q : request) : bool := negb (by_v0 q) && Z.testbit (r_rules q) bip342_rule && is_taproot (r_version q).
(** The script code: what follows the last executed code separator. *)
Definition code_of (q : request) : list Z := script_bytes (skipn (r_offset q) (r_script q)).
(** Its position, all ones when none was executed. *)
Definition position_of (q : request) : Z := match r_offset q with O => 2 ^ 32 - 1 | S k => Z.of_nat k end.
Definition demanded (t : tx) (spent : list output) (q : request) : option (list Z) :=
  if by_v0 q then v0_sighash t (r_input q) (code_of q) (r_value q) (r_flags q)
  else if by_v1 q then v1_sighash t spent (r_input q) (r_flags q) (option_map (fun h => mkextension h (position_of q)) (r_tapleaf q))
  else Some (legacy_sighash t (r_input q) (code_of q) (r_flags q)).

(** The previous outputs are set, and no code separator was left in their scripts. *)
Definition populated (m : meta) (spent : list output) : Prop :=
  prevouts m = map Some spent /\ offsets m = repeat O (length spent) /\ length spent = length (tx_inputs (body m)) /\
  Forall output_ok spent /\ len (flat_map wire_output spent) < 2 ^ 56.
Definition request_ok (m : meta) (spent : list output) (q : request) : Prop :=
  (r_input q < length (tx_inputs (body m)))%nat /\ byte_ok (r_flags q) /\
  (r_offset q <= length (r_script q))%nat /\ len (r_script q) < 2 ^ 32 /\ len (code_of q) < 2 ^ 56 /\
  (by_v1 q = true -> v1_type (r_flags q) /\ populated m spent /\
     option_map out_value (nth_error spent (r_input q)) = Some (r_value q) /\
     match r_tapleaf q with Some h => length h = 32%nat | None => True end).

(** ** Proofs *)
Lemma max_59 x : x < 2 ^ 59 -> x < max_message.
Proof. intros Q. unfold max_message. change (2 ^ 59) with 576460752303423488 in Q. change (2 ^ 61) with 2305843009213693952. change (2 ^ 40) with 1099511627776. lia. Qed.
Lemma two56 : 2 ^ 56 = 72057594037927936. Proof. reflexivity. Qed.
Lemma two59 : 2 ^ 59 = 576460752303423488. Proof. reflexivity. Qed.

Section S.
Variables (checked s8 : bool) (widths : list nat) (m : meta) (spent : list output).
Notation t := (body m).
Hypothesis T : tx_ok t.
Hypothesis W : len (wire_legacy t) < 2 ^ 56.

Lemma split_at n : (n < length (tx_inputs t))%nat -> exists before i after, tx_inputs t = before ++ i :: after /\ length before = n.
Proof.
  intros L. destruct (nth_error (tx_inputs t) n) as [i|] eqn:E; [|apply nth_error_None in E; lia]. destruct (nth_error_split _ _ E) as (a & b & E1 & E2). exists a, i, b. split; assumption.
Qed.
Lemma one_hash_ok : one_hash = uint256_one. Proof. reflexivity. Qed.

Lemma unversioned_ok n s k type : (n < length (tx_inputs t))%nat -> byte_ok type -> len (script_bytes (skipn k s)) < 2 ^ 56 ->
  unversioned_sighash checked s8 widths m n (script_data s k) type = Some (legacy_sighash t n (script_bytes (skipn k s)) type).
Proof.
  intros L By C. destruct (split_at n L) as (before & i & after & E & N).
  assert (Fs : len (ops_to_data (skipn k s)) < 2 ^ 64).
  { change (script_bytes (skipn k s)) with (ops_to_data (skipn k s)) in C. rewrite two56 in C. change (2 ^ 64) with 18446744073709551616. lia. }
  pose proof (message_len t n i before after T E N W _ type C) as ML. apply max_59 in ML.
  pose proof (index_n t n i before after T E N) as IX.
  unfold unversioned_sighash, inputs. rewrite (at_n t n i before after E N). cbn [obind]. unfold legacy_sighash.
  destruct (mask_ok type) as [M1 M2].
  destruct (mask_sighash type) eqn:Em; cbn [is_single is_all] in M1, M2.
  - assert (E1 : selects type SINGLE = false) by (destruct (selects type SINGLE); [discriminate|reflexivity]).
    assert (E2 : selects type NONE = false) by (rewrite E1 in M2; destruct (selects type NONE); [discriminate|reflexivity]).
    rewrite E1. cbn [andb]. assert (Q : concat (signature_hash_all m n i (script_data s k) type) = legacy_message t n (script_bytes (skipn k s)) type).
    { unfold signature_hash_all, legacy_message. rewrite (sign_outputs_all t n type E2 E1). cbn [app concat]. rewrite !concat_app.
      rewrite (inputs_written t n i before after T E N m s k type eq_refl By Fs) by (intros j; unfold neighbour_sequence; rewrite E1, E2; reflexivity).
      cbn [concat]. unfold outputs. rewrite compact by (destruct T as (_ & _ & _ & _ & Lo & _); pose proof (len_nonneg (tx_outputs t)); lia).
      rewrite (all_written t T). rewrite concat_app. cbn [concat]. unfold write_le, u32_bytes. rewrite ?app_nil_r, <- ?app_assoc. cbn [app]. rewrite <- ?app_assoc. reflexivity. }
    rewrite sink2_ok by (rewrite Q; exact ML). rewrite Q. reflexivity.
  - assert (E1 : selects type SINGLE = false) by congruence. rewrite E1 in *. cbn [andb negb] in M2.
    assert (E2 : selects type NONE = true) by (destruct (selects type NONE); [reflexivity|discriminate]).
    cbn [andb]. assert (Q : concat (signature_hash_none m n i (script_data s k) type) = legacy_message t n (script_bytes (skipn k s)) type).
    { unfold signature_hash_none, legacy_message, sign_outputs. cbv zeta. rewrite E2. cbn [app concat]. rewrite !concat_app.
      rewrite (inputs_written t n i before after T E N m s k type eq_refl By Fs) by (intros j; unfold neighbour_sequence; rewrite E1, E2; reflexivity).
      reflexivity. }
    rewrite sink2_ok by (rewrite Q; exact ML). rewrite Q. reflexivity.
  - assert (E1 : selects type SINGLE = true) by congruence. rewrite E1. cbn [andb]. unfold output_overflow. rewrite IX. unfold outputs.
    rewrite Z.geb_leb. destruct (Z.leb_spec (len (tx_outputs t)) (Z.of_nat n)) as [O|O]; [rewrite one_hash_ok; reflexivity|].
    unfold signature_hash_single. rewrite IX, Nat2Z.id. unfold outputs.
    destruct (nth_error (tx_outputs t) n) as [o|] eqn:Eo; [|apply nth_error_None in Eo; unfold len in O; lia]. cbn [obind omap].
    match goal with |- Some (sha256x2_sink _ _ _ ?ds) = _ => assert (Q : concat ds = legacy_message t n (script_bytes (skipn k s)) type) end.
    { unfold legacy_message. rewrite (sign_outputs_single t n before N type o E1 Eo). cbn [app concat]. rewrite !concat_app.
      rewrite (inputs_written t n i before after T E N m s k type eq_refl By Fs) by (intros j; unfold neighbour_sequence; rewrite E1, orb_true_r; reflexivity).
      rewrite compact by (pose proof (n_small t n i before after T E N); lia). rewrite (outputs_written t T o) by (eapply nth_error_In; exact Eo).
      unfold write_le, u32_bytes. cbn [concat app]. rewrite concat_app. cbn [concat app]. rewrite ?app_nil_r, <- ?app_assoc. reflexivity. }
    rewrite sink2_ok by (rewrite Q; exact ML). rewrite Q. reflexivity.
Qed.

(** Caches *)
Definition spec1 : base_cache := mkbase (SHA256 (all_points t)) (SHA256 (all_sequences t)) (SHA256 (all_outputs t)).
Definition spec2 : base_cache := mkbase (dSHA256 (all_points t)) (dSHA256 (all_sequences t)) (dSHA256 (all_outputs t)).
Definition spec_only : only_cache :=
  mkonly (SHA256 (flat_map (fun o => u64_bytes (out_value o)) spent)) (SHA256 (flat_map (fun o => var_bytes (script_bytes (out_script o))) spent)).
Definition caches_ok (c : caches) : Prop :=
  (forall b, x1 c = Some b -> b = spec1) /\ (forall b, x2 c = Some b -> b = spec2) /\ (forall o, only c = Some o -> o = spec_only) /\
  length (output_hashes c) = length (tx_outputs t) /\
  (forall k h o, nth_error (output_hashes c) k = Some (Some h) -> nth_error (tx_outputs t) k = Some o -> h = SHA256 (wire_output o)).
Lemma no_caches_ok : caches_ok (no_caches m).
Proof.
  unfold caches_ok, no_caches. cbn [x1 x2 only output_hashes]. split; [discriminate|]. split; [discriminate|]. split; [discriminate|].
  split; [apply map_length|]. intros k h o Hk _. rewrite nth_error_map in Hk. destruct (nth_error (outputs m) k); discriminate.
Qed.
Lemma points_max : len (all_points t) < max_message /\ len (all_sequences t) < max_message /\ len (all_outputs t) < max_message.
Proof.
  pose proof (points_len t T). pose proof (sequences_len t). pose proof (outs_len t W) as O. unfold all_outputs. destruct T as (_ & _ & L & _).
  rewrite two56 in O. split; [|split]; apply max_59; rewrite two59; lia.
Qed.
Lemma x1_ok : x1_base_hash checked s8 widths m = spec1.
Proof.
  unfold x1_base_hash, spec1, inputs, outputs. destruct points_max as (P1 & P2 & P3).
  rewrite (all_written t T). rewrite !sink_ok; rewrite ?flat_concat; try assumption. reflexivity.
Qed.
Lemma set_x1_ok c : caches_ok c -> exists c', set_x1 checked s8 widths m c = (spec1, c') /\ caches_ok c'.
Proof.
  intros (H1 & H2 & H3 & H4). unfold set_x1. destruct (x1 c) as [b|] eqn:E.
  - rewrite (H1 b eq_refl). exists c. split; [reflexivity|]. split; [intros b' Hb; apply H1; rewrite <- Hb; congruence|]. tauto.
  - rewrite x1_ok. eexists. split; [reflexivity|]. unfold caches_ok. cbn [x1 x2 only output_hashes]. split; [congruence|]. tauto.
Qed.
Lemma sha_of_digest d : hash (SighashModel.sha s8 widths) checked (SHA256 d) = SHA256 (SHA256 d).
Proof.
  apply (C64_hash sha256 SHA256 (or_intror (or_introl eq_refl)) s8 widths checked (SHA256 d)). unfold len. rewrite (sha256_length s8 widths). vm_compute. reflexivity.
Qed.
Lemma set_x2_ok c : caches_ok c -> exists c', set_x2 checked s8 widths m c = (spec2, c') /\ caches_ok c'.
Proof.
  intros Hc. unfold set_x2. destruct (x2 c) as [b|] eqn:E.
  - destruct Hc as (H1 & H2 & H3). rewrite (H2 b E). exists c. split; [reflexivity|]. split; [exact H1|]. split; [exact H2|exact H3].
  - destruct (set_x1_ok c Hc) as (c1 & E1 & H1 & H2 & H3). rewrite E1. cbn [spec1 c_points c_sequences c_outputs]. rewrite !sha_of_digest.
    eexists. split; [reflexivity|]. unfold caches_ok. cbn [x1 x2 only output_hashes]. split; [exact H1|]. split; [|exact H3]. intros b Hb. injection Hb as <-. reflexivity.
Qed.
Lemma null_zero : null_hash = zero_hash. Proof. reflexivity. Qed.
Lemma dsha_length x : length (dSHA256 x) = 32%nat. Proof. apply (sha256_length s8 widths). Qed.

Lemma output_v0_ok n : (n < length (tx_inputs t))%nat ->
  output_hash_v0 checked s8 widths m n = Some (match nth_error (tx_outputs t) n with Some o => dSHA256 (wire_output o) | None => zero_hash end).
Proof.
  intros L. destruct (split_at n L) as (before & i & after & E & N).
  unfold output_hash_v0, output_overflow. rewrite (index_n t n i before after T E N), Nat2Z.id. unfold outputs. rewrite Z.geb_leb.
  destruct (nth_error (tx_outputs t) n) as [o|] eqn:Eo.
  - assert (O : (n < length (tx_outputs t))%nat) by (apply nth_error_Some; congruence).
    destruct (Z.leb_spec (len (tx_outputs t)) (Z.of_nat n)) as [O'|O']; [unfold len in O'; lia|]. cbn [omap].
    pose proof (nth_error_In _ _ Eo) as Io. rewrite (outputs_written t T o Io). rewrite sink2_ok; cbn [concat]; rewrite app_nil_r; [reflexivity|].
    pose proof (out_len t W o Io) as Q. apply max_59. rewrite two56 in Q. rewrite two59. lia.
  - apply nth_error_None in Eo. destruct (Z.leb_spec (len (tx_outputs t)) (Z.of_nat n)) as [O'|O']; [rewrite null_zero; reflexivity|unfold len in O'; lia].
Qed.

Lemma v0_len n i code amount type : In i (tx_inputs t) -> len code < 2 ^ 56 -> len (v0_message t n i code amount type) < 2 ^ 59.
Proof.
  intros Hi C. unfold v0_message, u32_bytes, u64_bytes. rewrite !len_app, !len_le, (point_len t T i Hi).
  assert (Z32 : len zero_hash = 32) by reflexivity.
  assert (D32 : forall x, len (dSHA256 x) = 32) by (intros x; unfold len; rewrite dsha_length; reflexivity).
  assert (L1 : len (hashPrevouts t type) = 32) by (unfold hashPrevouts; destruct (anyone_can_pay type); [exact Z32|apply D32]).
  assert (L2 : len (hashSequence t type) = 32) by (unfold hashSequence; destruct (anyone_can_pay type || selects type SINGLE || selects type NONE); [exact Z32|apply D32]).
  assert (L3 : len (hashOutputs t n type) = 32).
  { unfold hashOutputs. destruct (negb (selects type SINGLE) && negb (selects type NONE)); [apply D32|]. destruct (nth_error (tx_outputs t) n); [|exact Z32]. destruct (selects type SINGLE); [apply D32|exact Z32]. }
  rewrite L1, L2, L3. pose proof (var_len code). rewrite two56 in C. rewrite two59. lia.
Qed.
Lemma version0_ok c n s k value type : caches_ok c -> (n < length (tx_inputs t))%nat -> byte_ok type -> len (script_bytes (skipn k s)) < 2 ^ 56 ->
  exists c' h, version0_sighash checked s8 widths m c n (script_data s k) value type = Some (h, c') /\ caches_ok c' /\
  v0_sighash t n (script_bytes (skipn k s)) value type = Some h.
Proof.
  intros Hc L By C. destruct (split_at n L) as (before & i & after & E & N).
  assert (Fs : len (ops_to_data (skipn k s)) < 2 ^ 64).
  { change (script_bytes (skipn k s)) with (ops_to_data (skipn k s)) in C. rewrite two56 in C. change (2 ^ 64) with 18446744073709551616. lia. }
  pose proof (at_n t n i before after E N) as An. pose proof (v0_len n i _ value type (nth_error_In _ _ An) C) as ML. apply max_59 in ML.
  unfold version0_sighash, v0_sighash, inputs. rewrite An. cbn [obind option_map]. rewrite anyone_ok by exact By.
  destruct (mask_ok type) as [M1 M2]. rewrite M1, M2.
  assert (Q1 : exists c1, (if anyone_can_pay type then (null_hash, c) else let (b, c0) := set_x2 checked s8 widths m c in (c_points b, c0)) = (hashPrevouts t type, c1) /\ caches_ok c1).
  { unfold hashPrevouts. destruct (anyone_can_pay type); [exists c; split; [rewrite null_zero; reflexivity|exact Hc]|]. destruct (set_x2_ok c Hc) as (c1 & E1 & H1). rewrite E1. exists c1. split; [reflexivity|exact H1]. }
  destruct Q1 as (c1 & E1 & H1). rewrite E1.
  assert (Q2 : exists c2, (if negb (anyone_can_pay type) && (negb (selects type SINGLE) && negb (selects type NONE)) then let (b, c0) := set_x2 checked s8 widths m c1 in (c_sequences b, c0) else (null_hash, c1)) = (hashSequence t type, c2) /\ caches_ok c2).
  { unfold hashSequence. destruct (anyone_can_pay type), (selects type SINGLE), (selects type NONE); cbn [negb andb orb]; try (exists c1; split; [rewrite null_zero; reflexivity|exact H1]).
    destruct (set_x2_ok c1 H1) as (c2 & E2 & H2). rewrite E2. exists c2. split; [reflexivity|exact H2]. }
  destruct Q2 as (c2 & E2 & H2). rewrite E2.
  assert (Q3 : exists c3, (if selects type SINGLE then omap (fun h => (h, c2)) (output_hash_v0 checked s8 widths m n)
      else if negb (selects type SINGLE) && negb (selects type NONE) then let (b, c0) := set_x2 checked s8 widths m c2 in Some (c_outputs b, c0) else Some (null_hash, c2)) = Some (hashOutputs t n type, c3) /\ caches_ok c3).
  { unfold hashOutputs. rewrite (output_v0_ok n L). destruct (selects type SINGLE); cbn [negb andb omap].
    - exists c2. split; [|exact H2]. destruct (nth_error (tx_outputs t) n); reflexivity.
    - destruct (selects type NONE); cbn [negb].
      + exists c2. split; [|exact H2]. rewrite null_zero. destruct (nth_error (tx_outputs t) n); reflexivity.
      + destruct (set_x2_ok c2 H2) as (c3 & E3 & H3). rewrite E3. exists c3. split; [reflexivity|exact H3]. }
  destruct Q3 as (c3 & E3 & H3). rewrite E3. cbn [obind]. exists c3. eexists. split; [reflexivity|]. split; [exact H3|]. f_equal. symmetry.
  rewrite data_wire by exact Fs. apply sink2_ok.
  match goal with |- len (concat ?l) < _ => replace (concat l) with (v0_message t n i (script_bytes (skipn k s)) value type) by
    (unfold v0_message, point_data, point_bytes, write_le, u32_bytes, u64_bytes; cbn [concat]; rewrite ?app_nil_r, <- ?app_assoc; reflexivity) end.
  exact ML.
Qed.

Lemma v1_facts type : v1_type type -> byte_ok type /\ is_anyone_can_pay type = negb (type <? 128) /\ is_single (mask_sighash type) = (type mod 4 =? 3) /\
  is_all (mask_sighash type) = negb ((type mod 4 =? 2) || (type mod 4 =? 3)).
Proof.
  intros Q. unfold v1_type in Q. cbn [In] in Q. repeat (destruct Q as [<-|Q]); try contradiction; unfold byte_ok; (split; [lia|]); repeat split; reflexivity.
Qed.
Lemma last_rev (w : list (list Z)) : last w [] = hd [] (rev w).
Proof. rewrite <- (rev_involutive w) at 1. destruct (rev w) as [|a r]; [reflexivity|]. cbn [rev hd]. apply last_last. Qed.
Lemma annex_ok w : annex w = annex_of w.
Proof.
  unfold annex, annex_of. rewrite last_rev. replace (len w) with (len (rev w)) by (unfold len; rewrite rev_length; reflexivity).
  destruct (rev w) as [|a [|b r]]; [reflexivity|change (len [a]) with 1; cbn [Z.leb hd]; destruct a as [|x a]; [reflexivity|]|].
  - change (1 <=? 1) with true. cbv iota. do 8 (destruct x as [|x|x]; try reflexivity).
  - rewrite !len_cons. pose proof (len_nonneg r). replace (1 + (1 + len r) <=? 1) with false by lia. cbn [hd].
    destruct a as [|x a]; [reflexivity|]. destruct (Z.eqb_spec x 80) as [->|Nx]; [reflexivity|].
    do 8 (try (destruct x as [|x|x]; try reflexivity)); try (exfalso; apply Nx; reflexivity).
Qed.
Lemma annex_in w a : annex_of w = Some a -> In a w.
Proof.
  intros Q. apply in_rev. unfold annex_of in Q. destruct (rev w) as [|x r]; [discriminate|]. left.
  destruct x as [|z x]; [discriminate|]. destruct r; [destruct z as [|z|z]; try discriminate; do 7 (destruct z as [z|z|]; try discriminate)|].
  destruct z as [|z|z]; try discriminate; do 7 (destruct z as [z|z|]; try discriminate). congruence.
Qed.
Lemma spend_ok a b : spend_type_v1 a b = 2 * (if b then 1 else 0) + (if a then 1 else 0).
Proof. destruct a, b; reflexivity. Qed.
Lemma all_some_map {A} (l : list A) : all_some (map Some l) = Some l.
Proof. induction l as [|a l IH]; [reflexivity|]. cbn [map all_some]. rewrite IH. reflexivity. Qed.

Definition spent_ok : Prop := populated m spent.
Lemma spent_wire o : spent_ok -> In o spent -> script_data (out_script o) 0 = var_bytes (script_bytes (out_script o)) /\ len (script_bytes (out_script o)) < 2 ^ 56.
Proof.
  intros (P1 & P2 & P3 & P4 & P5) Ho. assert (L : len (script_bytes (out_script o)) < 2 ^ 56).
  { apply in_split in Ho. destruct Ho as (a & b & Es). rewrite Es, flat_map_app in P5. cbn [flat_map] in P5. rewrite !len_app in P5.
    assert (W2 : len (script_bytes (out_script o)) <= len (wire_output o)).
    { unfold wire_output, var_bytes. rewrite !len_app. pose proof (len_nonneg (u64_bytes (out_value o))). pose proof (len_nonneg (compact_size (len (script_bytes (out_script o))))). lia. }
    pose proof (len_nonneg (flat_map wire_output a)). pose proof (len_nonneg (flat_map wire_output b)). lia. }
  split; [|exact L]. rewrite data_wire; cbn [skipn]; [reflexivity|]. change (ops_to_data (out_script o)) with (script_bytes (out_script o)). rewrite two56 in L. change (2 ^ 64) with 18446744073709551616. lia.
Qed.
Lemma spent_scripts_ok : spent_ok -> concat (spent_scripts m spent) = flat_map (fun o => var_bytes (script_bytes (out_script o))) spent.
Proof.
  intros P. assert (G : forall l, (forall o, In o l -> In o spent) -> concat (map (fun p => script_data (out_script (fst p)) (snd p)) (combine l (repeat O (length l)))) = flat_map (fun o => var_bytes (script_bytes (out_script o))) l).
  { induction l as [|o l IH]; intros Hl; [reflexivity|]. cbn [length repeat combine map concat fst snd flat_map]. rewrite IH by (intros x Hx; apply Hl; right; exact Hx).
    rewrite (proj1 (spent_wire o P (Hl o (or_introl eq_refl)))). reflexivity. }
  unfold spent_scripts. pose proof P as (P1 & P2 & _). rewrite P2. apply G. auto.
Qed.
Lemma spent_len : spent_ok -> len (flat_map (fun o => var_bytes (script_bytes (out_script o))) spent) < 2 ^ 56 /\ len (flat_map (fun o => u64_bytes (out_value o)) spent) < 2 ^ 56.
Proof.
  intros (_ & _ & _ & _ & P5). assert (G : forall l, len (flat_map (fun o => var_bytes (script_bytes (out_script o))) l) + len (flat_map (fun o => u64_bytes (out_value o)) l) = len (flat_map wire_output l)).
  { induction l as [|o l IH]; [reflexivity|]. cbn [flat_map]. rewrite !len_app. unfold wire_output at 1. rewrite len_app. lia. }
  specialize (G spent). pose proof (len_nonneg (flat_map (fun o => var_bytes (script_bytes (out_script o))) spent)). pose proof (len_nonneg (flat_map (fun o => u64_bytes (out_value o)) spent)). lia.
Qed.
Lemma set_only_ok c : spent_ok -> caches_ok c -> exists c', set_only checked s8 widths m c = Some (spec_only, c') /\ caches_ok c'.
Proof.
  intros P (H1 & H2 & H3 & H4). unfold set_only. destruct (only c) as [b|] eqn:E.
  - rewrite (H3 b eq_refl). exists c. split; [reflexivity|]. split; [exact H1|]. split; [exact H2|]. split; [|exact H4]. intros b' Hb. apply H3. congruence.
  - pose proof P as (P1 & _). rewrite P1, all_some_map. cbn [obind].
    assert (Q : mkonly (sha256_sink checked s8 widths (map (fun o => write_le 8 (out_value o)) spent)) (sha256_sink checked s8 widths (spent_scripts m spent)) = spec_only).
    { destruct (spent_len P) as [L1 L2]. rewrite two56 in L1, L2. unfold spec_only. rewrite !sink_ok.
      - rewrite (spent_scripts_ok P), flat_concat. reflexivity.
      - rewrite (spent_scripts_ok P). apply max_59. rewrite two59. lia.
      - rewrite flat_concat. apply max_59. rewrite two59. unfold write_le. unfold u64_bytes in L2. lia. }
    rewrite Q. eexists. split; [reflexivity|]. unfold caches_ok. cbn [x1 x2 only output_hashes]. split; [exact H1|]. split; [exact H2|]. split; [|exact H4]. congruence.
Qed.
Lemma nth_error_first {A} (l : list A) : forall n k, (k < n)%nat -> nth_error (firstn n l) k = nth_error l k.
Proof. induction l as [|a l IH]; intros [|n] [|k] L; try lia; try reflexivity. cbn [firstn nth_error]. apply IH. lia. Qed.
Lemma nth_error_rest {A} (l : list A) : forall n k, nth_error (skipn n l) k = nth_error l (n + k).
Proof. induction l as [|a l IH]; intros [|n] k; try reflexivity; [destruct k; reflexivity|]. cbn [skipn Nat.add nth_error]. apply IH. Qed.
Lemma get_output_ok n o c : caches_ok c -> nth_error (tx_outputs t) n = Some o ->
  exists c', get_output_hash checked s8 widths m n c = Some (SHA256 (wire_output o), c') /\ caches_ok c'.
Proof.
  intros (H1 & H2 & H3 & H4 & H5) Eo. unfold get_output_hash, outputs. rewrite Eo. cbn [obind].
  assert (Ln : (n < length (output_hashes c))%nat) by (rewrite H4; apply nth_error_Some; congruence).
  destruct (nth_error (output_hashes c) n) as [[h|]|] eqn:E; cbn [obind].
  - rewrite (H5 n h o E Eo). exists c. split; [reflexivity|]. repeat split; assumption.
  - pose proof (nth_error_In _ _ Eo) as Io. rewrite (outputs_written t T o Io). rewrite sink_ok; cbn [concat]; rewrite app_nil_r.
    2:{ pose proof (out_len t W o Io) as Q. apply max_59. rewrite two56 in Q. rewrite two59. lia. }
    eexists. split; [reflexivity|]. unfold caches_ok. cbn [x1 x2 only output_hashes]. split; [exact H1|]. split; [exact H2|]. split; [exact H3|].
    assert (Lf : length (firstn n (output_hashes c)) = n) by (rewrite firstn_length; lia). split.
    + rewrite !app_length, Lf, skipn_length. cbn [length]. lia.
    + intros k h o' Hk Ho'. destruct (Nat.lt_trichotomy k n) as [K|[K|K]].
      * rewrite nth_error_app1 in Hk by lia. rewrite nth_error_first in Hk by exact K. eapply H5; eassumption.
      * subst k. rewrite nth_error_app2, Lf, Nat.sub_diag in Hk by lia. cbn [app nth_error] in Hk. assert (Eo2 : o' = o) by congruence. rewrite Eo2. congruence.
      * rewrite nth_error_app2 in Hk by lia. rewrite Lf in Hk. replace (k - n)%nat with (S (k - S n)) in Hk by lia. cbn [app nth_error] in Hk.
        rewrite nth_error_rest in Hk. replace (S n + (k - S n))%nat with k in Hk by lia. eapply H5; eassumption.
  - apply nth_error_None in E. lia.
Qed.

Lemma sha_len x : len (SHA256 x) = 32. Proof. unfold len. rewrite (sha256_length s8 widths). reflexivity. Qed.
Lemma version1_ok c n sep value tapleaf type : caches_ok c -> (n < length (tx_inputs t))%nat -> v1_type type -> spent_ok ->
  option_map out_value (nth_error spent n) = Some value -> match tapleaf with Some h => length h = 32%nat | None => True end ->
  exists c', version1_sighash checked s8 widths m c n sep value tapleaf type =
    Some (v1_sighash t spent n type (option_map (fun h => mkextension h sep) tapleaf), c') /\ caches_ok c'.
Proof.
  intros Hc L V P Hv Ht. destruct (split_at n L) as (before & i & after & E & N).
  pose proof (at_n t n i before after E N) as An. pose proof (index_n t n i before after T E N) as IX. pose proof (n_small t n i before after T E N) as NS.
  destruct (v1_facts type V) as (By & F1 & F2 & F3).
  pose proof P as (P1 & P2 & P3 & P4 & P5).
  destruct (nth_error spent n) as [o|] eqn:Eo; [|discriminate]. cbn [option_map] in Hv. assert (Hv' : out_value o = value) by congruence. clear Hv. rename Hv' into Hv.
  assert (Ep : nth_error (prevouts m) n = Some (Some o)) by (rewrite P1, nth_error_map, Eo; reflexivity).
  assert (Ef : nth_error (offsets m) n = Some O).
  { rewrite P2. assert (Ln : (n < length spent)%nat) by lia. clear - Ln. revert n Ln. induction (length spent) as [|k IH]; intros n Ln; [lia|]. destruct n as [|n]; [reflexivity|]. cbn [repeat nth_error]. apply IH. lia. }
  unfold version1_sighash, v1_sighash, inputs. rewrite An, Ep, Ef. cbn [obind]. rewrite F1, F2, F3. rewrite (annex_ok (in_witness i)). rewrite andb_false_r.
  unfold output_overflow, outputs. rewrite IX, Z.geb_leb, Eo.
  destruct ((type mod 4 =? 3) && (len (tx_outputs t) <=? Z.of_nat n)) eqn:Ov; [exists c; split; [reflexivity|exact Hc]|].
  (* the first hashes *)
  set (head := if type <? 128 then [SHA256 (all_points t); SHA256 (flat_map (fun o => u64_bytes (out_value o)) spent);
     SHA256 (flat_map (fun o => var_bytes (script_bytes (out_script o))) spent); SHA256 (all_sequences t)] else []).
  assert (Q1 : exists c1, (if negb (type <? 128) then Some ([], c) else let (b, c0) := set_x1 checked s8 widths m c in
      do (o0, c2) <- set_only checked s8 widths m c0; Some ([c_points b; c_amounts o0; c_scripts o0; c_sequences b], c2)) = Some (head, c1) /\ caches_ok c1).
  { unfold head. destruct (type <? 128); cbn [negb]; [|exists c; split; [reflexivity|exact Hc]].
    destruct (set_x1_ok c Hc) as (c1 & E1 & H1). rewrite E1. destruct (set_only_ok c1 P H1) as (c2 & E2 & H2). rewrite E2. cbn [obind]. exists c2. split; [reflexivity|exact H2]. }
  destruct Q1 as (c1 & E1 & H1). rewrite E1. cbn [obind].
  set (outs := if (type mod 4 =? 2) || (type mod 4 =? 3) then [] else [SHA256 (all_outputs t)]).
  assert (Q2 : exists c2, (if negb ((type mod 4 =? 2) || (type mod 4 =? 3)) then let (b, c0) := set_x1 checked s8 widths m c1 in ([c_outputs b], c0) else ([], c1)) = (outs, c2) /\ caches_ok c2).
  { unfold outs. destruct ((type mod 4 =? 2) || (type mod 4 =? 3)); cbn [negb]; [exists c1; split; [reflexivity|exact H1]|].
    destruct (set_x1_ok c1 H1) as (c2 & E2 & H2). rewrite E2. exists c2. split; [reflexivity|exact H2]. }
  destruct Q2 as (c2 & E2 & H2). rewrite E2.
  destruct (spent_wire o P (nth_error_In _ _ Eo)) as [Sw Sl].
  set (own := if type <? 128 then [u32_bytes (Z.of_nat n)] else [point_bytes i; u64_bytes (out_value o); var_bytes (script_bytes (out_script o)); u32_bytes (in_sequence i)]).
  assert (Q3 : (if negb (type <? 128) then omap (fun p => [point_data i; write_le 8 value; script_data (out_script p) 0; write_le 4 (in_sequence i)]) (Some o) else Some [write_le 4 (Z.of_nat n)]) = Some own).
  { unfold own. destruct (type <? 128); cbn [negb omap]; [reflexivity|]. rewrite Sw, Hv. reflexivity. }
  rewrite Q3. cbn [obind].
  set (single := if type mod 4 =? 3 then match nth_error (tx_outputs t) n with Some x => [SHA256 (wire_output x)] | None => [] end else []).
  assert (Q4 : exists c4, (if type mod 4 =? 3 then omap (fun p => ([fst p], snd p)) (get_output_hash checked s8 widths m (Z.to_nat (Z.of_nat n)) c2) else Some ([], c2)) = Some (single, c4) /\ caches_ok c4).
  { unfold single. destruct (type mod 4 =? 3); [|exists c2; split; [reflexivity|exact H2]]. cbn [andb] in Ov. rewrite Nat2Z.id.
    destruct (nth_error (tx_outputs t) n) as [x|] eqn:Ex; [|apply nth_error_None in Ex; unfold len in Ov; lia].
    destruct (get_output_ok n x c2 H2 Ex) as (c4 & E4 & H4). rewrite E4. exists c4. split; [reflexivity|exact H4]. }
  destruct Q4 as (c4 & E4 & H4). rewrite E4. cbn [obind]. exists c4. split; [|exact H4]. f_equal. f_equal. f_equal.
  set (an := annex_of (in_witness i)).
  assert (Q5 : match an with Some a => [sha256_sink checked s8 widths [write_variable (len a); a]] | None => [] end = match an with Some a => [SHA256 (var_bytes a)] | None => [] end).
  { destruct an as [a|] eqn:Ea; [|reflexivity]. assert (La : len a <= 4000000).
    { destruct T as (_ & _ & _ & Fi & _). rewrite Forall_forall in Fi. destruct (Fi i (nth_error_In _ _ An)) as (_ & _ & _ & _ & _ & Fw). rewrite Forall_forall in Fw. apply (Fw a). apply annex_in. exact Ea. }
    pose proof (len_nonneg a). rewrite compact by lia. rewrite sink_ok; cbn [concat]; rewrite app_nil_r; [reflexivity|]. rewrite len_app. pose proof (len_compact (len a)). apply max_59. rewrite two59. lia. }
  rewrite Q5. rewrite spend_ok.
  assert (PL : len (point_bytes i) = 36) by (apply (point_len t T); apply (nth_error_In _ _ An)).
  rewrite sinkt_ok; [|cbn; lia|].
  - unfold TapSighash. change tap_sighash with [84; 97; 112; 83; 105; 103; 104; 97; 115; 104]. f_equal. unfold SigMsg. fold an.
    cbn [app concat]. rewrite !concat_app. unfold head, outs, own, single, write_le, u32_bytes.
    f_equal. f_equal. f_equal. f_equal. f_equal; [destruct (type <? 128); cbn [concat]; rewrite ?app_nil_r; reflexivity|].
    f_equal; [destruct ((type mod 4 =? 2) || (type mod 4 =? 3)); cbn [concat]; rewrite ?app_nil_r; reflexivity|].
    cbn [concat app]. rewrite !concat_app.
    f_equal; [destruct tapleaf, an; reflexivity|].
    f_equal; [destruct (type <? 128); cbn [concat]; rewrite ?app_nil_r; reflexivity|].
    f_equal; [destruct an; cbn [concat]; rewrite ?app_nil_r; reflexivity|].
    f_equal; [destruct (type mod 4 =? 3); [destruct (nth_error (tx_outputs t) n)|]; cbn [concat]; rewrite ?app_nil_r; reflexivity|].
    destruct tapleaf; cbn [option_map concat leaf codesep_pos app]; rewrite ?app_nil_r; reflexivity.
  - cbn [app concat]. rewrite !concat_app. cbn [concat app]. rewrite !len_cons, !len_app. unfold write_le. rewrite !len_le.
    assert (L1 : len (concat head) <= 128) by (unfold head; destruct (type <? 128); cbn [concat]; rewrite ?app_nil_r, ?len_app, ?sha_len; cbn; lia).
    assert (L2 : len (concat outs) <= 32) by (unfold outs; destruct ((type mod 4 =? 2) || (type mod 4 =? 3)); cbn [concat]; rewrite ?app_nil_r, ?sha_len; cbn; lia).
    assert (L3 : len (concat own) <= 200 + 2 ^ 56).
    { unfold own, u32_bytes, u64_bytes. destruct (type <? 128); cbn [concat]; rewrite ?app_nil_r, ?len_app, ?len_le; [lia|]. rewrite PL. pose proof (var_len (script_bytes (out_script o))). lia. }
    assert (L4 : len (concat single) <= 32) by (unfold single; destruct (type mod 4 =? 3); [destruct (nth_error (tx_outputs t) n)|]; cbn [concat]; rewrite ?app_nil_r, ?sha_len; cbn; lia).
    assert (L5 : len (concat match an with Some a => [SHA256 (var_bytes a)] | None => [] end) <= 32) by (destruct an; cbn [concat]; rewrite ?app_nil_r, ?sha_len; cbn; lia).
    rewrite ?concat_app, ?len_app, ?len_cons, ?len_app.
    assert (L6 : len (concat match tapleaf with Some h => [h; [0]; le_bytes 4 sep] | None => [] end) <= 40).
    { destruct tapleaf; cbn [concat]; [|cbn; lia]. rewrite !len_app, !len_le. unfold len at 1. rewrite Ht. cbn. lia. }
    rewrite two56 in L3. change (2 ^ 60) with 1152921504606846976. lia.
Qed.
Lemma separator_ok q : (r_offset q <= length (r_script q))%nat -> len (r_script q) < 2 ^ 32 -> separator q = position_of q.
Proof.
  intros L1 L2. unfold separator, position_of. destruct (r_script q) as [|a l], (r_offset q) as [|k]; cbn [length] in *; try lia; try reflexivity.
  apply wrap_fits; [reflexivity|]. unfold len in L2. cbn [length] in L2. unfold fits. cbn. change (2 ^ 32) with 4294967296 in L2. lia.
Qed.
Lemma request_answer c q : caches_ok c -> request_ok m spent q ->
  exists c', tx_signature_hash checked s8 widths m c q = Some (demanded t spent q, c') /\ caches_ok c'.
Proof.
  intros Hc (Q1 & Q2 & Q3 & Q4 & Q5 & Q6). unfold tx_signature_hash, demanded. cbv zeta. fold (is_segwit (r_version q)) (is_taproot (r_version q)). fold (by_v0 q).
  destruct (by_v0 q) eqn:B0.
  - destruct (version0_ok c (r_input q) (r_script q) (r_offset q) (r_value q) (r_flags q) Hc Q1 Q2 Q5) as (c' & h & E1 & E2 & E3). rewrite E1. cbn [obind]. exists c'. split; [|exact E2]. rewrite <- E3. reflexivity.
  - unfold by_v1 in *. rewrite B0 in *. cbn [negb andb] in *.
    destruct (Z.testbit (r_rules q) bip342_rule && is_taproot (r_version q)).
    + destruct (Q6 eq_refl) as (V & P & Hv & Ht). rewrite (separator_ok q Q3 Q4). apply version1_ok; assumption.
    + unfold code_of in *. rewrite (unversioned_ok (r_input q) (r_script q) (r_offset q) (r_flags q) Q1 Q2 Q5). cbn [obind]. exists c. split; [reflexivity|exact Hc].
Qed.
End S.

(** ** C70 *)
Theorem C70_history checked s8 widths m spent qs : tx_ok (body m) -> len (wire_legacy (body m)) < 2 ^ 56 ->
  Forall (request_ok m spent) qs ->
  history checked s8 widths m (no_caches m) qs = Some (map (demanded (body m) spent) qs).
Proof.
  intros T W F. assert (G : forall c, caches_ok m spent c -> history checked s8 widths m c qs = Some (map (demanded (body m) spent) qs)).
  { induction F as [|q qs Hq _ IH]; intros c Hc; [reflexivity|]. cbn [history map].
    destruct (request_answer checked s8 widths m spent T W c q Hc Hq) as (c' & E & Hc'). rewrite E. cbn [obind]. rewrite (IH c' Hc'). reflexivity. }
  apply G. apply no_caches_ok.
Qed.
Print Assumptions C70_history.
