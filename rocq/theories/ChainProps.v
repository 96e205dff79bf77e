(** C16 transaction codec, C17 header and block codec, C35 weight.
    Vocabulary: ChainSpec.v (wire layouts, representable objects). *)
From Verif Require Import Base Bytes MathModel MathSpec MathProofs StreamModel StreamSpec StreamProofs StreamProofs2 LCalc OpModel OpProofs OpProofs2 OpProofs3 ChainModel RCalc ChainSpec ChainProofs ChainProofs2 ChainProofs3 ChainProofs4.

Ltac rng := unfold u32_ok, u64_ok; cbn; lia.
Lemma plain_parse l : bytes_ok l -> len l < 2 ^ 63 -> fst (script_from_data false (fresh l)) = parse_script l.
Proof.
  intros Hok Hl. destruct (script_plain (fresh l) l eq_refl eq_refl Hok) as [L E]; [cbn [lim fresh]; unfold max_size_t; lia|]. rewrite E. reflexivity.
Qed.
Lemma script_ok_swf s : script_ok s -> swf s.
Proof.
  intros (l & Hok & Hl & ->). rewrite plain_parse by assumption. split; [apply parse_script_wf, Hok|]. unfold script_fits. rewrite parse_script_data by exact Hok. lia.
Qed.
Lemma swf_script_ok s : swf s -> len (ops_to_data s) < 2 ^ 63 -> script_ok s.
Proof.
  intros (W & _) Hl. exists (ops_to_data s). split; [apply script_wf_ok, W|]. split; [exact Hl|]. rewrite plain_parse; [symmetry; apply parse_of_data, W|apply script_wf_ok, W|exact Hl].
Qed.
Lemma input_ok_wf i : input_ok i -> iwf i /\ wwf (in_witness i).
Proof. intros (H1 & H2 & H3 & H4 & H5). split; [|exact H5]. split; [exact H1|]. split; [exact H2|]. split; [apply script_ok_swf, H3|exact H4]. Qed.
Lemma carries t : carries_witness t <-> has_witness_data (tx_inputs t) = true.
Proof.
  unfold carries_witness, has_witness_data. rewrite existsb_exists. split; intros (i & Hi & H); exists i; (split; [exact Hi|]); destruct (in_witness i); auto; discriminate.
Qed.
Lemma tx_ok_wf t : tx_ok t -> twf t.
Proof.
  intros (H1 & H2 & H3 & H4 & H5 & H6 & H7). split; [exact H1|]. split; [exact H2|]. split; [exact H3|].
  split; [eapply Forall_impl; [|exact H4]; intros i Hi; apply (input_ok_wf i Hi)|].
  split; [eapply Forall_impl; [|exact H4]; intros i Hi; apply (input_ok_wf i Hi)|].
  split; [exact H5|]. split; [eapply Forall_impl; [|exact H6]; intros o (A & B); split; [exact A|apply script_ok_swf, B]|].
  rewrite carries in H7. destruct (tx_segregated t), (has_witness_data (tx_inputs t)); tauto || (symmetry; tauto).
Qed.
Lemma compact n : 0 <= n < 2 ^ 64 -> write_variable n = compact_size n.
Proof.
  intros H. unfold write_variable, compact_size, write_le. destruct (Z.ltb_spec n 253).
  - destruct (Z.leb_spec n 252); [|lia]. rewrite wrap_fits; [reflexivity|reflexivity|unfold fits; cbn; lia].
  - destruct (Z.leb_spec n 252); [lia|]. destruct (Z.leb_spec n 65535); [rewrite wrap_fits; [reflexivity|reflexivity|unfold fits; cbn; lia]|].
    destruct (Z.leb_spec n 4294967295); [rewrite wrap_fits; [reflexivity|reflexivity|unfold fits; cbn; lia]|reflexivity].
Qed.
Lemma script_wire s : swf s -> script_to_data true s = var_bytes (script_bytes s).
Proof.
  intros (_ & F). unfold script_to_data, var_bytes, script_bytes, script_size, script_to_data, script_fits in *. cbn [app]. rewrite ops_size_len. rewrite compact; [reflexivity|].
  split; [apply len_nonneg|exact F].
Qed.
Lemma input_wire i : iwf i -> input_to_data i = wire_input i.
Proof. intros (_ & _ & H & _). unfold input_to_data, wire_input. rewrite script_wire by exact H. reflexivity. Qed.
Lemma output_wire o : owf o -> output_to_data o = wire_output o.
Proof. intros (_ & H). unfold output_to_data, wire_output. rewrite script_wire by exact H. reflexivity. Qed.
Lemma concat_wire {A} (f g : A -> list Z) l : Forall (fun a => f a = g a) l -> concat (map f l) = concat (map g l).
Proof. induction 1 as [|a l H _ IH]; [reflexivity|]. cbn. rewrite H, IH. reflexivity. Qed.
Lemma witness_wire i : wwf (in_witness i) -> witness_to_data (in_witness i) = wire_witness i.
Proof.
  intros (H1 & H2). unfold witness_to_data, wire_witness, counted. rewrite compact by (pose proof (len_nonneg (in_witness i)); lia). f_equal. apply concat_wire.
  eapply Forall_impl; [|exact H2]. intros e [_ He]. unfold element_to_data, var_bytes. rewrite compact by (pose proof (len_nonneg e); lia). reflexivity.
Qed.

(** ** C16 *)

(** The bytes written are the protocol's: the original layout when witnesses are
    not asked for or absent, else BIP144 marker, flag and witnesses. *)
Theorem C16_wire_format t : tx_ok t ->
  tx_to_data false t = wire_legacy t /\
  (~ carries_witness t -> tx_to_data true t = wire_legacy t) /\
  (carries_witness t -> tx_to_data true t = wire_segwit t).
Proof.
  intros Ok. pose proof (tx_ok_wf t Ok) as (_ & _ & Hni & Fi & Fw & Hno & Fo & Hs).
  assert (EI : write_variable (len (tx_inputs t)) ++ concat (map input_to_data (tx_inputs t)) = counted wire_input (tx_inputs t)).
  { unfold counted. rewrite compact by (pose proof (len_nonneg (tx_inputs t)); lia). f_equal. apply concat_wire. eapply Forall_impl; [|exact Fi]. apply input_wire. }
  assert (EO : write_variable (len (tx_outputs t)) ++ concat (map output_to_data (tx_outputs t)) = counted wire_output (tx_outputs t)).
  { unfold counted. rewrite compact by (pose proof (len_nonneg (tx_outputs t)); lia). f_equal. apply concat_wire. eapply Forall_impl; [|exact Fo]. apply output_wire. }
  assert (EW : concat (map (fun i => witness_to_data (in_witness i)) (tx_inputs t)) = concat (map wire_witness (tx_inputs t))).
  { apply concat_wire. eapply Forall_impl; [|exact Fw]. apply witness_wire. }
  assert (L : tx_to_data false t = wire_legacy t).
  { unfold tx_to_data, wire_legacy. cbn [andb app]. rewrite <- EI, <- EO, <- !app_assoc. reflexivity. }
  split; [exact L|]. rewrite carries. split; intros C.
  - rewrite <- L. unfold tx_to_data. rewrite Hs. destruct (has_witness_data (tx_inputs t)); [congruence|reflexivity].
  - unfold tx_to_data, wire_segwit. rewrite Hs, C. cbn [andb]. rewrite EW, <- EI, <- EO, <- !app_assoc. reflexivity.
Qed.
Print Assumptions C16_wire_format.

(** Reading back what was written, anywhere in a stream: the same transaction,
    exactly its bytes consumed, reader valid. *)
Theorem C16_round_trip t before after : tx_ok t ->
  tx_inputs t <> [] \/ len (tx_outputs t) <> 1 ->
  len (tx_to_data true t) + len after < 2 ^ 64 ->
  exists s, tx_from_data true (mkrd before (tx_to_data true t ++ after) true max_size_t) = (t, s) /\
    valid s = true /\ rest s = after /\ position s = len before + len (tx_to_data true t).
Proof.
  intros Ok Ne Hl. destruct (tx_parsesL t (conj (tx_ok_wf t Ok) Ne) (mkrd before (tx_to_data true t ++ after) true max_size_t) after eq_refl eq_refl) as (l' & E & _).
  { cbn [lim]. unfold max_size_t. lia. }
  eexists. split; [exact E|]. split; [reflexivity|]. split; [reflexivity|]. unfold position. cbn [past]. rewrite len_app, len_rev. lia.
Qed.
Print Assumptions C16_round_trip.

(** The same for the witness-free form, whichever way the reader is asked. *)
Theorem C16_stripped_round_trip t before after witness : tx_ok t ->
  tx_inputs t <> [] \/ len (tx_outputs t) <> 1 ->
  len (tx_to_data false t) + len after < 2 ^ 64 ->
  exists s, tx_from_data witness (mkrd before (tx_to_data false t ++ after) true max_size_t) = (strip t, s) /\
    valid s = true /\ rest s = after /\ position s = len before + len (tx_to_data false t).
Proof.
  intros Ok Ne Hl. destruct (tx_parsesL_plain t witness (tx_ok_wf t Ok) Ne (mkrd before (tx_to_data false t ++ after) true max_size_t) after eq_refl eq_refl) as (l' & E & _).
  { cbn [lim]. unfold max_size_t. lia. }
  eexists. split; [exact E|]. split; [reflexivity|]. split; [reflexivity|]. unfold position. cbn [past]. rewrite len_app, len_rev. lia.
Qed.
Print Assumptions C16_stripped_round_trip.

(** serialized_size is the number of bytes written, so the buffer to_data
    returns holds exactly the serialization. *)
Theorem C16_size_is_length t witness : tx_ok t -> len (tx_to_data witness t) < 2 ^ 64 ->
  tx_size witness t = len (tx_to_data witness t) /\ tx_data witness t = tx_to_data witness t.
Proof.
  intros Ok Hl. pose proof (tx_sized witness t (twf_hashes t (tx_ok_wf t Ok)) Hl) as E. split; [exact E|]. apply fill_exact, E.
Qed.
Print Assumptions C16_size_is_length.

Lemma len_concat_in {A} (f : A -> list Z) l a : In a l -> len (f a) <= len (concat (map f l)).
Proof.
  induction l as [|b l IH]; [intros []|]. intros [->|H]; cbn [map concat]; rewrite len_app; [pose proof (len_nonneg (concat (map f l))); lia|]. specialize (IH H). pose proof (len_nonneg (f b)). lia.
Qed.
Lemma script_bytes_bound s : len (ops_to_data s) <= len (script_to_data true s).
Proof. unfold script_to_data. rewrite len_app. pose proof (len_nonneg (write_variable (script_size false s))). lia. Qed.
Lemma twf_ok t : twf t -> len (tx_to_data true t) < 2 ^ 63 -> tx_ok t.
Proof.
  intros W Hl. pose proof W as (H1 & H2 & H3 & H4 & H5 & H6 & H7 & H8). rewrite tx_data_len in Hl.
  pose proof (variable_size_pos (len (tx_inputs t))). pose proof (variable_size_pos (len (tx_outputs t))). pose proof (len_nonneg (wits (tx_inputs t))).
  pose proof (len_nonneg (concat (map input_to_data (tx_inputs t)))). pose proof (len_nonneg (concat (map output_to_data (tx_outputs t)))).
  assert (LI : len (concat (map input_to_data (tx_inputs t))) < 2 ^ 63) by (destruct (true && tx_segregated t); lia).
  assert (LO : len (concat (map output_to_data (tx_outputs t))) < 2 ^ 63) by (destruct (true && tx_segregated t); lia).
  split; [exact H1|]. split; [exact H2|]. split; [exact H3|]. split.
  - apply Forall_forall. intros i Hi. rewrite Forall_forall in H4, H5. destruct (H4 i Hi) as (A & B & C & D). destruct (H5 i Hi) as (E & F).
    split; [exact A|]. split; [exact B|]. split; [|split; [exact D|split; [exact E|exact F]]]. apply swf_script_ok; [exact C|].
    pose proof (len_concat_in input_to_data _ _ Hi) as L. unfold input_to_data in L at 1. rewrite !len_app in L. unfold write_le in L. rewrite !len_le_bytes in L.
    pose proof (script_bytes_bound (in_script i)). pose proof (len_nonneg (in_hash i)). lia.
  - split; [exact H6|]. split.
    + apply Forall_forall. intros o Ho. rewrite Forall_forall in H7. destruct (H7 o Ho) as (A & B). split; [exact A|]. apply swf_script_ok; [exact B|].
      pose proof (len_concat_in output_to_data _ _ Ho) as L. unfold output_to_data in L at 1. rewrite !len_app in L. unfold write_le in L. rewrite !len_le_bytes in L.
      pose proof (script_bytes_bound (out_script o)). lia.
    + rewrite carries, H8. tauto.
Qed.

(** Whatever a successful read returns is what was in the stream: re-serializing
    gives the consumed bytes back, the fields are in range, and the segregation
    flag is that of the witnesses (no superfluous witness is accepted). *)
Theorem C16_accepted_bytes_are_canonical s t s' :
  bytes_ok (rest s) -> len (rest s) < 2 ^ 63 -> lim s = max_size_t ->
  tx_from_data true s = (t, s') -> valid s' = true ->
  rest s = tx_to_data true t ++ rest s' /\ position s' = position s + len (tx_to_data true t) /\
  tx_ok t /\ (tx_inputs t <> [] \/ len (tx_outputs t) <> 1).
Proof.
  intros Hb Hn HL E G. destruct (tx_exactL s t s' Hb ltac:(rewrite HL; unfold max_size_t; lia) E G) as (_ & (W & Ne) & r & Hr & Hr' & Hp & _).
  split; [rewrite Hr'; exact Hr|]. split; [unfold position; rewrite Hp, len_app, len_rev; lia|]. split; [|exact Ne]. apply twf_ok; [exact W|].
  rewrite Hr, len_app in Hn. pose proof (len_nonneg r). lia.
Qed.
Print Assumptions C16_accepted_bytes_are_canonical.

(** Different transactions never serialize to the same bytes. *)
Theorem C16_serialization_is_injective t u :
  tx_ok t -> tx_ok u -> tx_inputs t <> [] -> tx_inputs u <> [] -> len (tx_to_data true t) < 2 ^ 64 ->
  tx_to_data true t = tx_to_data true u -> t = u.
Proof.
  intros Ot Ou Nt Nu Hl E.
  destruct (C16_round_trip t [] [] Ot (or_introl Nt) ltac:(change (len (@nil Z)) with 0; lia)) as (s & P & _).
  destruct (C16_round_trip u [] [] Ou (or_introl Nu) ltac:(rewrite <- E; change (len (@nil Z)) with 0; lia)) as (s' & P' & _).
  rewrite <- E, P in P'. injection P' as <- _. reflexivity.
Qed.
Print Assumptions C16_serialization_is_injective.

(** Reading with witness = false accepts only what reading with witness = true
    accepts, consumes the same bytes and returns the stripped transaction. *)
Theorem C16_witness_free_read_agrees s t s' :
  bytes_ok (rest s) -> 0 <= lim s <= max_size_t -> tx_from_data false s = (t, s') -> valid s' = true ->
  exists full, tx_from_data true s = (full, s') /\ t = strip full.
Proof.
  intros Hb HL E G. destruct (tx_same s Hb HL) as [A _]. destruct (A t s' E G) as (full & E1 & E2 & _). exists full. auto.
Qed.
Print Assumptions C16_witness_free_read_agrees.

(** Conversely when the witness carries at least one non-empty element. *)
Theorem C16_witness_free_read_complete_partial s t s' :
  bytes_ok (rest s) -> 0 <= lim s <= max_size_t -> tx_from_data true s = (t, s') -> valid s' = true ->
  tx_segregated t = false \/ (exists i e, In i (tx_inputs t) /\ In e (in_witness i) /\ e <> []) ->
  tx_from_data false s = (strip t, s').
Proof.
  intros Hb HL E G C. destruct (tx_same s Hb HL) as [_ B]. apply (B t s' E G). destruct C as [C|(i & e & Hi & He & Ne)]; [left; exact C|right].
  unfold some_witness_element, some_element. apply existsb_exists. exists i. split; [exact Hi|]. apply existsb_exists. exists e. split; [exact He|]. destruct e; [congruence|reflexivity].
Qed.
Print Assumptions C16_witness_free_read_complete_partial.

Lemma script_ok_by l s : forallb (fun b => (0 <=? b) && (b <? 256)) l = true -> (length l <? 100)%nat = true ->
  s = fst (script_from_data false (fresh l)) -> script_ok s.
Proof.
  intros H1 H2 ->. exists l. split; [|split; [|reflexivity]].
  - apply Forall_forall. intros b Hb. rewrite forallb_forall in H1. specialize (H1 b Hb). unfold byte_ok. lia.
  - apply Nat.ltb_lt in H2. unfold len. lia.
Qed.
Lemma hash_ok_by h : (length h =? 32)%nat = true -> forallb (fun b => (0 <=? b) && (b <? 256)) h = true -> hash_ok h.
Proof.
  intros H1 H2. split; [apply Nat.eqb_eq, H1|]. apply Forall_forall. intros b Hb. rewrite forallb_forall in H2. specialize (H2 b Hb). unfold byte_ok. lia.
Qed.
(** The restriction is needed: a transaction whose witness stacks hold only
    empty elements is valid when read with witnesses and rejected without. *)
Definition push_true : script := [mkop 81 [] false].
Definition sample_hash : list Z := map Z.of_nat (seq 1 32).
Definition empty_element_tx : tx :=
  mktx 2 [mkinput sample_hash 0 [] 4294967295 [[]]] [mkoutput 5000 push_true] 0 true.
Theorem C16_witness_free_read_complete_refuted :
  let s := fresh (tx_to_data true empty_element_tx) in
  (exists s', tx_from_data true s = (empty_element_tx, s') /\ valid s' = true) /\
  valid (snd (tx_from_data false s)) = false.
Proof. cbv zeta. split; [eexists; split; vm_compute; reflexivity|vm_compute; reflexivity]. Qed.
Print Assumptions C16_witness_free_read_complete_refuted.

(** The exclusion in the round trip is needed: with no inputs and one output the
    bytes read as a witness marker and flag. *)
Theorem C16_no_inputs_one_output_refuted :
  let t := make_tx 1 [] [mkoutput 5000 push_true] 0 in
  tx_ok t /\ valid (snd (tx_from_data true (fresh (tx_to_data true t)))) = false.
Proof.
  cbv zeta. split; [|vm_compute; reflexivity]. split; [rng|]. split; [rng|]. split; [rng|]. split; [constructor|]. split; [rng|].
  split; [constructor; [split; [rng|apply (script_ok_by [81]); vm_compute; reflexivity]|constructor]|].
  split; [discriminate|]. intros (i & [] & _).
Qed.
Print Assumptions C16_no_inputs_one_output_refuted.

(** The identity hash computed from a segregated wire buffer is the hash of the
    witness-free serialization (txid), whatever follows in the buffer. *)
Theorem C16_txid_from_wire_buffer (sha256d : list Z -> list Z) t after :
  tx_ok t -> carries_witness t -> len (tx_to_data true t) < 2 ^ 64 ->
  desegregated_hash sha256d (tx_size true t) (tx_size false t) (tx_to_data true t ++ after) = sha256d (wire_legacy t).
Proof.
  intros Ok C Hl. rewrite desegregated; [|apply tx_ok_wf, Ok| |exact Hl]; [rewrite (proj1 (C16_wire_format t Ok)); reflexivity|].
  destruct Ok as (_ & _ & _ & _ & _ & _ & H). tauto.
Qed.
Print Assumptions C16_txid_from_wire_buffer.

(** Non-vacuity: a segregated transaction with two inputs meets the hypotheses. *)
Definition sample_tx : tx :=
  make_tx 2 [mkinput sample_hash 7 [mkop 2 [1; 2] false] 4294967294 []; mkinput (rev sample_hash) 0 [] 5 [[9; 9; 9]; []]]
          [mkoutput 2100000000000000 push_true; mkoutput 0 []] 500000001.
Example sample_tx_ok : tx_ok sample_tx /\ carries_witness sample_tx /\ tx_inputs sample_tx <> [] /\
  len (tx_to_data true sample_tx) < 2 ^ 63.
Proof.
  assert (C : carries_witness sample_tx) by (eexists; split; [right; left; reflexivity|discriminate]).
  split; [|split; [exact C|split; [discriminate|vm_compute; reflexivity]]].
  split; [rng|]. split; [rng|]. split; [rng|]. split.
  { repeat constructor; try rng; try (apply hash_ok_by; vm_compute; reflexivity).
    - apply (script_ok_by [2; 1; 2]); vm_compute; reflexivity.
    - apply (script_ok_by []); vm_compute; reflexivity. }
  split; [rng|]. split; [|split; [intros _; exact C|reflexivity]].
  constructor; [split; [rng|apply (script_ok_by [81]); vm_compute; reflexivity]|].
  constructor; [split; [rng|apply (script_ok_by []); vm_compute; reflexivity]|constructor].
Qed.

(** ** C17 *)
Definition block_ok (b : block) : Prop :=
  header_ok (b_header b) /\ len (b_txs b) <= 1000000 /\
  Forall (fun t => tx_ok t /\ (tx_inputs t <> [] \/ len (tx_outputs t) <> 1)) (b_txs b).
Lemma block_ok_wf b : block_ok b -> bwf b.
Proof. intros (H1 & H2 & H3). split; [exact H1|]. split; [exact H2|]. eapply Forall_impl; [|exact H3]. intros t [A B]. split; [apply tx_ok_wf, A|exact B]. Qed.

(** Headers: 80 bytes in the protocol layout, read back identically; any 80
    bytes are a header and re-serialize to themselves. *)
Theorem C17_header_codec h before after : header_ok h -> len after + 80 < 2 ^ 64 ->
  header_to_data h = wire_header h /\ len (header_to_data h) = 80 /\
  exists s, header_from_data (mkrd before (header_to_data h ++ after) true max_size_t) = (h, s) /\
    valid s = true /\ rest s = after /\ position s = len before + 80.
Proof.
  intros Ok Hl. pose proof (header_data_len h Ok) as L. split; [reflexivity|]. split; [exact L|].
  destruct (header_parsesL h Ok (mkrd before (header_to_data h ++ after) true max_size_t) after eq_refl eq_refl) as (l' & E & _).
  { cbn [lim]. unfold max_size_t. lia. }
  eexists. split; [exact E|]. split; [reflexivity|]. split; [reflexivity|]. unfold position. cbn [past]. rewrite len_app, len_rev. lia.
Qed.
Print Assumptions C17_header_codec.
Theorem C17_any_80_bytes_are_a_header l : bytes_ok l -> len l = 80 ->
  exists h s, header_from_data (fresh l) = (h, s) /\ valid s = true /\ rest s = [] /\ header_to_data h = l /\ header_ok h.
Proof.
  intros Hb Hl. assert (K : exists a b c d e f, l = a ++ b ++ c ++ d ++ e ++ f /\ length a = 4%nat /\ length b = 32%nat /\ length c = 32%nat /\ length d = 4%nat /\ length e = 4%nat /\ length f = 4%nat).
  { exists (firstn 4 l), (firstn 32 (skipn 4 l)), (firstn 32 (skipn 36 l)), (firstn 4 (skipn 68 l)), (firstn 4 (skipn 72 l)), (skipn 76 l).
    assert (N : length l = 80%nat) by (unfold len in Hl; lia). repeat rewrite firstn_length. repeat rewrite skipn_length. rewrite N. repeat split; try reflexivity.
    rewrite <- (firstn_skipn 4 l) at 1. f_equal. rewrite <- (firstn_skipn 32 (skipn 4 l)) at 1. f_equal. rewrite skipn_skipn. cbn [Nat.add].
    rewrite <- (firstn_skipn 32 (skipn 36 l)) at 1. f_equal. rewrite skipn_skipn. cbn [Nat.add].
    rewrite <- (firstn_skipn 4 (skipn 68 l)) at 1. f_equal. rewrite skipn_skipn. cbn [Nat.add].
    rewrite <- (firstn_skipn 4 (skipn 72 l)) at 1. f_equal. rewrite skipn_skipn. reflexivity. }
  destruct K as (a & b & c & d & e & f & E & La & Lb & Lc & Ld & Le & Lf).
  assert (Bs : bytes_ok a /\ bytes_ok b /\ bytes_ok c /\ bytes_ok d /\ bytes_ok e /\ bytes_ok f).
  { subst l. repeat (apply bytes_ok_app in Hb; destruct Hb as [? Hb]). auto 10. }
  destruct Bs as (Ba & Bb & Bc & Bd & Be & Bf).
  assert (V : forall x, bytes_ok x -> length x = 4%nat -> u32_ok (le_value x) /\ write_le 4 (le_value x) = x).
  { intros x Hx Lx. split; [pose proof (le_value_range x Hx) as R; unfold len in R; rewrite Lx in R; exact R|]. unfold write_le. rewrite <- Lx. apply le_bytes_value, Hx. }
  set (h := mkheader (le_value a) b c (le_value d) (le_value e) (le_value f)).
  destruct (V a Ba La) as [Ra Wa]. destruct (V d Bd Ld) as [Rd Wd]. destruct (V e Be Le) as [Re We]. destruct (V f Bf Lf) as [Rf Wf].
  assert (Ok : header_ok h) by (repeat split; cbn [h h_version h_previous h_merkle h_time h_bits h_nonce]; auto; try apply Ra; try apply Rd; try apply Re; try apply Rf).
  assert (Eh : header_to_data h = l) by (unfold header_to_data, h; cbn [h_version h_previous h_merkle h_time h_bits h_nonce]; rewrite Wa, Wd, We, Wf; symmetry; exact E).
  destruct (C17_header_codec h [] [] Ok ltac:(cbn; lia)) as (_ & _ & s & P & P1 & P2 & _). rewrite app_nil_r, Eh in P.
  exists h, s. auto.
Qed.
Print Assumptions C17_any_80_bytes_are_a_header.

Theorem C17_block_round_trip b before after : block_ok b -> len (block_to_data true b) + len after < 2 ^ 64 ->
  exists s, block_from_data true (mkrd before (block_to_data true b ++ after) true max_size_t) = (b, s) /\
    valid s = true /\ rest s = after /\ position s = len before + len (block_to_data true b).
Proof.
  intros Ok Hl. destruct (block_parsesL b (block_ok_wf b Ok) (mkrd before (block_to_data true b ++ after) true max_size_t) after eq_refl eq_refl) as (l' & E & _).
  { cbn [lim]. unfold max_size_t. lia. }
  eexists. split; [exact E|]. split; [reflexivity|]. split; [reflexivity|]. unfold position. cbn [past]. rewrite len_app, len_rev. lia.
Qed.
Print Assumptions C17_block_round_trip.

(** The block bytes are header, transaction count and the transactions. *)
Theorem C17_block_wire_format b : block_ok b ->
  block_to_data true b = wire_header (b_header b) ++ counted (tx_to_data true) (b_txs b) /\
  block_to_data false b = wire_header (b_header b) ++ counted wire_legacy (b_txs b).
Proof.
  intros (_ & H2 & H3). unfold block_to_data, counted. rewrite compact by (pose proof (len_nonneg (b_txs b)); lia). split; [reflexivity|].
  f_equal. f_equal. apply concat_wire. eapply Forall_impl; [|exact H3]. intros t [A _]. apply C16_wire_format, A.
Qed.
Print Assumptions C17_block_wire_format.

Theorem C17_accepted_bytes_are_canonical s b s' :
  bytes_ok (rest s) -> len (rest s) < 2 ^ 63 -> lim s = max_size_t ->
  block_from_data true s = (b, s') -> valid s' = true ->
  rest s = block_to_data true b ++ rest s' /\ position s' = position s + len (block_to_data true b) /\ block_ok b.
Proof.
  intros Hb Hn HL E G. destruct (block_exactL s b s' Hb ltac:(rewrite HL; unfold max_size_t; lia) E G) as (_ & (W1 & W2 & W3) & r & Hr & Hr' & Hp & _).
  split; [rewrite Hr'; exact Hr|]. split; [unfold position; rewrite Hp, len_app, len_rev; lia|]. split; [exact W1|]. split; [exact W2|].
  apply Forall_forall. intros t Ht. rewrite Forall_forall in W3. destruct (W3 t Ht) as [A B]. split; [|exact B]. apply twf_ok; [exact A|].
  pose proof (len_concat_in (tx_to_data true) _ _ Ht). rewrite Hr in Hn. unfold block_to_data in Hn. rewrite !len_app in Hn.
  pose proof (len_nonneg r). pose proof (len_nonneg (header_to_data (b_header b))). pose proof (len_nonneg (write_variable (len (b_txs b)))). lia.
Qed.
Print Assumptions C17_accepted_bytes_are_canonical.

Theorem C17_size_is_length b witness : block_ok b -> len (block_to_data witness b) < 2 ^ 64 ->
  block_size witness b = len (block_to_data witness b) /\ block_data witness b = block_to_data witness b.
Proof.
  intros Ok Hl. assert (F : Forall hashes_sized (b_txs b)).
  { destruct Ok as (_ & _ & F). eapply Forall_impl; [|exact F]. intros t [A _]. apply twf_hashes, tx_ok_wf, A. }
  pose proof (block_sized witness b (proj1 Ok) F Hl) as E. split; [exact E|]. apply fill_exact, E.
Qed.
Print Assumptions C17_size_is_length.

(** Hashes cached from the wire buffer are the hashes of the objects: the header
    hash, every txid, and every witness txid except for a (consensus invalid)
    segregated coinbase after the first position. *)
Theorem C17_cached_hashes (sha256d : list Z -> list Z) b : block_ok b -> len (block_to_data true b) < 2 ^ 64 ->
  let cached := set_hashes sha256d b (block_to_data true b) in
  fst cached = sha256d (wire_header (b_header b)) /\ length (snd cached) = length (b_txs b) /\
  forall k t c, nth_error (b_txs b) k = Some t -> nth_error (snd cached) k = Some c ->
    cached_hash sha256d false t c = sha256d (wire_legacy t) /\
    (k = O \/ is_coinbase t = false -> cached_hash sha256d true t c = tx_hash sha256d true t).
Proof.
  intros Ok Hl. cbv zeta. destruct (set_hashes_spec sha256d b (block_ok_wf b Ok) Hl) as (A & B & C). split; [exact A|]. split; [exact B|].
  intros k t c Ht Hc. destruct (C k t c Ht Hc) as [C1 C2]. split; [|exact C2]. rewrite C1. unfold tx_hash. rewrite andb_false_r. cbn [andb].
  destruct Ok as (_ & _ & F). rewrite Forall_forall in F. destruct (F t (nth_error_In _ _ Ht)) as [A' _]. rewrite (proj1 (C16_wire_format t A')). reflexivity.
Qed.
Print Assumptions C17_cached_hashes.

Definition sample_block : block := mkblock (mkheader 536870912 sample_hash (rev sample_hash) 1 2 3) [sample_tx; strip sample_tx].
Example sample_block_ok : block_ok sample_block /\ len (block_to_data true sample_block) < 2 ^ 63.
Proof.
  split; [|vm_compute; reflexivity]. destruct sample_tx_ok as (A & B & C & _).
  split; [repeat split; try rng; try (repeat constructor; unfold byte_ok; lia)|]. split; [rng|]. constructor; [split; [exact A|left; exact C]|].
  constructor; [|constructor]. split; [|left; discriminate].
  destruct A as (A1 & A2 & A3 & A4 & A5 & A6 & A7). split; [exact A1|]. split; [exact A2|]. split; [exact A3|]. split.
  { inversion A4 as [|? ? I1 I2]; subst. inversion I2 as [|? ? I3 I4]; subst. repeat constructor; try apply I1; try apply I3; rng. }
  split; [exact A5|]. split; [exact A6|]. split; [discriminate|]. intros (i & [<-|[<-|[]]] & H); cbn in H; congruence.
Qed.

(** ** C35 *)
(** Weight is three times the stripped size plus the total size; virtual size
    is a quarter of it rounded up; the total is at least the stripped size, with
    equality exactly for transactions without witnesses; and the overweight test
    is weight above four million. *)
Theorem C35_transaction_weight t : tx_ok t -> 4 * len (tx_to_data true t) < 2 ^ 64 ->
  let stripped := len (wire_legacy t) in let total := len (tx_to_data true t) in
  tx_weight t = 3 * stripped + total /\ is_ceil (3 * stripped + total) 4 (tx_virtual_size t) /\
  stripped <= total /\ (stripped = total <-> ~ carries_witness t) /\
  (tx_is_overweight t = true <-> 3 * stripped + total > 4000000).
Proof.
  intros Ok Hl. cbv zeta. destruct (C16_wire_format t Ok) as (F & _). rewrite <- F. pose proof (len_nonneg (tx_to_data true t)).
  pose proof (len_nonneg (tx_to_data false t)) as P0. pose proof (len_nonneg (wits (tx_inputs t))) as P1.
  assert (D : len (tx_to_data true t) = len (tx_to_data false t) + (if tx_segregated t then 2 + len (wits (tx_inputs t)) else 0)) by (rewrite !tx_data_len; cbn [andb]; lia).
  assert (LE : len (tx_to_data false t) <= len (tx_to_data true t)) by (destruct (tx_segregated t); lia).
  destruct (C16_size_is_length t true Ok ltac:(lia)) as [S1 _]. destruct (C16_size_is_length t false Ok ltac:(lia)) as [S0 _].
  assert (E : tx_weight t = 3 * len (tx_to_data false t) + len (tx_to_data true t)).
  { unfold tx_weight, weight_of. rewrite S1, S0. rewrite !cmul_prod by lia. rewrite cadd_sum by lia. lia. }
  split; [exact E|]. split; [unfold tx_virtual_size; rewrite E; apply cdiv4; lia|]. split; [exact LE|]. split.
  - destruct Ok as (_ & _ & _ & _ & _ & _ & Sg). destruct (tx_segregated t).
    + split; [lia|]. intros C. exfalso. apply C, Sg. reflexivity.
    + split; [|lia]. intros _ C. apply Sg in C. discriminate.
  - unfold tx_is_overweight, max_block_weight. rewrite E. rewrite Z.gtb_lt. lia.
Qed.
Print Assumptions C35_transaction_weight.

Theorem C35_block_weight b : block_ok b -> 4 * len (block_to_data true b) < 2 ^ 64 ->
  let stripped := len (block_to_data false b) in let total := len (block_to_data true b) in
  block_weight b = 3 * stripped + total /\ is_ceil (3 * stripped + total) 4 (block_virtual_size b) /\
  stripped <= total /\ (block_is_overweight b = true <-> 3 * stripped + total > 4000000).
Proof.
  intros Ok Hl. cbv zeta. pose proof (len_nonneg (block_to_data true b)). pose proof (len_nonneg (block_to_data false b)) as P0.
  assert (LE : len (block_to_data false b) <= len (block_to_data true b)).
  { unfold block_to_data. rewrite !len_app. assert (len (concat (map (tx_to_data false) (b_txs b))) <= len (concat (map (tx_to_data true) (b_txs b)))); [|lia].
    clear. induction (b_txs b) as [|t l IH]; [reflexivity|]. cbn [map concat]. rewrite !len_app. rewrite !tx_data_len. pose proof (len_nonneg (wits (tx_inputs t))).
    destruct (tx_segregated t); cbn [andb]; lia. }
  destruct (C17_size_is_length b true Ok ltac:(lia)) as [S1 _]. destruct (C17_size_is_length b false Ok ltac:(lia)) as [S0 _].
  assert (E : block_weight b = 3 * len (block_to_data false b) + len (block_to_data true b)).
  { unfold block_weight, weight_of. rewrite S1, S0. rewrite !cmul_prod by lia. rewrite cadd_sum by lia. lia. }
  split; [exact E|]. split; [unfold block_virtual_size; rewrite E; apply cdiv4; lia|]. split; [exact LE|].
  unfold block_is_overweight, max_block_weight. rewrite E. rewrite Z.gtb_lt. lia.
Qed.
Print Assumptions C35_block_weight.
