(** C70 continued: what the interpreter is given, and two defects. *)
From Verif Require Import Base Bytes BitProofs MathModel ShaModel ShaSpec AccModel ShaProps KdfSpec KdfModel KdfProofs KdfProps.
From Verif Require Import StreamModel StreamProofs NumberModel NumberSpec OpModel OpProofs3 ChainModel ChainSpec ChainProofs ChainProps InterpEnv InterpModel SighashSpec SighashModel SighashProofs SighashProofs2 SighashProps.

(** ** The interpreter *)
(** The context of a script of input [n] spending [value]: signature hashes are
    the specified ones. *)
Definition signing (k : ctx) (t : tx) (spent : list output) (n : nat) (value : Z) (tapleaf : option (list Z)) : Prop :=
  (forall code f, sighash_unversioned k code f = legacy_sighash t n code f) /\
  (forall code f, Some (sighash_v0 k code f) = v0_sighash t n code value f) /\
  (forall position f, sighash_v1 k position f = v1_sighash t spent n f (option_map (fun h => mkextension h position) tapleaf)).
(** What the interpreter asks of the transaction. *)
Definition asks (e : env) (n : nat) (value : Z) (tapleaf : option (list Z)) (sub : list op * nat) (flags : Z) : request :=
  mkrequest n (fst sub) (snd sub) value tapleaf (eversion e) flags (eflags e).
(** In such a context the hash the interpreter verifies signatures against is what
    the transaction object answers, whatever was asked of it before. *)
Theorem C70_interpreter checked s8 widths m spent (e : env) before n value tapleaf sub flags :
  tx_ok (body m) -> len (wire_legacy (body m)) < 2 ^ 56 -> Forall (request_ok m spent) before ->
  request_ok m spent (asks e n value tapleaf sub flags) -> signing e (body m) spent n value tapleaf ->
  history checked s8 widths m (no_caches m) (before ++ [asks e n value tapleaf sub flags]) =
  Some (map (demanded (body m) spent) before ++ [InterpModel.signature_hash e sub flags]).
Proof.
  intros T W F Q (G1 & G2 & G3). rewrite (C70_history checked s8 widths m spent _ T W).
  2:{ apply Forall_app. split; [exact F|]. constructor; [exact Q|constructor]. }
  rewrite map_app. f_equal. f_equal. cbn [map]. f_equal. destruct Q as (Q1 & Q2 & Q3 & Q4 & Q5 & Q6).
  unfold demanded, by_v0, by_v1, by_v0, InterpModel.signature_hash, enabled, asks in *. cbn [r_input r_script r_offset r_value r_tapleaf r_version r_flags r_rules] in *.
  unfold is_segwit, is_taproot.
  destruct (Z.testbit (eflags e) bip143_rule && match eversion e with segwit => true | _ => false end) eqn:B0; [symmetry; apply G2|]. cbn [negb andb].
  destruct (Z.testbit (eflags e) bip342_rule && match eversion e with taproot => true | _ => false end); [|rewrite G1; reflexivity].
  rewrite G3. f_equal. pose proof (separator_ok (asks e n value tapleaf sub flags) Q3 Q4) as Sep. unfold separator, position_of, asks in Sep |- *. cbn [r_script r_offset] in Sep |- *.
  unfold subscript_v1. rewrite Sep. reflexivity.
Qed.
Print Assumptions C70_interpreter.

(** ** Satisfiability: two inputs, two outputs, legacy, BIP143 and BIP341 requests *)
Definition sample_outputs : list output := [mkoutput 5 [mkop 81 [] false]; mkoutput 7 []].
Definition sample_inputs : list input :=
  [mkinput (repeat 1 32) 0 [] 4294967295 []; mkinput (repeat 2 32) 3 [] 1 [[7; 7]; [80; 9]]].
Definition sample_tx : tx := mktx 2 sample_inputs sample_outputs 0 true.
Definition sample_spent : list output := [mkoutput 9 [mkop 171 [] false; mkop 81 [] false]; mkoutput 6 [mkop 81 [] false]].
Definition sample_meta (offset : nat) : meta := mkmeta sample_tx (map Some sample_spent) [offset; O].
Definition taproot_request : request := mkrequest 1 [mkop 81 [] false] 0 6 None taproot 0 (2 ^ 12 + 2 ^ 16).
Definition legacy_request : request := mkrequest 0 [mkop 171 [] false; mkop 81 [] false] 1 9 None unversioned 3 0.
Definition segwit_request : request := mkrequest 1 [mkop 81 [] false] 0 6 None segwit 131 (2 ^ 12 + 2 ^ 16).
Lemma sample_script_ok l : bytes_ok l -> len l < 2 ^ 63 -> script_ok (fst (script_from_data false (StreamModel.fresh l))).
Proof. intros A B. exists l. split; [exact A|]. split; [exact B|reflexivity]. Qed.
Lemma sample_outputs_ok : Forall output_ok sample_outputs /\ Forall output_ok sample_spent.
Proof.
  assert (A : script_ok []) by (exists []; split; [constructor|]; split; reflexivity).
  assert (B : script_ok [mkop 81 [] false]) by (exists [81]; split; [repeat constructor; unfold byte_ok; lia|]; split; reflexivity).
  assert (C : script_ok [mkop 171 [] false; mkop 81 [] false]) by (exists [171; 81]; split; [repeat constructor; unfold byte_ok; lia|]; split; reflexivity).
  unfold sample_outputs, sample_spent. split; (constructor; [split; [unfold u64_ok; cbn; lia|assumption]|]); (constructor; [split; [unfold u64_ok; cbn; lia|assumption]|constructor]).
Qed.
Example C70_satisfiable : tx_ok sample_tx /\ len (wire_legacy sample_tx) < 2 ^ 56 /\
  Forall (request_ok (sample_meta 0) sample_spent) [legacy_request; segwit_request; taproot_request] /\
  by_v1 taproot_request = true /\ by_v0 segwit_request = true /\ by_v0 legacy_request = false /\ by_v1 legacy_request = false.
Proof.
  destruct sample_outputs_ok as [O1 O2].
  assert (A : script_ok []) by (exists []; split; [constructor|]; split; reflexivity).
  split.
  { split; [unfold u32_ok; cbn; lia|]. split; [unfold u32_ok; cbn; lia|]. split; [vm_compute; discriminate|]. split.
    { constructor; [|constructor; [|constructor]]; (split; [split; [reflexivity|repeat constructor; unfold byte_ok; lia]|]; split; [unfold u32_ok; cbn; lia|]; split; [exact A|]; split; [unfold u32_ok; cbn; lia|]; split; [vm_compute; discriminate|]); repeat constructor; try (vm_compute; discriminate); unfold byte_ok; lia. }
    split; [vm_compute; discriminate|]. split; [exact O1|]. split; [intros _|reflexivity]. eexists; split; [right; left; reflexivity|discriminate]. }
  split; [vm_compute; reflexivity|]. split; [|repeat split].
  assert (P : populated (sample_meta 0) sample_spent) by (split; [reflexivity|]; split; [reflexivity|]; split; [reflexivity|]; split; [exact O2|vm_compute; reflexivity]).
  assert (G : forall q, ((r_input q <? 2)%nat && (0 <=? r_flags q) && (r_flags q <? 256) && (r_offset q <=? length (r_script q))%nat && (len (r_script q) <? 2 ^ 32) && (len (code_of q) <? 2 ^ 56)) = true ->
    (by_v1 q = true -> v1_type (r_flags q) /\ option_map out_value (nth_error sample_spent (r_input q)) = Some (r_value q) /\ r_tapleaf q = None) -> request_ok (sample_meta 0) sample_spent q).
  { intros q B V. rewrite !andb_true_iff in B. destruct B as [[[[[B1 B2] B3] B4] B5] B6].
    split; [apply Nat.ltb_lt in B1; cbn; lia|]. split; [unfold byte_ok; lia|]. split; [apply Nat.leb_le in B4; exact B4|]. split; [lia|]. split; [lia|].
    intros V1. destruct (V V1) as (V2 & V3 & V4). split; [exact V2|]. split; [exact P|]. split; [exact V3|]. rewrite V4. exact I. }
  constructor; [apply G; [vm_compute; reflexivity|discriminate]|]. constructor; [apply G; [vm_compute; reflexivity|discriminate]|]. constructor; [|constructor].
  apply G; [vm_compute; reflexivity|]. intros _. split; [left; reflexivity|]. split; reflexivity.
Qed.

(** ** Refuted: code separators executed in another input *)
(** Executing a code separator in the script of a legacy previous output moves the
    offset kept in that script object; nothing resets it, and script serialization
    starts from it.  A taproot input of the same transaction verified afterwards
    then commits to the truncated script: the hash is not that of BIP341. *)
Definition separated : list op := [mkop 171 [] false; mkop 81 [] false].
Definition no_rules : ctx := mkctx 0 unversioned 4294967295 0 2 (fun b => b) (fun b => b) (fun b => b) (fun b => b) (fun b => b)
  (fun _ _ => None) (fun _ _ _ => false) (fun _ _ _ => false) (fun _ _ => []) (fun _ _ => []) (fun _ _ => Some []).
Definition answer (m : meta) (q : request) : option (option (list Z)) := omap fst (tx_signature_hash false false [] m (no_caches m) q).
Definition differ (a : option (option (list Z))) (b : option (list Z)) : bool :=
  match a, b with Some (Some (x :: _)), Some (y :: _) => negb (x =? y) | _, _ => false end.
Lemma differ_self d : differ (Some d) d = true -> False.
Proof. destruct d as [[|x l]|]; try discriminate. unfold differ. rewrite Z.eqb_refl. discriminate. Qed.
Theorem C70_separator_refuted :
  ~ (forall m spent q after s, tx_ok (body m) -> request_ok (mkmeta (body m) (prevouts m) (repeat O (length spent))) spent q ->
     (* the first input's previous output script has run, successfully *)
     (exists o, hd_error spent = Some o /\ run (mkenv no_rules (out_script o) None) (initial [] 0) = Some (after, s)) ->
     after = script_success -> offsets m = InterpModel.offset s :: repeat O (length spent - 1) ->
     answer m q = Some (demanded (body m) spent q)).
Proof.
  intros Q. destruct C70_satisfiable as (T & _ & F & _).
  assert (R : run (mkenv no_rules separated None) (initial [] 0) = Some (script_success, mkst [VInt 1] [] [] 0 1 0 1 None)) by (vm_compute; reflexivity).
  specialize (Q (sample_meta 1) sample_spent taproot_request script_success (mkst [VInt 1] [] [] 0 1 0 1 None) T).
  inversion F as [|? ? _ F1]. inversion F1 as [|? ? _ F2]. inversion F2 as [|? ? F3 _]. clear F F1 F2.
  assert (Y : differ (answer (sample_meta 1) taproot_request) (demanded sample_tx sample_spent taproot_request) = true) by (vm_compute; reflexivity).
  rewrite Q in Y; [|exact F3|eexists; split; [reflexivity|exact R]|reflexivity|reflexivity].
  change (body (sample_meta 1)) with sample_tx in Y.
  exact (differ_self _ Y).
Qed.
Print Assumptions C70_separator_refuted.

(** ** Refuted: a missing previous output *)
(** version1_sighash refuses a missing previous output only for ANYONECANPAY; in the
    other cases a null pointer is dereferenced (the model's None). *)
Theorem C70_unpopulated_refuted :
  ~ (forall m c q, tx_ok (body m) -> length (prevouts m) = length (tx_inputs (body m)) -> length (offsets m) = length (tx_inputs (body m)) ->
     c = no_caches m -> (r_input q < length (tx_inputs (body m)))%nat -> v1_type (r_flags q) ->
     tx_signature_hash false false [] m c q <> None).
Proof.
  intros Q. destruct C70_satisfiable as (T & _). apply (Q (mkmeta sample_tx [None; None] [O; O]) _ taproot_request T eq_refl eq_refl eq_refl); [cbn; lia|left; reflexivity|].
  vm_compute. reflexivity.
Qed.
Print Assumptions C70_unpopulated_refuted.
