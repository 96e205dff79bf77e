(** C12, C13, C55: CHECKMULTISIG, CHECKLOCKTIMEVERIFY, CHECKSEQUENCEVERIFY, and
    the script code that is hashed for signatures. *)
From Verif Require Import Base Bytes MathModel MathSpec MathProofs NumberModel NumberSpec NumberProofs NumberProps OpModel OpSpec
  OpProofs OpProofs2 OpProofs3 OpProps InterpEnv InterpModel InterpSpec InterpElem InterpSim InterpSim2 InterpSim3 InterpSim4 InterpSim5
  SubscriptProofs InterpRun InterpFrame InterpTrace InterpEarly InterpProps BitProofs.

(** ** C12 *)

(** The signature hashes of an (at least executing) state: those of the reference
    for the bytes after the last executed code separator. *)
Definition code_bytes (e : env) (s : st) : list Z := ops_to_data (skipn (offset s) (escript e)).
Definition valid_sig (e : env) (s : st) (sigs : list (list Z)) (key sig : list Z) : bool :=
  match sig with
  | [] => false
  | _ => match decode_signature e (removelast sig) (Z.testbit (eflags e) bip66_rule) with
         | Some x => verify_ecdsa e key
             (if Z.testbit (eflags e) bip143_rule && match eversion e with segwit => true | _ => false end
              then sighash_v0 e (code_bytes e s) (last sig 0)
              else sighash_unversioned e (script_code sigs (code_bytes e s)) (last sig 0)) x
         | None => false
         end
  end.
(** The shape of the stack: key count, keys, signature count, signatures, dummy. *)
Definition multisig_stack (t : list (list Z)) (keys sigs : list (list Z)) (dummy : list Z) (rest : list (list Z)) : Prop :=
  exists a b, t = a :: keys ++ b :: sigs ++ dummy :: rest /\
    len a <= 4 /\ script_value a = len keys /\ len b <= 4 /\ script_value b = len sigs.
Definition reference_of (e : env) (t al : list (list Z)) (s : st) : rst :=
  mkr t al (cond s) (operations s) (budget s - 1) (code_bytes e s) (subscript_v1 (escript e, offset s)).
Record executing_state (e : env) (s : st) (t : list (list Z)) : Prop := mkexec {
  ex_wf : Forall op_wf (escript e);
  ex_legacy : Z.testbit (eflags e) bip342_rule = false;
  ex_prim : Forall2 elem (prim s) t;
  ex_alt : exists a, Forall2 elem (alt s) a;
  ex_cond : Forall (fun b => b = true) (cond s);
  ex_neg : neg s = 0
}.
Lemma all_true_cond c : Forall (fun b => b = true) c -> forallb (fun b : bool => b) c = true /\ len (filter negb c) = 0.
Proof. induction 1 as [|b c -> _ [IH1 IH2]]; split; try reflexivity; cbn [forallb filter negb]; assumption. Qed.
Lemma executing_R e s t : executing_state e s t -> exists al, R e s (reference_of e t al s).
Proof.
  intros [W T P [al A] C N]. exists al. destruct (all_true_cond _ C) as [C1 C2]. change (tapscript e = false) in T. constructor.
  - exact P.
  - exact A.
  - split; [rewrite C2; exact N|]. left. split; [reflexivity|exact C1].
  - reflexivity.
  - intros Q. rewrite T in Q. discriminate Q.
  - reflexivity.
  - reflexivity.
  - intros Q. rewrite T in Q. discriminate Q.
Qed.
Lemma valid_sig_ref (e : env) s t al sigs key sig : ecdsa_ok e key sig (reference_of e t al s) sigs = valid_sig e s sigs key sig.
Proof. reflexivity. Qed.
Lemma multi_ok_ext k early keys : forall sigs f g, (forall a b, f a b = g a b) -> multi_ok k early keys sigs f = multi_ok k early keys sigs g.
Proof.
  induction keys as [|key keys IH]; intros sigs f g H; destruct sigs as [|sig sigs]; try reflexivity. cbn [multi_ok].
  rewrite H. destruct (early && _); [reflexivity|]. destruct (negb _); [reflexivity|]. apply IH, H.
Qed.

(** With well encoded signatures (or strict encoding not required) and the stack
    and operation limits met, CHECKMULTISIG consumes exactly keys, signatures,
    counts and dummy, and pushes true exactly when the signatures can be matched
    to distinct keys in order. *)
Theorem C12_result_is_ordered_matching : forall (e : env) s t keys sigs dummy rest,
  executing_state e s t -> multisig_stack t keys sigs dummy rest ->
  len sigs <= len keys <= 20 -> operations s + len keys <= 201 ->
  (Z.testbit (eflags e) bip147_rule = true -> dummy = []) ->
  (Z.testbit (eflags e) bip66_rule = true ->
     Forall (fun x => x = [] \/ decode_signature e (removelast x) true <> None) sigs) ->
  exists s' b, op_check_multisig e s = Some (op_success, s') /\ Forall2 elem (prim s') ((if b : bool then [1] else []) :: rest) /\
    operations s' = operations s + len keys /\ (b = true <-> matching (valid_sig e s sigs) keys sigs).
Proof.
  intros e s t keys sigs dummy rest X (a & b & Et & La & Va & Lb & Vb) N O D F.
  pose proof X as [W T P A C Ng]. destruct (executing_R e s t X) as [al H]. pose proof (sim_check_multisig e W s _ H) as M.
  change (tapscript e = false) in T. rewrite T in M.
  assert (Fe : Forall (fun x => encoding_ok e x = true) sigs).
  { destruct (rule e bip66_rule) eqn:B; [|apply encoding_lax, B]. specialize (F B). eapply Forall_impl; [|exact F].
    intros x Hx. unfold encoding_ok. destruct x; [reflexivity|]. rewrite B. cbn [negb orb]. destruct Hx as [Hx|Hx]; [discriminate|].
    change (der_of (z :: x)) with (removelast (z :: x)). destruct (decode_signature e _ true); [reflexivity|contradiction]. }
  destruct (multi_decides e (valid_sig e s sigs) keys sigs Fe) as (r & Hr & Mr).
  assert (G : check_multisig e false (reference_of e t al s) =
     Some (with_stk rest (with_nops (operations s + len keys) (reference_of e t al s)), r)).
  { unfold check_multisig. cbn [stk reference_of]. rewrite Et. unfold number. destruct (Z.leb_spec (len a) 4); [|lia]. rewrite Va.
    assert (S1 : skipn (Z.to_nat (len keys)) (keys ++ b :: sigs ++ dummy :: rest) = b :: sigs ++ dummy :: rest).
    { unfold len. rewrite Nat2Z.id, skipn_app, skipn_all, Nat.sub_diag. reflexivity. }
    assert (S2 : firstn (Z.to_nat (len keys)) (keys ++ b :: sigs ++ dummy :: rest) = keys).
    { unfold len. rewrite Nat2Z.id, firstn_app, firstn_all, Nat.sub_diag. apply app_nil_r. }
    assert (S3 : skipn (Z.to_nat (len sigs)) (sigs ++ dummy :: rest) = dummy :: rest).
    { unfold len. rewrite Nat2Z.id, skipn_app, skipn_all, Nat.sub_diag. reflexivity. }
    assert (S4 : firstn (Z.to_nat (len sigs)) (sigs ++ dummy :: rest) = sigs).
    { unfold len. rewrite Nat2Z.id, firstn_app, firstn_all, Nat.sub_diag. apply app_nil_r. }
    rewrite S1, S2. cbn [nops reference_of]. pose proof (len_nonneg keys). pose proof (len_nonneg sigs).
    destruct (Z.leb_spec 0 (len keys)); [|lia]. destruct (Z.leb_spec (len keys) 20); [|lia]. cbn [andb negb].
    destruct (Z.gtb_spec (operations s + len keys) 201); [lia|].
    assert (Lt : forall (x : list (list Z)) y z, len (x ++ y :: z) = len x + 1 + len z) by (intros; unfold len; rewrite app_length; cbn [length]; lia).
    rewrite !Lt. pose proof (len_nonneg rest). destruct (Z.ltb_spec (len keys + 1 + (len sigs + 1 + len rest)) (len keys)); [lia|].
    destruct (Z.leb_spec (len b) 4); [|lia]. rewrite Vb. destruct (Z.leb_spec 0 (len sigs)); [|lia]. destruct (Z.leb_spec (len sigs) (len keys)); [|lia]. cbn [andb negb].
    destruct (Z.ltb_spec (len sigs + 1 + len rest) (len sigs)); [lia|]. rewrite S3, S4.
    rewrite (multi_ok_ext e false keys sigs _ (valid_sig e s sigs)) by reflexivity.
    rewrite Hr. destruct (rule e bip147_rule) eqn:B; cbn [andb]; [|reflexivity].
    rewrite (D B). change (len (@nil Z) =? 0) with true. cbn [negb]. reflexivity. }
  rewrite G in M. cbn [push_result] in M. destruct (op_check_multisig e s) as [[c s']|]; [|contradiction].
  destruct M as [-> M]. exists s', r. split; [reflexivity|]. split; [|split; [|exact Mr]].
  - exact (R_prim _ _ _ M).
  - exact (R_ops _ _ _ M).
Qed.
Print Assumptions C12_result_is_ordered_matching.

(** Conversely a successful CHECKMULTISIG had such a stack within the limits. *)
Theorem C12_success_needs_wellformed_stack : forall e s t s',
  executing_state e s t -> op_check_multisig e s = Some (op_success, s') ->
  exists keys sigs dummy rest, multisig_stack t keys sigs dummy rest /\ len sigs <= len keys <= 20 /\
    operations s + len keys <= 201 /\ (Z.testbit (eflags e) bip147_rule = true -> dummy = []) /\
    exists b : bool, Forall2 elem (prim s') ((if b then [1] else []) :: rest).
Proof.
  intros e s t s' X Hs. pose proof X as [W T P A C Ng]. destruct (executing_R e s t X) as [al H]. pose proof (sim_check_multisig e W s _ H) as M.
  change (tapscript e = false) in T. rewrite T, Hs in M. unfold check_multisig in M. cbn [stk reference_of nops] in M.
  destruct t as [|a s1]; [elim M; reflexivity|]. unfold number in M. destruct (Z.leb_spec (len a) 4) as [La|]; [|elim M; reflexivity].
  set (n := script_value a) in *.
  destruct (Z.leb_spec 0 n) as [N0|]; [|elim M; reflexivity]. destruct (Z.leb_spec n 20) as [N1|]; [|elim M; reflexivity]. cbn [andb negb] in M.
  destruct (Z.gtb_spec (operations s + n) 201) as [|O]; [elim M; reflexivity|]. destruct (Z.ltb_spec (len s1) n) as [|L1]; [elim M; reflexivity|].
  destruct (skipn (Z.to_nat n) s1) as [|b s2] eqn:E1; [elim M; reflexivity|]. destruct (Z.leb_spec (len b) 4) as [Lb|]; [|elim M; reflexivity].
  set (m := script_value b) in *.
  destruct (Z.leb_spec 0 m) as [M0|]; [|elim M; reflexivity]. destruct (Z.leb_spec m n) as [M1|]; [|elim M; reflexivity]. cbn [andb negb] in M.
  destruct (Z.ltb_spec (len s2) m) as [|L2]; [elim M; reflexivity|]. destruct (skipn (Z.to_nat m) s2) as [|dummy s3] eqn:E2; [elim M; reflexivity|].
  destruct (multi_ok e false _ _ _) as [r|]; [|elim M; reflexivity].
  destruct (rule e bip147_rule && negb (len dummy =? 0)) eqn:B; [elim M; reflexivity|]. cbn [push_result] in M. destruct M as [_ M].
  assert (K1 : len (firstn (Z.to_nat n) s1) = n) by (unfold len in *; rewrite firstn_length; lia).
  assert (K2 : len (firstn (Z.to_nat m) s2) = m) by (unfold len in *; rewrite firstn_length; lia).
  exists (firstn (Z.to_nat n) s1), (firstn (Z.to_nat m) s2), dummy, s3. split; [|split; [|split; [|split]]].
  - exists a, b. split; [|rewrite K1, K2; repeat split; assumption]. rewrite <- E2, firstn_skipn, <- E1, firstn_skipn. reflexivity.
  - rewrite K1, K2. lia.
  - rewrite K1. lia.
  - intros Q. change (rule e bip147_rule = true) in Q. rewrite Q in B. cbn [andb] in B. apply negb_false_iff, Z.eqb_eq in B. apply len_zero, B.
  - exists r. exact (R_prim _ _ _ M).
Qed.
Print Assumptions C12_success_needs_wellformed_stack.

Lemma elem_fun p : forall t u, Forall2 elem p t -> Forall2 elem p u -> t = u.
Proof.
  induction p as [|v p IH]; intros t u H1 H2; inversion H1 as [|x1 y1 a1 b1 Q1 P1]; inversion H2 as [|x2 y2 a2 b2 Q2 P2]; subst; [reflexivity|].
  apply elem_chunk in Q1, Q2. f_equal; [congruence|]. apply IH; assumption.
Qed.
(** CHECKMULTISIGVERIFY: the same without the push, failing when not matched. *)
Theorem C12_verify_is_checkmultisig_then_verify : forall e s t, executing_state e s t ->
  exists c s', op_check_multisig_verify e s = Some (c, s') /\
  (c = op_success <-> exists s2 rest, op_check_multisig e s = Some (op_success, s2) /\ Forall2 elem (prim s2) ([1] :: rest) /\ Forall2 elem (prim s') rest).
Proof.
  intros e s t X. pose proof X as [W T P A C Ng]. destruct (executing_R e s t X) as [al H]. change (tapscript e = false) in T.
  pose proof (sim_check_multisig e W s _ H) as M. pose proof (sim_check_multisig_verify e W s _ H) as V. rewrite T in M, V.
  destruct (op_check_multisig_verify e s) as [[c s']|]; [|contradiction]. exists c, s'. split; [reflexivity|].
  destruct (op_check_multisig e s) as [[c2 s2]|]; [|contradiction].
  destruct (check_multisig e false (reference_of e t al s)) as [[r b]|]; cbn [push_result verify_result] in M, V.
  - destruct M as [-> M]. pose proof (R_prim _ _ _ M) as PM. cbn [stk with_stk] in PM. destruct b.
    + destruct V as [-> V]. split; [intros _|reflexivity]. exists s2, (stk r). split; [reflexivity|]. split; [exact PM|exact (R_prim _ _ _ V)].
    + split; [intros ->; elim V; reflexivity|]. intros (s3 & rest & E & Q & _). injection E as <-. exfalso.
      pose proof (elem_fun _ _ _ PM Q) as F. discriminate F.
  - split; [intros ->; elim V; reflexivity|]. intros (s3 & rest & E & _). injection E as -> _. elim M; reflexivity.
Qed.
Print Assumptions C12_verify_is_checkmultisig_then_verify.

(** The same verdict as the reference client fails: see
    C07_same_verdict_with_strict_encodings_refuted.  Here at the operation: three
    keys, three well-shaped signatures, the second badly encoded. *)
Lemma wf_174 : Forall op_wf (parse_script [174]).
Proof. constructor; [|constructor]. change (op_wf (mkop 174 [] false)). split; [reflexivity|]. split; [unfold byte_ok; cbn; lia|]. split; [constructor|reflexivity]. Qed.
Theorem C12_early_exit_refuted : exists (e : env) s t r, executing_state e s t /\
  (exists c s', op_check_multisig e s = Some (c, s') /\ c <> op_success) /\
  check_multisig e true (reference_of e t [] s) = Some (r, false).
Proof.
  set (t := [[3]; [7]; [5]; [6]; [3]; [5; 1]; [99; 1]; [1; 1]; []]).
  exists (program toy [174] None), (initial (map VChunk t) 0), t. eexists. split; [|split].
  - assert (Wf : Forall op_wf (parse_script [174])).
    { exact wf_174. }
    constructor; try reflexivity; try (exact Wf); [|exists []; constructor|constructor].
    unfold t, initial. cbn [prim map].
    repeat (constructor; [split; [split; [repeat (constructor; [unfold byte_ok; lia|]); constructor|reflexivity]|vm_compute; discriminate]|]). constructor.
  - do 2 eexists. split; [vm_compute; reflexivity|]. discriminate.
  - vm_compute. reflexivity.
Qed.
Print Assumptions C12_early_exit_refuted.
(** Satisfiability: 2 of 3, signatures for the first and third keys. *)
Example C12_satisfiable :
  let t := [[3]; [6]; [5]; [7]; [2]; [6; 1]; [7; 1]; []; [42]] in
  let e := program toy [174] None in let s := initial (map VChunk t) 0 in
  executing_state e s t /\ multisig_stack t [[6]; [5]; [7]] [[6; 1]; [7; 1]] [] [[42]] /\
  exists s', op_check_multisig e s = Some (op_success, s') /\ prim s' = [VBool true; VChunk [42]] /\ operations s' = 3.
Proof.
  cbv zeta. split; [|split].
  - assert (Wf : Forall op_wf (parse_script [174])).
    { exact wf_174. }
    constructor; try reflexivity; try (exact Wf); [|exists []; constructor|constructor].
    unfold initial. cbn [prim map].
    repeat (constructor; [split; [split; [repeat (constructor; [unfold byte_ok; lia|]); constructor|reflexivity]|vm_compute; discriminate]|]). constructor.
  - exists [3], [2]. repeat split; vm_compute; try reflexivity; discriminate.
  - eexists. split; [vm_compute; reflexivity|]. split; reflexivity.
Qed.

(** ** C13 *)
(** BIP65 on the bytes of the top element: a number of at most five bytes, not
    negative, of the same kind as and not beyond the transaction's lock time, the
    input not final. *)
Definition bip65_ok (k : ctx) (b : list Z) : Prop :=
  len b <= 5 /\ 0 <= script_value b /\ (script_value b < 500000000 <-> e_locktime k < 500000000) /\
  script_value b <= e_locktime k /\ e_sequence k <> 2 ^ 32 - 1.
(** BIP112. *)
Definition bip112_ok (k : ctx) (b : list Z) : Prop :=
  len b <= 5 /\ 0 <= script_value b /\
  (Z.testbit (script_value b) 31 = true \/
   2 <= e_txversion k /\ Z.testbit (e_sequence k) 31 = false /\
   Z.testbit (script_value b) 22 = Z.testbit (e_sequence k) 22 /\
   script_value b mod 65536 <= e_sequence k mod 65536).
Theorem C13_locktime_verify : forall (e : env) s v b p, Z.testbit (eflags e) bip65_rule = true -> prim s = v :: p -> elem v b ->
  exists c, op_check_locktime_verify e s = Some (c, s) /\ (c = op_success <-> bip65_ok e b).
Proof.
  intros e s v b p B Ep Q. unfold op_check_locktime_verify. change (enabled e bip65_rule) with (Z.testbit (eflags e) bip65_rule). rewrite B. cbn [negb].
  rewrite (peek40 s v b p Q Ep). unfold bip65_ok, number. change (2 ^ 32 - 1) with 4294967295.
  destruct (Z.eqb_spec (e_sequence e) 4294967295) as [E|E]; [exists e_cltv1; split; [reflexivity|split; [discriminate|tauto]]|]. cbn [obind].
  destruct (Z.leb_spec (len b) 5) as [L|L]; [|exists e_cltv2; split; [reflexivity|split; [discriminate|lia]]].
  set (n := script_value b). destruct (Z.ltb_spec n 0) as [N|N]; [exists e_cltv2; split; [reflexivity|split; [discriminate|lia]]|].
  destruct (Z.ltb_spec n 500000000), (Z.ltb_spec (e_locktime e) 500000000); cbn [Bool.eqb negb];
   try (exists e_cltv3; split; [reflexivity|split; [discriminate|lia]]);
   (destruct (Z.gtb_spec n (e_locktime e)); [exists e_cltv4; split; [reflexivity|split; [discriminate|lia]]|
    exists op_success; split; [reflexivity|split; [intros _; repeat split; try assumption; lia|reflexivity]]]).
Qed.
Print Assumptions C13_locktime_verify.
Theorem C13_sequence_verify : forall (e : env) s v b p, ctx_ok e -> Z.testbit (eflags e) bip112_rule = true -> prim s = v :: p -> elem v b ->
  exists c, op_check_sequence_verify e s = Some (c, s) /\ (c = op_success <-> bip112_ok e b).
Proof.
  intros e s v b p K B Ep Q. unfold op_check_sequence_verify. change (enabled e bip112_rule) with (Z.testbit (eflags e) bip112_rule). rewrite B. cbn [negb].
  unfold peek_unsigned32. rewrite (peek40 s v b p Q Ep). unfold bip112_ok, number. cbn [obind].
  destruct (Z.leb_spec (len b) 5) as [L|L]; [|exists e_csv1; split; [reflexivity|split; [discriminate|lia]]].
  set (n := script_value b). destruct (Z.ltb_spec n 0) as [N|N]; [exists e_csv1; split; [reflexivity|split; [discriminate|lia]]|]. cbn [omap].
  destruct K as (_ & _ & _ & _ & _ & _ & Fs & Fl & Fv). assert (S0 : 0 <= e_sequence e) by (unfold fits, imin in Fs; cbn in Fs; lia).
  rewrite !get_right_ok by (cbn; lia). unfold bit. rewrite !wrap32_bit by lia. rewrite !low16, wrap32_low. change (2 ^ 16) with 65536.
  destruct (Z.testbit n 31). { exists op_success. split; [reflexivity|]. split; [intros _; repeat split; try assumption; left; reflexivity|reflexivity]. }
  destruct (Z.ltb_spec (e_txversion e) 2) as [V|V]; [exists e_csv2; split; [reflexivity|split; [discriminate|intros (_ & _ & [X|X]); [discriminate|lia]]]|].
  destruct (Z.testbit (e_sequence e) 31); [exists e_csv3; split; [reflexivity|split; [discriminate|intros (_ & _ & [X|X]); [discriminate|destruct X as (_ & X & _); discriminate]]]|].
  destruct (Bool.eqb (Z.testbit n 22) (Z.testbit (e_sequence e) 22)) eqn:E; cbn [negb].
  - apply Bool.eqb_prop in E. destruct (Z.gtb_spec (n mod 65536) (e_sequence e mod 65536)) as [G|G].
    + exists e_csv5. split; [reflexivity|]. split; [discriminate|]. intros (_ & _ & [X|X]); [discriminate|lia].
    + exists op_success. split; [reflexivity|]. split; [intros _|reflexivity]. repeat split; try assumption. right. repeat split; assumption.
  - exists e_csv4. split; [reflexivity|]. split; [discriminate|]. intros (_ & _ & [X|X]); [discriminate|]. destruct X as (_ & _ & X & _). rewrite X, Bool.eqb_reflx in E. discriminate.
Qed.
Print Assumptions C13_sequence_verify.
(** Not active: no operation.  Active with an empty stack: failure. *)
Theorem C13_inactive_or_empty : forall (e : env) s,
  (Z.testbit (eflags e) bip65_rule = false -> op_check_locktime_verify e s = Some (op_success, s)) /\
  (Z.testbit (eflags e) bip112_rule = false -> op_check_sequence_verify e s = Some (op_success, s)) /\
  (prim s = [] ->
    (Z.testbit (eflags e) bip65_rule = true -> exists c, op_check_locktime_verify e s = Some (c, s) /\ c <> op_success) /\
    (Z.testbit (eflags e) bip112_rule = true -> exists c, op_check_sequence_verify e s = Some (c, s) /\ c <> op_success)).
Proof.
  intros e s. unfold op_check_locktime_verify, op_check_sequence_verify. change (enabled e) with (Z.testbit (eflags e)).
  split; [intros ->; reflexivity|]. split; [intros ->; reflexivity|]. intros E. unfold peek_unsigned32, peek_unsigned40, is_stack_empty. rewrite E.
  split; intros ->; cbn [negb obind omap].
  - destruct (e_sequence e =? 4294967295); eexists; (split; [reflexivity|discriminate]).
  - eexists. split; [reflexivity|discriminate].
Qed.
Print Assumptions C13_inactive_or_empty.
Definition toy_lock (seq lock ver : Z) : ctx := mkctx (2 ^ bip65_rule + 2 ^ bip112_rule) unversioned seq lock ver
  (fun b => b) (fun b => b) (fun b => b) (fun b => b) (fun b => b) (fun d _ => Some d) (fun key _ sig => same_bytes key sig) (fun _ _ _ => false)
  (fun _ _ => []) (fun _ _ => []) (fun _ _ => Some []).
(** Satisfiability: heights 500, 501 against lock time 500; 10 blocks against 10, 9. *)
Example C13_satisfiable :
  bip65_ok (toy_lock 0 500 1) [244; 1] /\ ~ bip65_ok (toy_lock 0 500 1) [245; 1] /\
  (exists s, run_script (toy_lock 0 500 1) [2; 244; 1; 177] None [] 0 = Some (script_success, s) /\ prim s = [VChunk [244; 1]]) /\
  (exists s, run_script (toy_lock 0 500 1) [2; 245; 1; 177] None [] 0 = Some (op_failure e_cltv4, s)) /\
  bip112_ok (toy_lock 10 0 2) [10] /\ ~ bip112_ok (toy_lock 9 0 2) [10] /\
  (exists s, run_script (toy_lock 10 0 2) [1; 10; 178] None [] 0 = Some (script_success, s)) /\
  (exists s, run_script (toy_lock 9 0 2) [1; 10; 178] None [] 0 = Some (op_failure e_csv5, s)).
Proof.
  split; [vm_compute; repeat split; try discriminate; reflexivity|].
  split; [intros (_ & _ & _ & H & _); vm_compute in H; apply H; reflexivity|].
  split; [eexists; split; vm_compute; reflexivity|]. split; [eexists; vm_compute; reflexivity|].
  split. { split; [vm_compute; discriminate|]. split; [vm_compute; discriminate|]. right. vm_compute. repeat split; discriminate. }
  split. { intros (_ & _ & [H|(_ & _ & _ & H)]); vm_compute in H; [discriminate H|apply H; reflexivity]. }
  split; eexists; vm_compute; reflexivity.
Qed.

(** ** C55 *)
(** The script code used for a signature is the serialization of the operations
    after the last executed code separator; outside segwit v0 with every push of
    one of the signatures and every code separator deleted — the same bytes as
    FindAndDelete on the serialized script. *)
Theorem C55_script_code_bytes : forall (e : env) sigs s, Forall op_wf (escript e) -> Forall (fun d => bytes_ok d /\ len d <= 520) sigs ->
  ops_to_data (skipn (snd (subscript e sigs s)) (fst (subscript e sigs s))) =
  if Z.testbit (eflags e) bip143_rule && match eversion e with segwit => true | _ => false end
  then ops_to_data (skipn (offset s) (escript e))
  else script_code sigs (ops_to_data (skipn (offset s) (escript e))).
Proof. intros e sigs s W H. exact (subscript_bytes e sigs s W H). Qed.
Print Assumptions C55_script_code_bytes.
(** Operation by operation: kept exactly when neither a code separator nor the
    (nominal) push of one of the signatures. *)
Theorem C55_kept_operations : forall sigs ops, Forall (fun d => bytes_ok d /\ len d <= 520) sigs -> Forall op_wf ops ->
  exists kept, script_code sigs (ops_to_data ops) = ops_to_data kept /\
  kept = filter (fun o => negb ((code o =? 171) || existsb (fun d => bytes_eqb (op_to_data o) (direct_push d)) sigs)) ops.
Proof.
  intros sigs ops H W. eexists. split; [|reflexivity]. rewrite script_code_ops by assumption. f_equal. apply filter_ext'.
  eapply Forall_impl; [|exact W]. intros o Ho. cbv beta. rewrite strip_same by assumption. rewrite orb_comm. f_equal. f_equal.
  induction H as [|d sigs [Hd Ld] _ IH]; [reflexivity|]. cbn [existsb]. rewrite IH. f_equal. rewrite direct_push_op by assumption.
  pose proof (push_op_wf d Hd Ld) as Wp. destruct (op_eqb o (push_op d)) eqn:E.
  - apply (op_eqb_ok o _ Ho Wp) in E. subst. symmetry. apply bytes_eqb_ok. reflexivity.
  - destruct (bytes_eqb _ _) eqn:F; [|reflexivity]. apply bytes_eqb_ok in F. pose proof (prefix_is_op o _ [] Ho Wp) as Q. rewrite app_nil_r, F in Q.
    pose proof (is_prefix_app (op_to_data (push_op d)) []) as Q2. rewrite app_nil_r in Q2. congruence.
Qed.
Print Assumptions C55_kept_operations.
(** Executing a code separator moves the start to just after it. *)
Theorem C55_separator_moves_start : forall e pos s, (pos < length (escript e))%nat ->
  exists s', run_op e pos (mkop 171 [] false) s = Some (op_success, s') /\
  ops_to_data (skipn (offset s') (escript e)) = ops_to_data (skipn (S pos) (escript e)).
Proof. intros e pos s H. eexists. split; [reflexivity|]. reflexivity. Qed.
Print Assumptions C55_separator_moves_start.
(** Satisfiability: the push of [9;1] and both separators go, the extended push of
    the same bytes and the push containing them stay. *)
Example C55_satisfiable : script_code [[9; 1]] [171; 2; 9; 1; 76; 2; 9; 1; 3; 2; 9; 1; 171; 172] = [76; 2; 9; 1; 3; 2; 9; 1; 172].
Proof. vm_compute. reflexivity. Qed.
