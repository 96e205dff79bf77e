From Verif Require Import Base Bytes BitProofs MathModel MathSpec MathProofs ShaModel ShaSpec AccModel ShaProps KdfSpec KdfModel.
From Verif Require Import StateModel StreamModel StreamProofs NumberModel NumberSpec NumberProofs NumberProps OpModel OpSpec OpProofs OpProofs2 OpProofs3 OpProps
  ChainModel ChainSpec ChainProofs ChainProofs4 ChainProps BlockModel ValidModel SigopSpec SigopProofs PatternModel
  InterpEnv InterpModel InterpSpec InterpElem InterpSim InterpSim3 InterpRun InterpProps
  SighashSpec SighashModel SighashProofs SighashProofs2 SighashProps ConnectSpec ConnectModel.

(** ** Preliminaries *)
Definition accepts (c : connect_code) : bool := match c with c_success => true | _ => false end.
(** What is asked of the spender: flags of 32 bits, tapscript active with taproot,
    hash functions that give bytes, and transaction fields of 32 bits. *)
Definition spender_ok (sp : spender) : Prop :=
  0 <= eflags (base sp) < 2 ^ 32 /\ (active sp TAPROOT = true -> active sp bip342_rule = true) /\
  InterpSim.hash_ok (h_ripemd160 (base sp)) /\ InterpSim.hash_ok (h_sha1 (base sp)) /\ InterpSim.hash_ok (h_sha256 (base sp)) /\
  InterpSim.hash_ok (h_hash160 (base sp)) /\ InterpSim.hash_ok (h_hash256 (base sp)) /\
  fits u32 (e_sequence (base sp)) /\ fits u32 (e_locktime (base sp)) /\ fits u32 (e_txversion (base sp)).
Definition witness_ok (w : list (list Z)) : Prop := len w <= 4000000 /\ Forall (fun e => bytes_ok e /\ len e <= 4000000) w.

Lemma without_bits f n : 0 <= n -> Z.testbit (without_tapscript f) n = Z.testbit f n && negb (n =? 16).
Proof.
  intros Hn. unfold without_tapscript, bip342_rule. destruct (Z.testbit f 16) eqn:E.
  - rewrite Z.sub_nocarry_ldiff.
    + rewrite Z.ldiff_spec, Z.pow2_bits_eqb by lia. f_equal. f_equal. apply Z.eqb_sym.
    + apply Z.bits_inj'. intros i Hi. rewrite Z.ldiff_spec, Z.pow2_bits_eqb, Z.bits_0 by lia. destruct (Z.eqb_spec 16 i) as [<-|]; [rewrite E|]; reflexivity.
  - destruct (Z.eqb_spec n 16) as [->|]; [rewrite E; reflexivity|]. cbn [negb]. rewrite andb_true_r. reflexivity.
Qed.
Lemma masked_ok f : 0 <= f < 2 ^ 32 -> masked f = without_tapscript f.
Proof.
  intros Hf. apply Z.bits_inj'. intros i Hi. rewrite without_bits by exact Hi. unfold masked. rewrite Z.land_spec, Z.lxor_spec, Z.pow2_bits_eqb by lia.
  change (2 ^ 32 - 1) with (Z.ones 32). destruct (Z.ltb_spec i 32) as [L|L].
  - rewrite Z.ones_spec_low by lia. cbn [xorb]. f_equal. rewrite Z.eqb_sym. destruct (i =? 16); reflexivity.
  - rewrite (testbit_small f 32 i) by lia. reflexivity.
Qed.
Lemma eval_size k early f : forall pos l r r', eval k early f pos l r = Some r' -> len (stk r') <= Z.max 1000 (len (stk r)).
Proof.
  induction f as [|f IH]; intros pos l r r' E; destruct l as [|x l]; cbn [eval] in E; try discriminate.
  - destruct (vf r); [|discriminate]. assert (r' = r) by congruence. subst. lia.
  - destruct (vf r); [|discriminate]. assert (r' = r) by congruence. subst. lia.
  - destruct (next_op (x :: l)) as [[[c d] rest]|]; [|discriminate]. destruct (len d >? 520); [discriminate|].
    set (r1 := if negb (tapscript k) && (96 <? c) then with_nops (nops r + 1) r else r) in *. destruct (nops r1 >? 201); [discriminate|]. destruct (disabled c); [discriminate|].
    destruct (if executing r1 || (99 <=? c) && (c <=? 104) then exec k early c d rest pos r1 else Some r1) as [r2|]; [|discriminate].
    destruct (Z.gtb_spec (len (stk r2) + len (astk r2)) 1000); [discriminate|]. apply IH in E. pose proof (len_nonneg (astk r2)). pose proof (len_nonneg (stk r2)). lia.
Qed.
Lemma evaluate_size k early l b0 wit w r : evaluate k early l b0 wit w = Completes r -> len (stk r) <= Z.max 1000 (len b0).
Proof.
  unfold evaluate. destruct (script_scan l) as [ops tail]. intros E.
  repeat match type of E with (if ?b then _ else _) = _ => destruct b; [discriminate|] end.
  destruct (eval k early (length l) 0 l (start b0 w l)) as [r'|] eqn:Er; [|discriminate]. assert (r' = r) by congruence. subst r'. apply eval_size in Er. exact Er.
Qed.

Section S.
Variable sp : spender.
Hypothesis Sok : spender_ok sp.

Lemma legacy_ctx_ok : ctx_ok (legacy_context sp) /\ tapscript (legacy_context sp) = false.
Proof.
  destruct Sok as (F & _ & R). assert (T : Z.testbit (without_tapscript (eflags (base sp))) 16 = false) by (rewrite without_bits by lia; apply andb_false_r).
  split; [|exact T]. split; [|exact R]. intros Q. change (Z.testbit (without_tapscript (eflags (base sp))) 16 = true) in Q. congruence.
Qed.
Lemma v0_ctx_ok : ctx_ok (v0_context sp) /\ tapscript (v0_context sp) = false.
Proof.
  destruct Sok as (F & _ & R). assert (T : Z.testbit (without_tapscript (eflags (base sp))) 16 = false) by (rewrite without_bits by lia; apply andb_false_r).
  split; [|exact T]. split; [|exact R]. intros Q. change (Z.testbit (without_tapscript (eflags (base sp))) 16 = true) in Q. congruence.
Qed.
Lemma legacy_env s : legacy_program sp s = mkenv (legacy_context sp) s None.
Proof. unfold legacy_program, legacy_context. rewrite (masked_ok _ (proj1 Sok)). reflexivity. Qed.
Lemma segwit_env s w : segwit_program sp s w = mkenv (v0_context sp) s (Some w).
Proof. unfold segwit_program, v0_context. rewrite (masked_ok _ (proj1 Sok)). reflexivity. Qed.

(** A run of a legacy script. *)
Lemma legacy_run l s0 b0 : bytes_ok l -> len l <= 4000000 -> Forall2 elem s0 b0 -> len b0 <= 1000 ->
  exists c f, run (legacy_program sp (parse_script l)) (initial s0 0) = Some (c, f) /\
  match evaluate (legacy_context sp) false l b0 None 0 with
  | Completes r => c = script_success /\ Forall2 elem (prim f) (stk r) /\ len (stk r) <= 1000
  | _ => c <> script_success
  end.
Proof.
  intros B L F Lb. destruct legacy_ctx_ok as [K T].
  assert (St : start_ok (legacy_context sp) None s0 b0 0 0).
  { constructor; [|rewrite (F2_length2 _ _ _ F); change (2 ^ 62) with 4611686018427387904; lia| |rewrite T; discriminate].
    - clear - F. induction F as [|v b s t [H _] _ IH]; constructor; assumption.
    - split; [exact T|]. clear - F. induction F as [|v b s t [_ H] _ IH]; constructor; assumption. }
  pose proof (run_sim (legacy_context sp) l None K B L s0 b0 0 0 St) as Q. unfold run_script, program, sim_verdict in Q. rewrite <- legacy_env in Q.
  destruct (run (legacy_program sp (parse_script l)) (initial s0 0)) as [[c f]|]; [|contradiction]. exists c, f. split; [reflexivity|].
  destruct (evaluate (legacy_context sp) false l b0 None 0) as [| |r] eqn:E; [apply Q| |].
  - subst c. discriminate.
  - destruct Q as [Q1 Q2]. split; [exact Q1|]. split; [apply (R_prim _ _ _ Q2)|]. apply evaluate_size in E. lia.
Qed.
Lemma truth clean f t : Forall2 elem (prim f) t -> is_true clean f = (negb clean || (len t =? 1)) && top_true t.
Proof. intros F. apply C07_result_truth. apply stands_elem. exact F. Qed.

(** A run from a witness. *)
Lemma chunks_elem w : Forall (fun e => bytes_ok e /\ len e <= 4000000) w -> Forall2 element_bytes (initial_witness w) (rev w).
Proof.
  intros F. unfold initial_witness. apply Forall_rev in F. revert F. generalize (rev w). induction 1 as [|e l [He _] _ IH]; cbn [map]; constructor; [|exact IH].
  cbn [element_bytes]. split; [exact He|reflexivity].
Qed.
Lemma execute_run k l w bud weight : ctx_ok k -> bytes_ok l -> len l <= 4000000 -> witness_ok w ->
  (Z.testbit (eflags k) bip342_rule || Z.testbit (eflags k) bip141_rule = true) ->
  (tapscript k = true -> bud = weight + 1 /\ 0 <= weight < 2 ^ 63) ->
  exists c f, run (mkenv k (parse_script l) (Some w)) (initial (initial_witness w) bud) = Some (c, f) /\
  (match c with script_success => is_true true f | prevalid_script => true | _ => false end) = execute false k l w weight /\
  (tapscript k = false -> c <> prevalid_script).
Proof.
  intros K B L [W1 W2] Hr Hb.
  assert (St : start_ok k (Some w) (initial_witness w) (rev w) weight bud).
  { constructor; [exact (chunks_elem w W2)| |split; [reflexivity|exact Hr]|exact Hb].
    unfold initial_witness, len. rewrite map_length, rev_length. fold (len w). change (2 ^ 62) with 4611686018427387904. lia. }
  pose proof (run_sim k l (Some w) K B L (initial_witness w) (rev w) weight bud St) as Q. unfold run_script, program, sim_verdict in Q.
  destruct (run (mkenv k (parse_script l) (Some w)) (initial (initial_witness w) bud)) as [[c f]|]; [|contradiction]. exists c, f. split; [reflexivity|]. unfold execute.
  destruct (evaluate k false l (rev w) (Some w) weight) as [| |r] eqn:E.
  - destruct Q as [Q1 Q2]. split; [|intros _; exact Q2]. destruct c; congruence.
  - subst c. split; [reflexivity|]. intros T. exfalso. unfold evaluate in E. destruct (script_scan l) as [ops tail]. rewrite T in E. cbn [andb negb] in E.
    repeat match type of E with (if ?b then _ else _) = _ => destruct b; [discriminate|] end. destruct (eval k false (length l) 0 l (start (rev w) weight l)); discriminate.
  - destruct Q as [-> Q2]. split; [|discriminate]. rewrite (truth true f (stk r)); [reflexivity|]. apply (R_prim _ _ _ Q2).
Qed.
End S.
