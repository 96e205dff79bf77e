(** C07-C13, C55: the script interpreter. *)
From Verif Require Import Base Bytes MathModel MathSpec MathProofs NumberModel NumberSpec NumberProofs NumberProps OpModel OpSpec
  OpProofs OpProofs2 OpProofs3 OpProps InterpEnv InterpModel InterpSpec InterpElem InterpSim InterpSim2 InterpSim3 InterpSim4 InterpSim5
  SubscriptProofs InterpRun InterpFrame InterpTrace InterpEarly.

(** A stack of variants stands for a stack of byte strings. *)
Definition stands_for (s : list variant) (t : list (list Z)) : Prop := Forall2 element_bytes s t.
Lemma stands_elem s t : Forall2 elem s t -> stands_for s t.
Proof. induction 1 as [|v b s t [H _] _ IH]; constructor; assumption. Qed.

(** ** C07 *)

(** Every script (any byte string up to the deserialization limit), any start, any
    rules, transaction fields and cryptographic functions: the run never meets
    undefined behaviour; it fails exactly when the reference evaluation fails, is
    unconditionally valid exactly when that is, and otherwise succeeds with main
    and alternate stacks of the same bytes.  [evaluate k false]: the reference
    evaluator without CHECKMULTISIG's early exit (see the next theorems). *)
Theorem C07_run_matches_reference : forall k l wit s0 b0 w bud,
  ctx_ok k -> bytes_ok l -> len l <= 4000000 -> start_ok k wit s0 b0 w bud ->
  exists c s, run_script k l wit s0 bud = Some (c, s) /\
  match evaluate k false l b0 wit w with
  | Fails => c <> script_success /\ c <> prevalid_script
  | Succeeds_unconditionally => c = prevalid_script
  | Completes r => c = script_success /\ stands_for (prim s) (stk r) /\ stands_for (alt s) (astk r)
  end.
Proof.
  intros k l wit s0 b0 w bud K Hok Hl St. pose proof (run_sim k l wit K Hok Hl s0 b0 w bud St) as H. unfold sim_verdict in H.
  destruct (run_script k l wit s0 bud) as [[c s]|]; [|contradiction]. exists c, s. split; [reflexivity|].
  destruct (evaluate k false l b0 wit w) as [| |r]; [exact H|exact H|]. destruct H as [H1 H2]. split; [exact H1|].
  split; apply stands_elem; [apply (R_prim _ _ _ H2)|apply (R_alt _ _ _ H2)].
Qed.
Print Assumptions C07_run_matches_reference.

(** The truth of the result: is_true (clean: exactly one element is left). *)
Theorem C07_result_truth : forall clean s t, stands_for (prim s) t ->
  is_true clean s = (negb clean || (len t =? 1)) && match t with a :: _ => cast_to_bool a | [] => false end.
Proof.
  intros clean s t H. unfold is_true, stack_size, is_stack_empty, top. rewrite (F2_length2 _ _ _ H).
  inversion H as [E|v b p q Q P E]; subst; cbn [negb hd_error]; [rewrite !andb_false_r; reflexivity|].
  rewrite (elem_bool _ _ Q), andb_true_r. reflexivity.
Qed.
Print Assumptions C07_result_truth.

(** Whatever the library accepts the reference client accepts, with the same stacks. *)
Theorem C07_accepts_only_what_reference_accepts : forall k l wit s0 b0 w bud s,
  ctx_ok k -> bytes_ok l -> len l <= 4000000 -> start_ok k wit s0 b0 w bud ->
  run_script k l wit s0 bud = Some (script_success, s) ->
  exists r, evaluate k true l b0 wit w = Completes r /\ stands_for (prim s) (stk r) /\ stands_for (alt s) (astk r).
Proof.
  intros k l wit s0 b0 w bud s K Hok Hl St Hr. destruct (C07_run_matches_reference k l wit s0 b0 w bud K Hok Hl St) as (c & s' & E & H).
  rewrite Hr in E. injection E as <- <-. destruct (evaluate k false l b0 wit w) as [| |r] eqn:V.
  - destruct H; congruence.
  - discriminate.
  - exists r. split; [|apply H]. apply (evaluate_early k l b0 wit w Hok), V.
Qed.
Print Assumptions C07_accepts_only_what_reference_accepts.

(** The verdicts are equal when strict signature encodings are not required, or
    the script has no CHECKMULTISIG(VERIFY). *)
Theorem C07_same_verdict_as_reference : forall k l wit s0 b0 w bud,
  ctx_ok k -> bytes_ok l -> len l <= 4000000 -> start_ok k wit s0 b0 w bud ->
  Z.testbit (eflags k) bip66_rule = false \/ Forall (fun o => fst o <> 174 /\ fst o <> 175) (fst (script_scan l)) ->
  exists c s, run_script k l wit s0 bud = Some (c, s) /\
  match evaluate k true l b0 wit w with
  | Fails => c <> script_success /\ c <> prevalid_script
  | Succeeds_unconditionally => c = prevalid_script
  | Completes r => c = script_success /\ stands_for (prim s) (stk r) /\ stands_for (alt s) (astk r)
  end.
Proof.
  intros k l wit s0 b0 w bud K Hok Hl St Q. destruct (evaluate_early k l b0 wit w Hok) as (_ & _ & E). rewrite (E Q).
  apply C07_run_matches_reference; assumption.
Qed.
Print Assumptions C07_same_verdict_as_reference.

(** But not in general: with strict encodings required, a 3-of-3 CHECKMULTISIG
    whose first signature does not match the first key leaves the reference client
    with false on the stack, while the library goes on, meets the badly encoded
    second signature, and fails the script.  The context below is a toy signature
    scheme: a key verifies the signature equal to it, and [99] is badly encoded. *)
Definition toy : ctx := mkctx (2 ^ bip66_rule) unversioned 4294967295 0 1
  (fun b => firstn 20 b) (fun b => firstn 20 b) (fun b => firstn 20 b) (fun b => firstn 20 b) (fun b => firstn 20 b)
  (fun d _ => if existsb (Z.eqb 99) d then None else Some d) (fun key _ sig => same_bytes key sig) (fun _ _ _ => false)
  (fun _ _ => []) (fun _ _ => []) (fun _ _ => Some []).
(** 0 <sig 1> <sig 99> <sig 5> 3 <key 6> <key 5> <key 7> 3 CHECKMULTISIG NOT *)
Definition early_script : list Z := [0; 2; 1; 1; 2; 99; 1; 2; 5; 1; 83; 1; 6; 1; 5; 1; 7; 83; 174; 145].
Theorem C07_same_verdict_with_strict_encodings_refuted :
  ~ (forall k l wit s0 b0 w bud, ctx_ok k -> bytes_ok l -> len l <= 4000000 -> start_ok k wit s0 b0 w bud ->
     exists c s, run_script k l wit s0 bud = Some (c, s) /\
     match evaluate k true l b0 wit w with
     | Fails => c <> script_success /\ c <> prevalid_script
     | Succeeds_unconditionally => c = prevalid_script
     | Completes r => c = script_success /\ stands_for (prim s) (stk r) /\ stands_for (alt s) (astk r)
     end).
Proof.
  intros H. assert (HK : ctx_ok toy).
  { assert (F : forall l, bytes_ok l -> bytes_ok (firstn 20 l) /\ len (firstn 20 l) <= 520).
    { intros l Hl. split; [apply bytes_ok_firstn, Hl|]. unfold len. rewrite firstn_length. lia. }
    split; [discriminate|]. split; [exact F|]. split; [exact F|]. split; [exact F|]. split; [exact F|]. split; [exact F|].
    unfold fits, imin, imax; cbn. lia. }
  destruct (H toy early_script None [] [] 0 0 HK) as (c & s & E & V).
  - repeat (constructor; [unfold byte_ok; lia|]). constructor.
  - vm_compute. discriminate.
  - constructor; [constructor|vm_compute; discriminate|split; [reflexivity|constructor]|discriminate].
  - assert (X : exists r, evaluate toy true early_script [] None 0 = Completes r) by (eexists; vm_compute; reflexivity).
    destruct X as [r X]. rewrite X in V. destruct V as [V _]. subst c.
    assert (Y : match run_script toy early_script None [] 0 with Some (script_success, _) => True | _ => False end) by (rewrite E; exact I).
    vm_compute in Y. exact Y.
Qed.
Print Assumptions C07_same_verdict_with_strict_encodings_refuted.

(** Satisfiability: a script using most kinds of operations completes in both. *)
Definition sample_script : list Z := [81; 82; 147; 83; 136; 81; 99; 1; 7; 118; 103; 106; 104; 135; 107; 108; 116; 110; 117; 105].
Example C07_satisfiable : exists r c s,
  evaluate toy true sample_script [] None 0 = Completes r /\ stk r = [[1]; [1]] /\
  run_script toy sample_script None [] 0 = Some (c, s) /\ c = script_success /\ prim s = [VInt 1; VBool true] /\
  start_ok toy None [] [] 0 0.
Proof.
  do 3 eexists. split; [vm_compute; reflexivity|]. split; [vm_compute; reflexivity|]. split; [vm_compute; reflexivity|]. split; [reflexivity|]. split; [reflexivity|].
  constructor; [constructor|vm_compute; discriminate|split; [reflexivity|constructor]|discriminate].
Qed.

(** ** C08 *)
Theorem C08_no_undefined_behaviour : forall k l wit s0 b0 w bud,
  ctx_ok k -> bytes_ok l -> len l <= 4000000 -> start_ok k wit s0 b0 w bud ->
  run_script k l wit s0 bud <> None.
Proof.
  intros k l wit s0 b0 w bud K Hok Hl St. destruct (C07_run_matches_reference k l wit s0 b0 w bud K Hok Hl St) as (c & s & E & _).
  rewrite E. discriminate.
Qed.
Print Assumptions C08_no_undefined_behaviour.
(** The undefined outcome exists in the model: taking from an empty stack. *)
Example C08_satisfiable : drop_ (initial [] 0) = None /\ pop_chunk_ (initial [] 0) = None /\ else_if_ (initial [] 0) = None /\
  exists s, run_script toy [117; 103; 108] None [] 0 = Some (op_failure e_drop, s).
Proof. repeat split. eexists. vm_compute. reflexivity. Qed.

(** ** C09, C10, C11: any list of operations, from a cleared start.  A prefix of
    the script was gone through when its own run ends in success or in unbalanced
    conditionals; if the whole run succeeds then every prefix was gone through. *)
Theorem C09_prefixes_of_a_successful_run : forall e pre post s0 s,
  run_loop e 0 (pre ++ post) s0 = Some (script_success, s) ->
  exists c s1, run_loop e 0 pre s0 = Some (c, s1) /\ (c = script_success \/ c = invalid_stack_scope).
Proof.
  intros e pre post s0 s H. destruct (run_loop_prefix e pre post s0 _ _ H eq_refl) as (c & s1 & E & G). exists c, s1. split; [exact E|].
  destruct c; try discriminate G; auto.
Qed.
Print Assumptions C09_prefixes_of_a_successful_run.
Lemma through c : c = script_success \/ c = invalid_stack_scope -> went_through c = true.
Proof. intros [-> | ->]; reflexivity. Qed.
(** Limits after any number of operations. *)
Theorem C09_resource_limits : forall e ops s0 c s, cleared s0 ->
  run_loop e 0 ops s0 = Some (c, s) -> c = script_success \/ c = invalid_stack_scope ->
  (ops <> [] -> len (prim s) + len (alt s) <= 1000) /\
  Forall (fun o => len (data o) <= 520) ops /\
  (enabled e bip342_rule = false ->
     len (filter (fun o => 96 <? code o) ops) <= operations s /\ operations s <= 201).
Proof.
  intros e ops s0 c s C H G. pose proof (prefix_inv e s0 ops C c s H (through c G)) as [I1 I2 I3 I4 I5 I6].
  split; [intros N; destruct I3 as [[_ ?]|I3]; [contradiction|exact I3]|]. split; [exact I5|]. intros B. specialize (I4 B). unfold count in I4.
  assert (Q : filter (fun o : op => 97 <=? code o) ops = filter (fun o : op => 96 <? code o) ops).
  { apply filter_ext. intros o. lia. }
  rewrite Q in I4. lia.
Qed.
Print Assumptions C09_resource_limits.
(** A multisig adds its number of keys to the count. *)
Theorem C09_multisig_keys_counted : forall e s s' v p n, prim s = v :: p -> variant_signed 4 v = Some (true, n) ->
  op_check_multisig e s = Some (op_success, s') -> operations s' = operations s + n /\ 0 <= n <= 20 /\ operations s' <= 201.
Proof.
  intros e s s' v p n Ep Ev H. unfold op_check_multisig in H. destruct (enabled e bip342_rule) eqn:B.
  { cbn in H. discriminate. }
  destruct (op_check_multisig_verify e s) as [[c s1]|] eqn:E; [|discriminate]. cbn [obind] in H.
  unfold op_check_multisig_verify in E. rewrite B in E.
  assert (PI : pop_index32 s = Some (if n <? 0 then None else if n <? len p then Some n else None, set_prim p s)).
  { unfold pop_index32, pop_signed32, is_stack_empty, pop_signed32_, top, drop_. rewrite Ep. cbn [hd_error obind]. rewrite Ev. reflexivity. }
  rewrite PI in E. cbn [obind] in E.
  destruct (Z.ltb_spec n 0) as [N0|N0]. { injection E as <- <-. discriminate. }
  destruct (n <? len p). 2: { injection E as <- <-. discriminate. }
  destruct (Z.gtb_spec n 20) as [N1|N1]. { injection E as <- <-. discriminate. }
  unfold ops_increment_keys in E. rewrite B in E. cbn [negb] in E.
  destruct (Z.gtb_spec (operations (set_prim p s) + n) 201) as [O|O]; cbn [negb] in E. { injection E as <- <-. discriminate. }
  set (s2 := set_operations (operations (set_prim p s) + n) (set_prim p s)) in E.
  assert (F : frame s2 s1).
  { revert E. match goal with |- ?L = _ -> _ => assert (Y : framed s2 L) end; [|intros X; exact (Y _ _ X)].
    frames; try (destruct (multisig_loop _ _ _ _ _) as [[[|? ?]|] ?]); frames. }
  destruct F as (_ & _ & F & _). unfold s2 in F. cbn [operations set_operations set_prim] in F, O.
  assert (X : operations s' = operations s1).
  { destruct (enabled e bip66_rule), c; cbn in H; try discriminate H; injection H as <-; reflexivity. }
  lia.
Qed.
Print Assumptions C09_multisig_keys_counted.
Example C09_satisfiable : cleared (initial [] 0) /\
  exists s, run_loop (program toy sample_script None) 0 (parse_script sample_script) (initial [] 0) = Some (script_success, s) /\ operations s = 14.
Proof. split; [repeat split; discriminate|]. eexists. split; vm_compute; reflexivity. Qed.
(** The limits bind: 202 counted operations, 521 byte pushes and 1001 elements fail. *)
Example C09_limits_bind :
  (exists s, run_script toy (repeat 97 202) None [] 0 = Some (invalid_operation_count, s)) /\
  (exists s, run_script toy (77 :: 9 :: 2 :: repeat 0 521) None [] 0 = Some (invalid_push_data_size, s)) /\
  (exists s, run_script toy (repeat 81 1001) None [] 0 = Some (invalid_stack_size, s)) /\
  (exists s, run_script toy (repeat 81 1000) None [] 0 = Some (script_success, s)) /\
  (exists s, run_script toy (repeat 97 201) None [] 0 = Some (script_success, s)).
Proof. repeat split; eexists; vm_compute; reflexivity. Qed.

(** ** C10 *)
(** The counter is the number of false conditions; an operation is executed (when
    not itself a conditional) exactly when every condition is true; the depth of
    the condition stack is the number of IF and NOTIF less that of ENDIF. *)
Theorem C10_counter_is_false_conditions : forall e ops s0 c s, cleared s0 ->
  run_loop e 0 ops s0 = Some (c, s) -> c = script_success \/ c = invalid_stack_scope ->
  neg s = len (filter negb (cond s)) /\
  (is_success s = true <-> Forall (fun b => b = true) (cond s)) /\
  len (cond s) = len (filter (fun o => (code o =? 99) || (code o =? 100)) ops) - len (filter (fun o => code o =? 104) ops).
Proof.
  intros e ops s0 c s C H G. pose proof (prefix_inv e s0 ops C c s H (through c G)) as [I1 I2 I3 I4 I5 I6].
  split; [exact I1|]. split; [|exact I2]. unfold is_success. rewrite I1, Z.eqb_eq. clear. induction (cond s) as [|b t IH].
  - split; [constructor|reflexivity].
  - rewrite filter_negb_cons. pose proof (len_nonneg (filter negb t)). split.
    + intros Q. destruct b; [|lia]. constructor; [reflexivity|]. apply IH. lia.
    + intros Q. pose proof (Forall_inv Q) as Q1. apply Forall_inv_tail in Q. cbv beta in Q1. subst b. apply IH in Q. lia.
Qed.
Print Assumptions C10_counter_is_false_conditions.
(** A skipped operation changes nothing but the operation count. *)
Theorem C10_skipped_operations_have_no_effect : forall e ops o s0 c s c' s', cleared s0 ->
  run_loop e 0 ops s0 = Some (c, s) -> c = script_success \/ c = invalid_stack_scope ->
  ~ Forall (fun b => b = true) (cond s) -> code o <> 99 -> code o <> 100 -> code o <> 103 -> code o <> 104 ->
  run_loop e 0 (ops ++ [o]) s0 = Some (c', s') -> c' = script_success \/ c' = invalid_stack_scope ->
  s' = set_operations (operations s') s.
Proof.
  intros e ops o s0 c s c' s' C H G N N1 N2 N3 N4 H' G'.
  destruct (run_loop_snoc e ops o s0 c' s' H' (through c' G')) as (c1 & s1 & s2 & H1 & _ & _ & IN & STEP). rewrite H in H1. injection H1 as <- <-.
  destruct (C10_counter_is_false_conditions e ops s0 c s C H G) as (_ & Q & _).
  assert (E2 : s2 = set_operations (operations s2) s /\ is_success s2 = is_success s).
  { revert IN. unfold ops_increment_op. destruct (enabled e bip342_rule); [intros [= <-]; split; [destruct s; reflexivity|reflexivity]|].
    intros X. injection X as _ <-. destruct (is_counted (code o)); split; try reflexivity; destruct s; reflexivity. }
  destruct E2 as [E2 E3]. destruct STEP as [(X & _ & _)|(_ & ->)]; [exfalso|exact E2].
  rewrite E3 in X. destruct (is_success s) eqn:S; [apply N, Q; reflexivity|]. rewrite orb_false_r in X. unfold is_conditional in X. apply one_of_in in X.
  cbn in X. destruct X as [X|[X|[X|[X|[]]]]]; congruence.
Qed.
Print Assumptions C10_skipped_operations_have_no_effect.
Theorem C10_success_is_balanced : forall e ops s0 s, cleared s0 -> run_loop e 0 ops s0 = Some (script_success, s) ->
  cond s = [] /\ len (filter (fun o => (code o =? 99) || (code o =? 100)) ops) = len (filter (fun o => code o =? 104) ops).
Proof.
  intros e ops s0 s C H. destruct (C10_counter_is_false_conditions e ops s0 _ s C H (or_introl eq_refl)) as (_ & _ & D).
  assert (B : cond s = []).
  { pose proof (run_loop_app e ops [] 0 s0) as A. rewrite app_nil_r, H in A. cbn in A. injection A as A. unfold is_balanced in A. destruct (cond s); [reflexivity|discriminate]. }
  split; [exact B|]. rewrite B in D. change (len (@nil bool)) with 0 in D. lia.
Qed.
Print Assumptions C10_success_is_balanced.
(** In branches not taken NOTIF leaves a true entry in the library and a false one
    in the reference; neither can be executed. *)
Example C10_satisfiable : exists s, run_loop (program toy [0; 99; 100; 106] None) 0 (parse_script [0; 99; 100; 106]) (initial [] 0) = Some (invalid_stack_scope, s)
  /\ cond s = [true; false] /\ neg s = 1.
Proof. eexists. split; [vm_compute; reflexivity|]. split; reflexivity. Qed.

(** ** C11 *)
(** [spent e [] ops s0]: how many signature operations with a non-empty signature
    the run executed.  The budget starts at 51 plus the witness size. *)
Theorem C11_budget_bounds_signature_operations : forall e ops s0 s size, cleared s0 -> enabled e bip342_rule = true ->
  budget s0 = 51 + size -> 0 <= size ->
  run_loop e 0 ops s0 = Some (script_success, s) -> 50 * spent e [] ops s0 <= 50 + size.
Proof.
  intros e ops s0 s size C B E Hs H. pose proof (prefix_inv e s0 ops C _ s H eq_refl) as [_ _ _ _ _ I6]. destruct (I6 B) as (J1 & J2 & J3).
  destruct (Z.le_gt_cases (spent e [] ops s0) 0); lia.
Qed.
Print Assumptions C11_budget_bounds_signature_operations.
(** Exactly the signed BIP342 budget: C07 compares with a reference evaluator that
    starts from the weight 50 + size, subtracts 50 before each signature and fails
    when the weight becomes negative. *)
Theorem C11_same_as_signed_budget : forall k l wit s0 b0 size,
  ctx_ok k -> bytes_ok l -> len l <= 4000000 -> tapscript k = true -> 0 <= size < 2 ^ 62 ->
  start_ok k wit s0 b0 (50 + size) (51 + size) ->
  exists c s, run_script k l wit s0 (51 + size) = Some (c, s) /\
  match evaluate k true l b0 wit (50 + size) with
  | Fails => c <> script_success /\ c <> prevalid_script
  | Succeeds_unconditionally => c = prevalid_script
  | Completes r => c = script_success /\ budget s = weight r + 1 /\ 0 <= weight r
  end.
Proof.
  intros k l wit s0 b0 size K Hok Hl T Hs St.
  assert (EQ : evaluate k true l b0 wit (50 + size) = evaluate k false l b0 wit (50 + size)).
  { unfold evaluate. destruct (script_scan l). rewrite T. cbn [andb negb]. 
    assert (X : forall fuel pos m r, bytes_ok m -> eval k true fuel pos m r = eval k false fuel pos m r).
    { induction fuel as [|f IH]; intros pos m r Hm; [reflexivity|]. destruct m as [|x t]; [reflexivity|]. cbn [eval].
      destruct (next_op (x :: t)) as [[[c d] rest]|] eqn:E; [|reflexivity]. destruct (next_op_sound _ _ _ _ Hm E) as (Hc & _ & Hr & _).
      assert (Y : forall r1, exec k true c d rest pos r1 = exec k false c d rest pos r1).
      { intros r1. rewrite (exec_early_cases k true), (exec_early_cases k false) by assumption. rewrite T. destruct (c =? 174), (c =? 175); reflexivity. }
      rewrite Y. destruct (len d >? 520); [reflexivity|]. destruct (nops _ >? 201); [reflexivity|]. destruct (disabled c); [reflexivity|].
      destruct (if _ : bool then _ else _); [|reflexivity]. destruct (_ >? 1000); [reflexivity|]. apply IH; assumption. }
    rewrite X by assumption. reflexivity. }
  rewrite EQ. pose proof (run_sim k l wit K Hok Hl s0 b0 _ _ St) as H. unfold sim_verdict in H.
  destruct (run_script k l wit s0 (51 + size)) as [[c s]|]; [|contradiction]. exists c, s. split; [reflexivity|].
  destruct (evaluate k false l b0 wit (50 + size)) as [| |r]; [exact H|exact H|]. destruct H as [H1 H2]. split; [exact H1|].
  destruct (R_budget _ _ _ H2 T) as [A B]. split; [exact A|lia].
Qed.
Print Assumptions C11_same_as_signed_budget.
Definition toy_tap : ctx := mkctx (2 ^ bip342_rule) taproot 0 0 2
  (fun b => firstn 20 b) (fun b => firstn 20 b) (fun b => firstn 20 b) (fun b => firstn 20 b) (fun b => firstn 20 b)
  (fun d _ => Some d) (fun key _ sig => same_bytes key sig) (fun _ _ _ => false)
  (fun _ _ => []) (fun _ _ => []) (fun _ _ => Some []).
(** One signature is affordable with size 0, two are not. *)
Example C11_satisfiable :
  (exists s, run_script toy_tap [81; 81; 172] (Some []) [] 51 = Some (script_success, s) /\ budget s = 1 /\
     spent (program toy_tap [81; 81; 172] (Some [])) [] (parse_script [81; 81; 172]) (initial [] 51) = 1) /\
  (exists s, run_script toy_tap [81; 81; 173; 81; 81; 172] (Some []) [] 51 = Some (op_failure e_cs_budget, s)) /\
  start_ok toy_tap (Some []) [] [] (50 + 0) (51 + 0).
Proof.
  split; [eexists; split; [vm_compute; reflexivity|split; vm_compute; reflexivity]|]. split; [eexists; vm_compute; reflexivity|].
  constructor; [constructor|vm_compute; discriminate|split; reflexivity|intros _; lia].
Qed.
