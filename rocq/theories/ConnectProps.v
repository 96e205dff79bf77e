(** C62: connecting an input is VerifyScript. *)
From Verif Require Import Base Bytes BitProofs MathModel MathSpec MathProofs ShaModel ShaSpec AccModel ShaProps KdfSpec KdfModel.
From Verif Require Import StateModel StreamModel StreamProofs NumberModel NumberSpec NumberProofs NumberProps OpModel OpSpec OpProofs OpProofs2 OpProofs3 OpProps
  ChainModel ChainSpec ChainProofs ChainProofs4 ChainProps BlockModel BlockProps2 ValidModel SigopSpec SigopProofs PatternModel
  InterpEnv InterpModel InterpSpec InterpElem InterpSim InterpSim3 InterpRun InterpProps
  SighashSpec SighashModel SighashProofs SighashProofs2 SighashProps ConnectSpec ConnectModel ConnectProofs ConnectProofs2.

Lemma witness_wire w : witness_ok w -> witness_to_data w = witness_bytes w /\ len (witness_bytes w) < 2 ^ 50.
Proof.
  intros [L F]. assert (E : witness_to_data w = witness_bytes w).
  { unfold witness_to_data, witness_bytes, counted. rewrite compact by (pose proof (len_nonneg w); lia). f_equal.
    induction F as [|e l [_ Le] _ IH]; [reflexivity|]. cbn [map concat]. rewrite IH by (rewrite len_cons in L; lia). f_equal. unfold element_to_data, var_bytes. rewrite compact by (pose proof (len_nonneg e); lia). reflexivity. }
  split; [exact E|]. unfold witness_bytes, counted. rewrite len_app. pose proof (len_compact (len w)) as C.
  assert (G : len (concat (map var_bytes w)) <= len w * 4000009).
  { clear L E C. induction F as [|e l [_ Le] _ IH]; [cbn; lia|]. cbn [map concat]. rewrite len_app, len_cons. pose proof (var_len e). lia. }
  change (2 ^ 50) with 1125899906842624. lia.
Qed.
Lemma budget_ok w : witness_ok w -> initial_budget w = (50 + len (witness_bytes w)) + 1 /\ 0 <= 50 + len (witness_bytes w) < 2 ^ 63.
Proof.
  intros W. destruct (witness_wire w W) as [E L]. pose proof (witness_sized w) as Z1. unfold sized in Z1. rewrite E in Z1. change (2 ^ 50) with 1125899906842624 in L. pose proof (len_nonneg (witness_bytes w)).
  unfold initial_budget. rewrite Z1 by lia. rewrite cadd_sum by lia. change (2 ^ 63) with 9223372036854775808. lia.
Qed.
Lemma last_cons_rev (w : list (list Z)) a r : rev w = a :: r -> last w [] = a /\ removelast w = rev r /\ w = rev r ++ [a].
Proof.
  intros E. assert (W : w = rev r ++ [a]) by (rewrite <- (rev_involutive w), E; reflexivity). rewrite W. split; [apply last_last|]. split; [apply removelast_last|reflexivity].
Qed.
Lemma key_code_parse p : bytes_ok p -> len p = 20 -> to_pay_key_hash p = parse_script (key_hash_code p) /\ bytes_ok (key_hash_code p) /\ len (key_hash_code p) <= 4000000.
Proof.
  intros B L. assert (Bc : bytes_ok (key_hash_code p)).
  { unfold key_hash_code, bytes_ok. apply Forall_app. split; [repeat constructor; unfold byte_ok; lia|]. apply Forall_app. split; [exact B|repeat constructor; unfold byte_ok; lia]. }
  split; [|split; [exact Bc|unfold key_hash_code; rewrite !len_app, L; cbn; lia]].
  unfold key_hash_code. change ([118; 169; 20] ++ p ++ [136; 172]) with (118 :: 169 :: (20 :: p ++ [136; 172])).
  assert (B2 : bytes_ok (20 :: p ++ [136; 172])) by (inversion Bc as [|? ? _ Q1]; inversion Q1; assumption).
  assert (B1 : bytes_ok (169 :: 20 :: p ++ [136; 172])) by (constructor; [unfold byte_ok; lia|exact B2]).
  rewrite (parse_code 118) by (exact B1 || lia). rewrite (parse_code 169) by (exact B2 || lia).
  unfold to_pay_key_hash, push, opc. f_equal. f_equal.
  replace (20 :: p ++ [136; 172]) with (len p :: p ++ [136; 172]) by (rewrite L; reflexivity).
  rewrite parse_short by (try (repeat constructor; unfold byte_ok; lia); try assumption; lia).
  rewrite (parse_code 136 [172]) by (lia || (repeat constructor; unfold byte_ok; lia)). rewrite (parse_code 172 []) by (lia || constructor).
  unfold from_push_data, nominal_opcode_from_data. rewrite L. reflexivity.
Qed.
Lemma checksig_parse : [mkop 172 [] false] = parse_script [172]. Proof. reflexivity. Qed.

Section W.
Variables (checked s8 : bool) (widths : list nat) (sp : spender).
Hypothesis Sok : spender_ok sp.

Definition tap_context (leaf : option (list Z)) : ctx := with_context (eflags (base sp)) InterpEnv.taproot (v1_hash sp leaf) (base sp).
Lemma tap_ctx_ok leaf : ctx_ok (tap_context leaf).
Proof. destruct Sok as (_ & _ & R). split; [reflexivity|exact R]. Qed.

(** CHECKSIG of the program as a tapscript is the key path check. *)
Lemma key_path_run program sig weight : len program = 32 -> 50 <= weight -> active sp bip342_rule = true ->
  execute false (tap_context None) [172] [sig; program] weight = key_path sp program sig.
Proof.
  intros Lp Lw A. assert (T : tapscript (tap_context None) = true) by exact A.
  unfold execute, evaluate. change (script_scan [172]) with ([(172, @nil Z)], @nil Z). rewrite T. cbn [andb negb existsb fst orb]. change (op_success_code 172) with false. cbn [orb andb].
  change (rev [sig; program]) with [program; sig]. change (len [program; sig] >? 1000) with false. cbv iota. rewrite Lp. change (32 >? 520) with false. cbn [orb]. rewrite orb_false_r.
  assert (E : eval (tap_context None) false (length [172]) 0 [172] (start [program; sig] weight [172]) =
     match push_result (check_sig (tap_context None) (start [program; sig] weight [172])) with
     | Some r2 => if len (stk r2) + len (astk r2) >? 1000 then None else match vf r2 with [] => Some r2 | _ => None end | None => None end).
  { cbn [length eval]. change (next_op [172]) with (Some (172, @nil Z, @nil Z)). cbv iota beta. change (len (@nil Z) >? 520) with false. rewrite T. cbn [negb andb]. cbv iota zeta.
    change (nops (start [program; sig] weight [172]) >? 201) with false. change (disabled 172) with false. cbv iota. change (executing (start [program; sig] weight [172])) with true. cbn [orb]. cbv iota.
    change (exec (tap_context None) false 172 [] [] 0 (start [program; sig] weight [172])) with (push_result (check_sig (tap_context None) (start [program; sig] weight [172]))).
    reflexivity. }
  rewrite E. clear E.
  assert (K : key_path sp program sig = schnorr_ok (tap_context None) program sig (start [program; sig] weight [172])) by reflexivity.
  unfold check_sig. change (stk (start [program; sig] weight [172])) with [program; sig]. cbv iota. rewrite T. unfold check_tapscript. rewrite Lp, Z.eqb_refl. cbn [andb]. rewrite <- K.
  destruct program as [|x program]; [discriminate|]. destruct sig as [|y sig].
  - change (len (@nil Z) >? 520) with false. cbv iota. change (InterpSpec.weight (start [x :: program; []] weight [172])) with weight. destruct (Z.ltb_spec weight 0); [lia|]. reflexivity.
  - cbv iota. change (InterpSpec.weight (with_weight (InterpSpec.weight (start [x :: program; y :: sig] weight [172]) - 50) (start [x :: program; y :: sig] weight [172]))) with (weight - 50).
    destruct (Z.ltb_spec (weight - 50) 0); [lia|]. destruct (Z.gtb_spec (len (y :: sig)) 520) as [G|G].
    + unfold key_path. destruct (Z.eqb_spec (len (y :: sig)) 64); [lia|]. destruct (Z.eqb_spec (len (y :: sig)) 65); [lia|]. reflexivity.
    + destruct (key_path sp (x :: program) (y :: sig)); reflexivity.
Qed.

Lemma program_ok s v p : script_ok s -> reference_program (script_bytes s) = Some (v, p) -> bytes_ok p.
Proof.
  intros O E. destruct (program_parts s v p O E) as (_ & _ & _ & _ & B). destruct (ok_wf s O) as (_ & _ & Bs). rewrite B in Bs. inversion Bs as [|? ? _ Q]. inversion Q. assumption.
Qed.
Lemma same_sym a b : same_bytes a b = bytes_eqb b a.
Proof. destruct (bytes_eqb b a) eqn:E; [apply bytes_eqb_ok in E; subst; apply same_bytes_ok; reflexivity|]. destruct (same_bytes a b) eqn:Q; [|reflexivity]. apply same_bytes_ok in Q. subst. rewrite bytes_eqb_refl in E. discriminate. Qed.
Lemma forall_removelast {A} (P : A -> Prop) l : Forall P l -> Forall P (removelast l).
Proof. induction 1 as [|a l Ha F IH]; [constructor|]. cbn [removelast]. destruct l; [constructor|]. constructor; assumption. Qed.
Lemma len_removelast {A} (l : list A) : len (removelast l) <= len l.
Proof. induction l as [|a l IH]; [cbn; lia|]. cbn [removelast]. destruct l; [cbn; lia|]. rewrite !len_cons in *. lia. Qed.
Lemma witness_removelast w : witness_ok w -> witness_ok (removelast w).
Proof. intros [L F]. split; [pose proof (len_removelast w); lia|apply forall_removelast, F]. Qed.
Lemma witness_last w : witness_ok w -> bytes_ok (last w []) /\ len (last w []) <= 4000000.
Proof.
  intros [_ F]. destruct (rev w) as [|a r] eqn:E; [|destruct (last_cons_rev w a r E) as (-> & _ & W); rewrite W in F; apply Forall_app in F as [_ F]; inversion F; assumption].
  assert (w = []) by (rewrite <- (rev_involutive w), E; reflexivity). subst w. split; [constructor|cbn; lia].
Qed.

Lemma segwit_path s w v p nested : script_ok s -> witness_ok w -> active sp WITNESS = true -> reference_program (script_bytes s) = Some (v, p) -> v = 0 ->
  exists c, connect_witness checked s8 widths sp w s nested = Some c /\ accepts c = VerifyWitnessProgram false sp w v p nested.
Proof.
  intros O W Hw E ->. destruct (program_parts s 0 p O E) as (E1 & E2 & _ & E3 & _). pose proof (program_ok s 0 p O E) as Bp.
  unfold connect_witness, VerifyWitnessProgram. rewrite E3. cbn [Z.eqb]. unfold extract_segwit. rewrite E1.
  destruct (v0_ctx_ok sp Sok) as [K T].
  assert (R : Z.testbit (eflags (v0_context sp)) bip342_rule || Z.testbit (eflags (v0_context sp)) bip141_rule = true).
  { change (eflags (v0_context sp)) with (without_tapscript (eflags (base sp))). rewrite !without_bits by (unfold bip141_rule, bip342_rule; lia). unfold active, WITNESS in Hw. change bip141_rule with 11. rewrite Hw. cbn. apply orb_true_r. }
  assert (G : forall l st, bytes_ok l -> len l <= 4000000 -> witness_ok st ->
    exists c, (do (c, final) <- run (segwit_program sp (parse_script l) st) (initial (initial_witness st) 0);
       Some match c with script_success => if is_true true final then c_success else c_stack_false | _ => c_script c end) = Some c /\
    accepts c = execute false (v0_context sp) l st 0).
  { intros l st Bl Ll Wst. destruct (execute_run (v0_context sp) l st 0 0 K Bl Ll Wst R) as (c & f & Er & Ev & Ep); [rewrite T; discriminate|].
    rewrite (segwit_env sp Sok). rewrite Er. cbn [obind]. eexists. split; [reflexivity|]. rewrite <- Ev. specialize (Ep T). destruct c; try reflexivity; [destruct (is_true true f); reflexivity|congruence]. }
  destruct (Z.eqb_spec (len p) 20) as [L20|N20].
  - replace (len p =? 32) with false by lia. destruct (len w =? 2); [|eexists; split; reflexivity]. cbn [andb].
    destruct (key_code_parse p Bp L20) as (E4 & E5 & E6). rewrite E4. apply G; assumption.
  - destruct (Z.eqb_spec (len p) 32) as [L32|N32]; [|eexists; split; reflexivity].
    destruct (rev w) as [|a r] eqn:Er.
    { assert (w = []) by (rewrite <- (rev_involutive w), Er; reflexivity). subst w. eexists. split; reflexivity. }
    destruct (last_cons_rev w a r Er) as (E4 & E5 & E6). destruct (witness_last w W) as [Ba La]. rewrite E4 in Ba, La.
    assert (Wn : forall X (x : X) (y : X), match w with [] => x | _ :: _ => y end = y) by (intros; rewrite E6; destruct (rev r); reflexivity).
    match goal with |- context [match w with [] => ?x | _ :: _ => ?y end] => rewrite (Wn _ x y) end. clear Wn.
    rewrite E4, (to_script_parse a Ba La), (script_hash_ok checked s8 widths a Ba La), (same_sym (SHA256 a) p).
    destruct (bytes_eqb p (SHA256 a)); [|eexists; split; reflexivity]. cbn [andb]. apply G; [assumption|assumption|]. apply witness_removelast, W.
Qed.

Lemma annex_same w : is_annex_pattern w = (2 <=? len w) && match last w [] with 80 :: _ => true | _ => false end.
Proof.
  unfold is_annex_pattern. destruct (Z.leb_spec (len w) 1), (Z.leb_spec 2 (len w)); try lia. cbn [andb]. destruct (last w []) as [|x l]; [reflexivity|].
  destruct (Z.eqb_spec x 80) as [->|N]; [reflexivity|]. destruct x as [|x|x]; try reflexivity. do 7 (destruct x as [x|x|]; try reflexivity). exfalso. apply N. reflexivity.
Qed.
Lemma taproot_path s w v p nested : script_ok s -> witness_ok w -> reference_program (script_bytes s) = Some (v, p) -> v = 1 ->
  exists c, connect_witness checked s8 widths sp w s nested = Some c /\ accepts c = VerifyWitnessProgram false sp w v p nested.
Proof.
  intros O W E ->. destruct (program_parts s 1 p O E) as (E1 & E2 & _ & E3 & _). pose proof (program_ok s 1 p O E) as Bp.
  unfold connect_witness, VerifyWitnessProgram. rewrite E3. cbn [Z.eqb Pos.eqb andb]. change (Z.testbit (eflags (base sp)) 15) with (active sp TAPROOT).
  destruct (active sp TAPROOT) eqn:At; cbn [negb orb]; [|exists c_success; split; [reflexivity|]; destruct ((len p =? 32) && negb nested); reflexivity].
  destruct nested; [exists c_success; rewrite andb_false_r; split; reflexivity|]. cbn [negb]. rewrite andb_true_r.
  pose proof (proj1 (proj2 Sok) At) as A342. unfold extract_taproot. rewrite E1.
  assert (T : forall leaf, tapscript (tap_context leaf) = true) by (intros; exact A342).
  assert (Ok : forall leaf, exists c, (do (c, final) <- run (taproot_program sp leaf success_script []) (initial (initial_witness []) (initial_budget w));
       Some match c with script_success => if is_true true final then c_success else c_stack_false | prevalid_script => c_success | _ => c_script c end) = Some c /\ accepts c = true).
  { intros leaf. unfold run, initialize. assert (Q : enabled (taproot_program sp leaf success_script []) bip342_rule = true) by exact A342. rewrite Q. change (escript (taproot_program sp leaf success_script [])) with success_script.
    change (is_prevalid success_script) with true. cbn [andb obind]. eexists. split; reflexivity. }
  assert (G : forall leaf l st weight, bytes_ok l -> len l <= 4000000 -> witness_ok st -> initial_budget w = weight + 1 -> 0 <= weight < 2 ^ 63 ->
    exists c, (do (c, final) <- run (taproot_program sp leaf (parse_script l) st) (initial (initial_witness st) (initial_budget w));
       Some match c with script_success => if is_true true final then c_success else c_stack_false | prevalid_script => c_success | _ => c_script c end) = Some c /\
    accepts c = execute false (tap_context leaf) l st weight).
  { intros leaf l st weight Bl Ll Wst Eb Hb. destruct (execute_run (tap_context leaf) l st (initial_budget w) weight (tap_ctx_ok leaf) Bl Ll Wst) as (c & f & Er & Ev & _).
    - change (Z.testbit (eflags (tap_context leaf)) bip342_rule) with (active sp bip342_rule). rewrite A342. reflexivity.
    - intros _. split; assumption.
    - change (taproot_program sp leaf (parse_script l) st) with (mkenv (tap_context leaf) (parse_script l) (Some st)). rewrite Er. cbn [obind]. eexists. split; [reflexivity|]. rewrite <- Ev. destruct c; try reflexivity. destruct (is_true true f); reflexivity. }
  destruct (budget_ok w W) as [Eb Hb].
  destruct (Z.eqb_spec (len p) 32) as [L32|N32]; [|apply Ok].
  rewrite annex_same. fold (without_annex w). set (st := without_annex w) in *.
  assert (Wst : witness_ok st) by (unfold st, without_annex; destruct ((2 <=? len w) && _); [apply witness_removelast|]; exact W).
  destruct (rev st) as [|a [|b r]] eqn:Er.
  - assert (Es : st = []) by (rewrite <- (rev_involutive st), Er; reflexivity). rewrite Es. exists c_invalid_witness. split; reflexivity.
  - assert (Es : st = [a]) by (rewrite <- (rev_involutive st), Er; reflexivity). rewrite Es. change (len [a] >? 1) with false. change (len [a] =? 1) with true. cbv iota. cbn [app].
    rewrite checksig_parse. rewrite Es in Wst.
    assert (W2 : witness_ok [a; p]).
    { destruct Wst as [_ F]. split; [cbn; lia|]. inversion F. constructor; [assumption|]. constructor; [split; [exact Bp|lia]|constructor]. }
    destruct (G None [172] [a; p] _ ltac:(repeat constructor; unfold byte_ok; lia) ltac:(cbn; lia) W2 Eb Hb) as (c & Ec & Ev). exists c. split; [exact Ec|]. rewrite Ev. apply key_path_run; [exact L32| |exact A342].
    pose proof (len_nonneg (witness_bytes w)). lia.
  - destruct (last_cons_rev st a (b :: r) Er) as (E4 & E5 & E6). replace (len st >? 1) with true.
    2:{ rewrite E6, len_app. cbn [rev]. rewrite len_app. change (len [a]) with 1. change (len [b]) with 1. pose proof (len_nonneg (rev r)). lia. }
    rewrite E4, E5. cbn [rev]. rewrite last_last, removelast_last, control_same.
    destruct (witness_last st Wst) as [Ba La]. rewrite E4 in Ba, La. pose proof (witness_removelast st Wst) as Wst2. rewrite E5 in Wst2. cbn [rev] in Wst2. destruct (witness_last _ Wst2) as [Bb Lb]. rewrite last_last in Bb, Lb.
    pose proof (witness_removelast _ Wst2) as Wst3. rewrite removelast_last in Wst3.
    destruct (control_ok a) eqn:Ca; cbn [negb andb]; [|exists c_invalid_witness; split; reflexivity].
    rewrite (version_ok a Ba Ca), (to_script_parse b Bb Lb), (leaf_ok checked s8 widths _ b Bb Lb). set (leaf := leaf_of (leaf_version a) b).
    assert (Hl : length leaf = 32%nat /\ bytes_ok leaf) by (apply (tagged_ok s8 widths)). rewrite (commit_ok checked s8 widths sp a p leaf Ba Ca (proj1 Hl) (proj2 Hl)).
    destruct (committed sp p a leaf); cbn [negb andb]; [|exists c_invalid_commitment; split; reflexivity].
    destruct (leaf_version a =? 192); [|apply Ok]. exact (G (Some leaf) b (rev r) _ Bb Lb Wst3 Eb Hb).
Qed.
Lemma witness_path s w v p nested : script_ok s -> witness_ok w -> active sp WITNESS = true -> reference_program (script_bytes s) = Some (v, p) ->
  exists c, connect_witness checked s8 widths sp w s nested = Some c /\ accepts c = VerifyWitnessProgram false sp w v p nested.
Proof.
  intros O W A E. destruct (Z.eq_dec v 0); [eapply segwit_path; eassumption|]. destruct (Z.eq_dec v 1); [eapply taproot_path; eassumption|].
  destruct (program_parts s v p O E) as (_ & _ & _ & E3 & _). exists c_success. unfold connect_witness, VerifyWitnessProgram. rewrite E3.
  replace (v =? 0) with false by lia. replace (v =? 1) with false by lia. split; reflexivity.
Qed.
End W.
