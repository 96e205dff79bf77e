(** C62: connecting an input is VerifyScript. *)
From Verif Require Import Base Bytes BitProofs MathModel MathSpec MathProofs ShaModel ShaSpec AccModel ShaProps KdfSpec KdfModel.
From Verif Require Import StateModel StreamModel StreamProofs NumberModel NumberSpec NumberProofs NumberProps OpModel OpSpec OpProofs OpProofs2 OpProofs3 OpProps
  ChainModel ChainSpec ChainProofs ChainProofs4 ChainProps BlockModel BlockProps2 ValidModel SigopSpec SigopProofs PatternModel SubscriptProofs
  InterpEnv InterpModel InterpSpec InterpElem InterpSim InterpSim3 InterpRun InterpEarly InterpProps
  SighashSpec SighashModel SighashProofs SighashProofs2 SighashProps ConnectSpec ConnectModel ConnectProofs ConnectProofs2 ConnectProps.

Lemma relaxed_push s : fits_block s -> is_relaxed_push_pattern s = push_only (script_bytes s).
Proof.
  intros F. destruct (bytes_parse s F) as (B & L & E). unfold push_only. pose proof (parse_scan _ B L) as PS. rewrite <- E in PS. destruct (script_scan (script_bytes s)) as [ops tail]. cbn [fst snd] in PS. rewrite PS.
  unfold is_relaxed_push_pattern. rewrite forallb_app.
  assert (FE : forallb (fun o => is_relaxed_push (code o)) (map to_op ops) = forallb (fun o : Z * list Z => fst o <=? 96) ops) by (clear; induction ops as [|o ops IH]; [reflexivity|]; cbn; rewrite IH; reflexivity).
  rewrite FE. destruct tail as [|x tail]; [cbn [tail_ops forallb]; rewrite andb_true_r; reflexivity|].
  change (forallb (fun o => is_relaxed_push (code o)) (tail_ops (x :: tail))) with false. rewrite andb_false_r.
  assert (Z2 : len (x :: tail) =? 0 = false) by (apply Z.eqb_neq; rewrite len_cons; pose proof (len_nonneg tail); lia). rewrite Z2. reflexivity.
Qed.
Lemma empty_bytes s : fits_block s -> (len s =? 0) = (len (script_bytes s) =? 0).
Proof.
  intros F. destruct (bytes_parse s F) as (B & L & E). destruct (Z.eqb_spec (len (script_bytes s)) 0) as [Q|Q].
  - destruct (script_bytes s) as [|x l]; [|rewrite len_cons in Q; pose proof (len_nonneg l); lia]. rewrite E. reflexivity.
  - apply Z.eqb_neq. intros Q2. apply Q. destruct s as [|o s]; [reflexivity|]. rewrite len_cons in Q2. pose proof (len_nonneg s). lia.
Qed.
(** The top of the stack a nominal push leaves. *)
Lemma single_push k early o r1 : op_wf o -> code o <= 78 -> evaluate k early (op_to_data o) [] None 0 = Completes r1 -> tapscript k = false -> stk r1 = [data o].
Proof.
  intros W C E T. unfold evaluate in E. rewrite T in E. cbn [negb andb] in E. destruct (script_scan (op_to_data o)) as [ops tail].
  destruct (len (op_to_data o) >? 10000); [discriminate|]. pose proof (next_op_complete o [] W) as N. rewrite app_nil_r in N.
  destruct (op_to_data o) as [|x l] eqn:Eo; [cbn in N; discriminate|]. cbn [length eval] in E. rewrite N in E. rewrite T in E. cbn [negb andb] in E.
  destruct (len (data o) >? 520); [discriminate|]. replace (96 <? code o) with false in E by lia. cbv zeta in E. change (nops (start [] 0 (x :: l)) >? 201) with false in E. cbv iota in E.
  destruct (disabled (code o)); [discriminate|]. change (executing (start [] 0 (x :: l))) with true in E. cbn [orb] in E. unfold exec in E. replace (code o <=? 78) with true in E by lia.
  change (len (stk (with_stk (data o :: stk (start [] 0 (x :: l))) (start [] 0 (x :: l)))) + len (astk (with_stk (data o :: stk (start [] 0 (x :: l))) (start [] 0 (x :: l)))) >? 1000) with false in E. cbv iota in E.
  destruct (length l); cbn [eval] in E; change (vf (with_stk (data o :: stk (start [] 0 (x :: l))) (start [] 0 (x :: l)))) with (@nil bool) in E; cbv iota in E;
  [|]; match type of E with Completes ?a = Completes ?b => assert (Q : a = b) by congruence; rewrite <- Q; reflexivity end.
Qed.
Lemma nominal_push k s r1 redeem rest : fits_block s -> tapscript k = false -> evaluate k false (script_bytes s) [] None 0 = Completes r1 -> stk r1 = redeem :: rest ->
  bytes_ok redeem -> len redeem <= 520 -> is_nominal_push_pattern s = same_bytes (script_bytes s) (direct_push redeem).
Proof.
  intros F T E Es Br Lr. destruct (bytes_parse s F) as (B & L & P). destruct (ok_wf s (proj1 F)) as (W & Sb & _).
  rewrite (direct_push_op redeem Br Lr). assert (Wp : op_wf (push_op redeem)) by (apply push_op_wf; assumption).
  destruct (same_bytes (script_bytes s) (op_to_data (push_op redeem))) eqn:Q.
  - apply same_bytes_ok in Q. assert (Es2 : s = [push_op redeem]).
    { rewrite P, Q. pose proof (parse_first (push_op redeem) [] Wp ltac:(constructor)) as PF. rewrite app_nil_r in PF. rewrite PF. reflexivity. }
    rewrite Es2. unfold is_nominal_push_pattern, is_nominal_push, push_op. cbn [code data]. apply Z.eqb_refl.
  - destruct (is_nominal_push_pattern s) eqn:N; [|reflexivity]. exfalso. destruct s as [|o [|o2 s]]; try discriminate. cbn [is_nominal_push_pattern] in N. unfold is_nominal_push in N. apply Z.eqb_eq in N.
    assert (C : code o <= 78).
    { rewrite N. unfold nominal_opcode_from_data, opcode_from_size, push_size_75, push_one_size, push_two_size, push_four_size. destruct (Z.leb_spec (len (data o)) 75); [lia|]. destruct (_ <=? _); [lia|]. destruct (_ <=? _); lia. }
    assert (Wo : op_wf o). { inversion W as [|? (_ & Ci & _)|? ? Wo Ws]; subst; [unfold any_invalid, op_verif in Ci; lia|exact Wo]. }
    assert (Sb2 : script_bytes [o] = op_to_data o). { change (script_bytes [o]) with (ops_to_data [o]). unfold ops_to_data. cbn [map concat]. apply app_nil_r. }
    rewrite Sb2 in E, Q. rewrite (single_push k false o r1 Wo C E T) in Es. assert (data o = redeem) by congruence.
    assert (o = push_op redeem). { destruct Wo as (U & _). destruct o as [c d u]. cbn in *. subst. unfold push_op. reflexivity. } subst o.
    assert (same_bytes (op_to_data (push_op redeem)) (op_to_data (push_op redeem)) = true) by (apply same_bytes_ok; reflexivity). congruence.
Qed.
(** Nothing to hash. *)
Lemma p2sh_empty k early pub : tapscript k = false -> reference_p2sh pub = true -> evaluate k early pub [] None 0 = Fails.
Proof.
  intros T R. unfold reference_p2sh in R. repeat (apply andb_true_iff in R as [R ?]). destruct pub as [|x l]; [discriminate|]. assert (x = 169) by (cbn [nth] in *; lia). subst x.
  unfold evaluate. rewrite T. cbn [negb andb]. destruct (script_scan (169 :: l)) as [ops tail]. destruct (len (169 :: l) >? 10000); [reflexivity|].
  assert (N : next_op (169 :: l) = Some (169, [], l)).
  { unfold next_op. change (size_bytes 169) with O. cbv zeta. change (169 <=? 75) with false. cbv iota. change (Z.to_nat 0) with O. cbn [firstn skipn]. replace (length l <? 0)%nat with false by (symmetry; apply Nat.ltb_ge; lia). replace (len l <? 0) with false by (pose proof (len_nonneg l); lia). reflexivity. }
  cbn [length eval]. rewrite N, T. reflexivity.
Qed.

Section C.
Variables (checked s8 : bool) (widths : list nat) (sp : spender).
Hypothesis Sok : spender_ok sp.

Lemma program_of_pattern s : script_ok s -> is_pay_to_witness sp s = match program_of sp (script_bytes s) with Some _ => true | None => false end.
Proof. intros O. unfold is_pay_to_witness, program_of. rewrite (program_bytes s O). change (Z.testbit (eflags (base sp)) 11) with (active sp WITNESS). destruct (active sp WITNESS); reflexivity. Qed.
Lemma script_codes c : c <> script_success -> accepts (c_script c) = false. Proof. reflexivity. Qed.

(** Full statement: the same without the last hypothesis and with the reference's
    treatment of CHECKMULTISIG ([VerifyScript true]); both are refuted
    (C62_inactive_witness_refuted, C12_early_exit_refuted). *)
Theorem C62_connect_partial (sig pub : script) (w : list (list Z)) :
  fits_block sig -> fits_block pub -> witness_ok w -> active sp WITNESS = true \/ w = [] ->
  exists c, connect checked s8 widths sp sig w (Some pub) = Some c /\ accepts c = VerifyScript false sp (script_bytes sig) (script_bytes pub) w.
Proof.
  intros Fs Fp W A. destruct (bytes_parse sig Fs) as (Bs & Ls & Ps). destruct (bytes_parse pub Fp) as (Bp & Lp & Pp). pose proof (proj1 Fp) as Op.
  unfold connect, VerifyScript. cbv zeta. destruct (legacy_ctx_ok sp Sok) as [K T].
  destruct (legacy_run sp Sok _ [] [] Bs Ls ltac:(constructor) ltac:(cbn; lia)) as (c1 & f1 & R1 & E1). rewrite <- Ps in R1. rewrite R1. cbn [obind].
  destruct (evaluate (legacy_context sp) false (script_bytes sig) [] None 0) as [| |r1] eqn:V1.
  1, 2: exists (c_script c1); split; [destruct c1; try reflexivity; congruence|reflexivity].
  destruct E1 as (-> & Fe1 & L1).
  destruct (legacy_run sp Sok _ _ _ Bp Lp Fe1 L1) as (c2 & f2 & R2 & E2). rewrite <- Pp in R2. rewrite R2. cbn [obind].
  destruct (evaluate (legacy_context sp) false (script_bytes pub) (stk r1) None 0) as [| |r2] eqn:V2.
  1, 2: exists (c_script c2); split; [destruct c2; try reflexivity; congruence|reflexivity].
  destruct E2 as (-> & Fe2 & L2). rewrite (truth false f2 _ Fe2). cbn [negb orb andb].
  destruct (top_true (stk r2)); cbn [negb andb]; [|exists c_stack_false; split; reflexivity].
  unfold is_pay_to_script_hash. change (Z.testbit (eflags (base sp)) 2) with (active sp P2SH). rewrite (p2sh_bytes pub Op).
  assert (Wc : negb (active sp WITNESS) || (len w =? 0) = (len w =? 0)).
  { destruct A as [-> | ->]; [reflexivity|]. destruct (active sp WITNESS); reflexivity. }
  rewrite Wc. clear Wc.
  destruct (active sp P2SH && reference_p2sh (script_bytes pub)) eqn:Eh.
  - apply andb_true_iff in Eh as [Eh1 Eh2].
    assert (N : program_of sp (script_bytes pub) = None) by (unfold program_of; rewrite (p2sh_not_program _ Eh2); destruct (active sp WITNESS); reflexivity). rewrite N. cbn [andb]. rewrite orb_false_r.
    unfold connect_embedded. rewrite (relaxed_push sig Fs). destruct (push_only (script_bytes sig)); cbn [negb andb]; [|exists c_invalid_script_embed; split; reflexivity].
    destruct (stk r1) as [|redeem rest] eqn:S1.
    { rewrite (p2sh_empty _ _ _ T Eh2) in V2. discriminate. }
    destruct (prim f1) as [|v0 p0] eqn:Pf; [inversion Fe1|]. assert (Fe0 : Forall2 elem p0 rest /\ elem v0 redeem) by (inversion Fe1; auto). destruct Fe0 as [Fe0 El].
    rewrite (pop_chunk_cons f1 v0 redeem p0 El Pf). cbn [obind]. change (prim (set_prim p0 f1)) with p0.
    destruct (elem_bytes_ok _ _ El) as [Br Lr]. rewrite (to_script_parse redeem Br ltac:(lia)).
    rewrite len_cons in L1. destruct (legacy_run sp Sok redeem p0 rest Br ltac:(lia) Fe0 ltac:(lia)) as (c3 & f3 & R3 & E3). rewrite R3. cbn [obind].
    destruct (evaluate (legacy_context sp) false redeem rest None 0) as [| |r3] eqn:V3.
    1, 2: exists (c_script c3); split; [destruct c3; try reflexivity; congruence|reflexivity].
    destruct E3 as (-> & Fe3 & L3). rewrite (truth false f3 _ Fe3). cbn [negb orb andb].
    destruct (top_true (stk r3)); cbn [negb andb]; [|exists c_stack_false; split; reflexivity].
    destruct (parse_ok redeem Br ltac:(lia)) as [Or Sr]. rewrite (program_of_pattern _ Or), Sr.
    destruct (program_of sp redeem) as [[v p]|] eqn:Pr.
    + rewrite !orb_true_r, andb_true_r. rewrite (nominal_push _ sig r1 redeem rest Fs T V1 S1 Br Lr).
      destruct (same_bytes (script_bytes sig) (direct_push redeem)); cbn [negb andb]; [|exists c_dirty_embed; split; reflexivity].
      unfold program_of in Pr. destruct (active sp WITNESS) eqn:Aw; [|discriminate]. apply (witness_path checked s8 widths sp Sok); try assumption. rewrite Sr. exact Pr.
    +  destruct (len w =? 0); [exists c_success|exists c_unexpected_witness]; split; reflexivity.
  - cbn [andb]. rewrite orb_false_r, andb_true_r. rewrite (program_of_pattern pub Op).
    destruct (program_of sp (script_bytes pub)) as [[v p]|] eqn:Pr.
    + rewrite orb_true_r, andb_true_r. rewrite (empty_bytes sig Fs). destruct (len (script_bytes sig) =? 0); cbn [negb andb]; [|exists c_dirty_witness; split; reflexivity].
      unfold program_of in Pr. destruct (active sp WITNESS) eqn:Aw; [|discriminate]. apply (witness_path checked s8 widths sp Sok); assumption.
    + cbn [andb]. rewrite orb_false_r. destruct (len w =? 0); [exists c_success|exists c_unexpected_witness]; split; reflexivity.
Qed.
End C.
Print Assumptions C62_connect_partial.

Theorem C62_missing checked s8 widths sp sig w : connect checked s8 widths sp sig w None = Some c_missing_previous_output.
Proof. reflexivity. Qed.
Print Assumptions C62_missing.

(** ** The two treatments of CHECKMULTISIG (finding F1) *)
Lemma execute_mono k code w n : bytes_ok code -> execute false k code w n = true -> execute true k code w n = true.
Proof.
  intros B. unfold execute. destruct (evaluate_early k code (rev w) (Some w) n B) as (E1 & E2 & _).
  destruct (evaluate k false code (rev w) (Some w) n) as [| |r]; [discriminate| |].
  - rewrite (proj1 E2 eq_refl). reflexivity.
  - rewrite (E1 r eq_refl). exact (fun X => X).
Qed.
Lemma key_hash_bytes p : bytes_ok p -> bytes_ok (key_hash_code p).
Proof. intros B. unfold key_hash_code, bytes_ok. apply Forall_app. split; [repeat constructor; unfold byte_ok; lia|]. apply Forall_app. split; [exact B|repeat constructor; unfold byte_ok; lia]. Qed.
Lemma forall_last w : Forall bytes_ok w -> Forall bytes_ok (rev w) /\ Forall bytes_ok (rev (without_annex w)).
Proof. intros F. split; [apply Forall_rev, F|]. apply Forall_rev. unfold without_annex. destruct ((2 <=? len w) && _); [apply forall_removelast|]; exact F. Qed.
Lemma program_mono sp w v p nested : bytes_ok p -> Forall bytes_ok w -> VerifyWitnessProgram false sp w v p nested = true -> VerifyWitnessProgram true sp w v p nested = true.
Proof.
  intros Bp F. destruct (forall_last w F) as [F1 F2]. unfold VerifyWitnessProgram. destruct (v =? 0).
  - destruct (len p =? 32).
    + destruct (rev w) as [|a r]; [discriminate|]. inversion F1 as [|? ? Ba _]. intros E. apply andb_true_iff in E as [-> E]. exact (execute_mono _ _ _ _ Ba E).
    + destruct (len p =? 20); [|discriminate]. intros E. apply andb_true_iff in E as [-> E]. exact (execute_mono _ _ _ _ (key_hash_bytes p Bp) E).
  - destruct ((v =? 1) && (len p =? 32) && negb nested); [|exact (fun X => X)]. destruct (negb (active sp TAPROOT)); [exact (fun X => X)|].
    destruct (rev (without_annex w)) as [|a [|b r]]; [exact (fun X => X)|exact (fun X => X)|]. inversion F2 as [|? ? _ F3]. inversion F3 as [|? ? Bb _]. cbv zeta. intros E.
    apply andb_true_iff in E as [-> E]. apply andb_true_iff in E as [-> E]. cbn [andb]. destruct (leaf_version a =? 192); [|reflexivity]. exact (execute_mono _ _ _ _ Bb E).
Qed.
Lemma program_bytes_ok l v p : bytes_ok l -> reference_program l = Some (v, p) -> bytes_ok p.
Proof. intros B. unfold reference_program. cbv zeta. destruct (_ && _); [|discriminate]. intros E. assert (p = skipn 2 l) by congruence. subst p. apply bytes_ok_skipn, B. Qed.

(** Whatever is accepted, the reference client accepts too. *)
Theorem C62_accepts_only checked s8 widths sp (sig pub : script) (w : list (list Z)) :
  spender_ok sp -> fits_block sig -> fits_block pub -> witness_ok w -> active sp WITNESS = true \/ w = [] ->
  connect checked s8 widths sp sig w (Some pub) = Some c_success -> VerifyScript true sp (script_bytes sig) (script_bytes pub) w = true.
Proof.
  intros Sok Fs Fp W A Ec. destruct (C62_connect_partial checked s8 widths sp Sok sig pub w Fs Fp W A) as (c & E & V). rewrite Ec in E. assert (c = c_success) by congruence. subst c. cbn [accepts] in V. symmetry in V. clear Ec E A.
  destruct (bytes_parse sig Fs) as (Bs & Ls & _). destruct (bytes_parse pub Fp) as (Bp & Lp & _).
  assert (Wb : Forall bytes_ok w) by (destruct W as [_ W]; eapply Forall_impl; [|exact W]; intros e [He _]; exact He).
  destruct (legacy_run sp Sok _ [] [] Bs Ls ltac:(constructor) ltac:(cbn; lia)) as (c1 & f1 & _ & E1).
  revert V E1. unfold VerifyScript. cbv zeta. set (k := legacy_context sp).
  destruct (evaluate_early k (script_bytes sig) [] None 0 Bs) as (M1 & _). destruct (evaluate k false (script_bytes sig) [] None 0) as [| |r1]; try discriminate. rewrite (M1 r1 eq_refl).
  destruct (evaluate_early k (script_bytes pub) (stk r1) None 0 Bp) as (M2 & _). destruct (evaluate k false (script_bytes pub) (stk r1) None 0) as [| |r2]; try discriminate. rewrite (M2 r2 eq_refl).
  intros V (_ & Fe & _). repeat (apply andb_true_iff in V as [V ?]). rewrite V. cbn [andb].
  apply andb_true_iff. split; [apply andb_true_iff; split|assumption].
  - destruct (program_of sp (script_bytes pub)) as [[v p]|] eqn:Pr; [|reflexivity]. apply andb_true_iff in H1 as [-> H1]. cbn [andb]. apply program_mono; [|exact Wb|exact H1].
    unfold program_of in Pr. destruct (active sp WITNESS); [|discriminate]. eapply program_bytes_ok; [exact Bp|exact Pr].
  - destruct (active sp P2SH && reference_p2sh (script_bytes pub)); [|reflexivity]. apply andb_true_iff in H0 as [-> H0]. cbn [andb]. destruct (stk r1) as [|redeem rest] eqn:S1; [discriminate|].
    assert (Br : bytes_ok redeem) by (apply F2_bytes in Fe; inversion Fe as [|? ? [Q _] _]; exact Q).
    destruct (evaluate_early k redeem rest None 0 Br) as (M3 & _). destruct (evaluate k false redeem rest None 0) as [| |r3]; try discriminate. rewrite (M3 r3 eq_refl).
    apply andb_true_iff in H0 as [-> H0]. cbn [andb]. destruct (program_of sp redeem) as [[v p]|] eqn:Pr; [|reflexivity]. apply andb_true_iff in H0 as [-> H0]. cbn [andb].
    apply program_mono; [|exact Wb|exact H0]. unfold program_of in Pr. destruct (active sp WITNESS); [|discriminate]. eapply program_bytes_ok; [exact Br|exact Pr].
Qed.
Print Assumptions C62_accepts_only.

(** The verdicts agree if strict DER (bip66) is inactive, or no script that can be
    evaluated holds a CHECKMULTISIG: those given, the pushed ones and the witness. *)
Lemma execute_same k code w n : bytes_ok code -> rule k bip66_rule = false \/ no_multisig code -> execute true k code w n = execute false k code w n.
Proof. intros B H. unfold execute. destruct (evaluate_early k code (rev w) (Some w) n B) as (_ & _ & E). rewrite (E H). reflexivity. Qed.
Lemma key_hash_no p : bytes_ok p -> len p = 20 -> no_multisig (key_hash_code p).
Proof.
  intros B L. destruct (key_code_parse p B L) as (E & Bk & Lk). pose proof (parse_scan _ Bk Lk) as PS. rewrite <- E in PS. unfold no_multisig.
  assert (G : forall o, In o (fst (script_scan (key_hash_code p))) -> In (to_op o) (to_pay_key_hash p)) by (intros o Ho; rewrite PS; apply in_or_app; left; apply in_map, Ho).
  apply Forall_forall. intros o Ho. apply G in Ho. unfold to_pay_key_hash, push, from_push_data, nominal_opcode_from_data in Ho. rewrite L in Ho. unfold opc in Ho. cbn in Ho.
  repeat (destruct Ho as [Ho|Ho]; [assert (Q : code (to_op o) = fst o) by reflexivity; rewrite <- Ho in Q; cbn [code] in Q; lia|]). contradiction.
Qed.
Lemma and_cong (a b c d : bool) : a = c -> b = d -> a && b = c && d. Proof. intros -> ->. reflexivity. Qed.
Lemma program_same sp w v p nested : bytes_ok p -> Forall bytes_ok w ->
  active sp bip66_rule = false \/ Forall no_multisig w -> VerifyWitnessProgram true sp w v p nested = VerifyWitnessProgram false sp w v p nested.
Proof.
  intros Bp F H. destruct (forall_last w F) as [F1 F2].
  assert (Hr : active sp bip66_rule = false \/ (Forall no_multisig (rev w) /\ Forall no_multisig (rev (without_annex w)))).
  { destruct H as [H|H]; [left; exact H|right]. split; apply Forall_rev; [exact H|]. unfold without_annex. destruct ((2 <=? len w) && _); [apply forall_removelast|]; exact H. }
  assert (H0 : active sp bip66_rule = false -> rule (v0_context sp) bip66_rule = false).
  { intros Q. change (Z.testbit (without_tapscript (eflags (base sp))) 5 = false). rewrite without_bits by lia. unfold active in Q. change bip66_rule with 5 in Q. rewrite Q. reflexivity. }
  unfold VerifyWitnessProgram. destruct (v =? 0).
  - destruct (len p =? 32).
    + destruct (rev w) as [|a r]; [reflexivity|]. inversion F1 as [|? ? Ba _]. apply and_cong; [exact eq_refl|]. apply execute_same; [exact Ba|]. destruct Hr as [Hr|[Hr _]]; [left; exact (H0 Hr)|right; inversion Hr; assumption].
    + destruct (Z.eqb_spec (len p) 20) as [L|]; [|reflexivity]. apply and_cong; [exact eq_refl|]. apply execute_same; [exact (key_hash_bytes p Bp)|]. right. exact (key_hash_no p Bp L).
  - destruct ((v =? 1) && (len p =? 32) && negb nested); [|reflexivity]. destruct (negb (active sp TAPROOT)); [reflexivity|].
    destruct (rev (without_annex w)) as [|a [|b r]]; [reflexivity|reflexivity|]. inversion F2 as [|? ? _ F3]. inversion F3 as [|? ? Bb _]. cbv zeta. apply and_cong; [exact eq_refl|]. apply and_cong; [exact eq_refl|].
    destruct (leaf_version a =? 192); [|reflexivity]. apply execute_same; [exact Bb|]. destruct Hr as [Hr|[_ Hr]]; [left; exact Hr|right; inversion Hr as [|? ? _ Q]; inversion Q; assumption].
Qed.
Theorem C62_same_verdict_partial sp (sig pub : script) (w : list (list Z)) :
  spender_ok sp -> fits_block sig -> fits_block pub -> Forall bytes_ok w ->
  active sp bip66_rule = false \/
    (no_multisig (script_bytes sig) /\ no_multisig (script_bytes pub) /\ Forall no_multisig w /\
     forall r, evaluate (legacy_context sp) true (script_bytes sig) [] None 0 = Completes r -> Forall no_multisig (stk r)) ->
  VerifyScript true sp (script_bytes sig) (script_bytes pub) w = VerifyScript false sp (script_bytes sig) (script_bytes pub) w.
Proof.
  intros Sok Fs Fp F H. destruct (bytes_parse sig Fs) as (Bs & Ls & _). destruct (bytes_parse pub Fp) as (Bp & Lp & _).
  destruct (legacy_run sp Sok _ [] [] Bs Ls ltac:(constructor) ltac:(cbn; lia)) as (c1 & f1 & _ & E1).
  assert (H0 : active sp bip66_rule = false -> rule (legacy_context sp) bip66_rule = false).
  { intros Q. change (Z.testbit (without_tapscript (eflags (base sp))) 5 = false). rewrite without_bits by lia. unfold active in Q. change bip66_rule with 5 in Q. rewrite Q. reflexivity. }
  revert E1 H H0. unfold VerifyScript. cbv zeta. set (k := legacy_context sp). intros E1 H H0.
  destruct (evaluate_early k (script_bytes sig) [] None 0 Bs) as (_ & _ & M1). rewrite M1 in H |- * by (destruct H as [H|H]; [left; exact (H0 H)|right; apply H]).
  destruct (evaluate k false (script_bytes sig) [] None 0) as [| |r1]; [exact eq_refl|exact eq_refl|]. destruct E1 as (_ & Fe & _).
  destruct (evaluate_early k (script_bytes pub) (stk r1) None 0 Bp) as (_ & _ & M2). rewrite M2 by (destruct H as [H|H]; [left; exact (H0 H)|right; apply H]).
  destruct (evaluate k false (script_bytes pub) (stk r1) None 0) as [| |r2]; [exact eq_refl|exact eq_refl|].
  assert (Hw : active sp bip66_rule = false \/ Forall no_multisig w) by (destruct H as [H|H]; [left; exact H|right; apply H]).
  apply and_cong; [|exact eq_refl]. apply and_cong; [apply and_cong; [exact eq_refl|]|].
  - destruct (program_of sp (script_bytes pub)) as [[v p]|] eqn:Pr; [|reflexivity]. apply and_cong; [exact eq_refl|]. apply program_same; [|exact F|exact Hw].
    unfold program_of in Pr. destruct (active sp WITNESS); [|discriminate]. eapply program_bytes_ok; [exact Bp|exact Pr].
  - destruct (active sp P2SH && reference_p2sh (script_bytes pub)); [|reflexivity]. apply and_cong; [exact eq_refl|]. destruct (stk r1) as [|redeem rest] eqn:S1; [reflexivity|].
    assert (Br : bytes_ok redeem) by (apply F2_bytes in Fe; inversion Fe as [|? ? [Q _] _]; exact Q).
    destruct (evaluate_early k redeem rest None 0 Br) as (_ & _ & M3). rewrite M3.
    2:{ destruct H as [H|(_ & _ & _ & H)]; [left; exact (H0 H)|right]. specialize (H r1 eq_refl). rewrite S1 in H. inversion H. assumption. }
    destruct (evaluate k false redeem rest None 0) as [| |r3]; [exact eq_refl|exact eq_refl|]. apply and_cong; [exact eq_refl|]. destruct (program_of sp redeem) as [[v p]|] eqn:Pr; [|reflexivity]. apply and_cong; [exact eq_refl|]. apply program_same; [|exact F|exact Hw].
    unfold program_of in Pr. destruct (active sp WITNESS); [|discriminate]. eapply program_bytes_ok; [exact Br|exact Pr].
Qed.
Print Assumptions C62_same_verdict_partial.

(** ** Without segwit a witness is to be ignored, and is refused (finding F15) *)
Definition toy_spender (flags : Z) : spender :=
  mkspender (mkctx flags InterpEnv.unversioned 4294967295 0 1
    (fun b => firstn 20 b) (fun b => firstn 20 b) (fun b => firstn 20 b) (fun b => firstn 20 b) (fun b => firstn 20 b)
    (fun d _ => Some d) (fun key _ sig => same_bytes key sig) (fun key _ sig => same_bytes (firstn 32 sig) key)
    (fun _ _ => []) (fun _ _ => []) (fun _ _ => Some [])) (fun _ _ _ => Some []) (fun _ _ _ _ => true).
Lemma toy_hash : InterpSim.hash_ok (fun b => firstn 20 b).
Proof. intros b B. split; [apply bytes_ok_firstn, B|]. unfold len. rewrite firstn_length. lia. Qed.
Lemma toy_ok flags : 0 <= flags < 2 ^ 32 -> (Z.testbit flags 15 = true -> Z.testbit flags 16 = true) -> spender_ok (toy_spender flags).
Proof.
  intros F T. split; [exact F|]. split; [exact T|]. pose proof toy_hash as Th. split; [exact Th|]. split; [exact Th|]. split; [exact Th|]. split; [exact Th|]. split; [exact Th|].
  unfold fits, imin, imax. cbn. lia.
Qed.
Definition one_script : script := [mkop 81 [] false].
Lemma parse_fits l : bytes_ok l -> len l <= 4000000 -> fits_block (parse_script l) /\ script_bytes (parse_script l) = l.
Proof. intros B L. destruct (parse_ok l B L) as [O E]. split; [split; [exact O|rewrite E; exact L]|exact E]. Qed.
Theorem C62_inactive_witness_refuted :
  ~ (forall checked s8 widths sp sig pub w, spender_ok sp -> fits_block sig -> fits_block pub -> witness_ok w -> active sp WITNESS = false ->
     exists c, connect checked s8 widths sp sig w (Some pub) = Some c /\ accepts c = VerifyScript false sp (script_bytes sig) (script_bytes pub) w).
Proof.
  intros H. assert (S0 : spender_ok (toy_spender 4)) by (apply toy_ok; [lia|intros Q; vm_compute in Q; discriminate]).
  assert (F0 : fits_block [] ) by (apply (proj1 (parse_fits [] ltac:(constructor) ltac:(cbn; lia)))).
  assert (F1 : fits_block one_script) by (apply (proj1 (parse_fits [81] ltac:(repeat constructor; unfold byte_ok; lia) ltac:(cbn; lia)))).
  assert (W : witness_ok [[1]]) by (split; [cbn; lia|repeat constructor; cbn; unfold byte_ok; lia]).
  destruct (H true true [] (toy_spender 4) [] one_script [[1]] S0 F0 F1 W eq_refl) as (c & E & V). vm_compute in E. assert (c = c_unexpected_witness) by congruence. subst c. vm_compute in V. discriminate.
Qed.
Print Assumptions C62_inactive_witness_refuted.

(** ** Accepted and refused spends: pay to script hash of a witness key hash, a
    witness script hash, and the taproot key path. *)
Definition all_rules : Z := 2 ^ 2 + 2 ^ 11 + 2 ^ 12 + 2 ^ 15 + 2 ^ 16.
Definition toy_key : list Z := 2 :: repeat 7 32.
Definition nested_redeem : list Z := 0 :: 20 :: firstn 20 toy_key.
Definition nested_sig : list Z := 22 :: nested_redeem.
Definition nested_pub : list Z := [169; 20] ++ firstn 20 nested_redeem ++ [135].
Definition hash_pub : list Z := [0; 32] ++ SHA256 [81; 135].
Example C62_satisfiable :
  spender_ok (toy_spender all_rules) /\
  VerifyScript true (toy_spender all_rules) nested_sig nested_pub [toy_key ++ [1]; toy_key] = true /\
  VerifyScript true (toy_spender all_rules) nested_sig nested_pub [7 :: toy_key ++ [1]; toy_key] = false /\
  VerifyScript true (toy_spender all_rules) nested_sig nested_pub [] = false /\
  VerifyScript true (toy_spender all_rules) [] hash_pub [[1]; [81; 135]] = true /\
  VerifyScript true (toy_spender all_rules) [] hash_pub [[2]; [81; 135]] = false /\
  VerifyScript true (toy_spender all_rules) [] ([81; 32] ++ repeat 7 32) [repeat 7 64] = true /\
  VerifyScript true (toy_spender all_rules) [] ([81; 32] ++ repeat 7 32) [repeat 8 64] = false /\
  connect true true [] (toy_spender all_rules) (parse_script nested_sig) [toy_key ++ [1]; toy_key] (Some (parse_script nested_pub)) = Some c_success /\
  connect true true [] (toy_spender all_rules) (parse_script nested_sig) [] (Some (parse_script nested_pub)) = Some c_invalid_witness /\
  connect true true [] (toy_spender all_rules) [] [repeat 7 64; [80; 1]] (Some (parse_script ([81; 32] ++ repeat 7 32))) = Some c_success.
Proof.
  split; [apply toy_ok; [vm_compute; split; [discriminate|reflexivity]|reflexivity]|]. vm_compute. auto 12.
Qed.
