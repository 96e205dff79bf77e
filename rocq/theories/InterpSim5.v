(** Simulation: the loop over the script and the whole run. *)
From Verif Require Import Base Bytes MathModel MathSpec MathProofs NumberModel NumberSpec NumberProofs NumberProps OpModel OpSpec
  OpProofs OpProofs2 OpProofs3 OpProps InterpEnv InterpModel InterpSpec InterpElem InterpSim InterpSim2 InterpSim3 InterpSim4 SubscriptProofs.

(** ** Facts about opcodes, by enumeration of the 256 byte values. *)
Definition all_codes : list Z := map Z.of_nat (seq 0 256).
Lemma all_codes_in c : byte_ok c -> In c all_codes.
Proof. intros H. unfold byte_ok in H. apply in_map_iff. exists (Z.to_nat c). split; [lia|]. apply in_seq. lia. Qed.
Lemma by_codes (P : Z -> bool) : forallb P all_codes = true -> forall c, byte_ok c -> P c = true.
Proof. intros H c Hc. rewrite forallb_forall in H. apply H, all_codes_in, Hc. Qed.
Lemma conditional_code c : byte_ok c -> is_invalid_op c = false -> is_conditional c = (99 <=? c) && (c <=? 104).
Proof.
  intros Hc. assert (Q : (is_invalid_op c || Bool.eqb (is_conditional c) ((99 <=? c) && (c <=? 104))) = true).
  { revert c Hc. apply (by_codes (fun c => is_invalid_op c || Bool.eqb (is_conditional c) ((99 <=? c) && (c <=? 104)))). vm_compute. reflexivity. }
  intros I. rewrite I in Q. apply Bool.eqb_prop in Q. exact Q.
Qed.
Lemma invalid_code c : byte_ok c -> is_invalid_op c = disabled c || (c =? 101) || (c =? 102).
Proof.
  intros Hc. apply Bool.eqb_prop. revert c Hc.
  apply (by_codes (fun c => Bool.eqb (is_invalid_op c) (disabled c || (c =? 101) || (c =? 102)))). vm_compute. reflexivity.
Qed.
Lemma success_code c : byte_ok c -> is_success_op c = op_success_code c.
Proof.
  intros Hc. apply Bool.eqb_prop. revert c Hc.
  apply (by_codes (fun c => Bool.eqb (is_success_op c) (op_success_code c))). vm_compute. reflexivity.
Qed.

(** ** The reference evaluator never counts beyond the limit. *)
Lemma lift_nops f r r' : lift f r = Some r' -> nops r' = nops r.
Proof. unfold lift. destruct (f (stk r)); [|discriminate]. intros [= <-]. reflexivity. Qed.
Section Nops.
Variable k : ctx.
Lemma check_tapscript_nops key sig r r' b : check_tapscript k key sig r = Some (r', b) -> nops r' = nops r.
Proof.
  unfold check_tapscript. destruct (weight _ <? 0); [discriminate|]. destruct key; [discriminate|]. destruct sig.
  - intros [= <- <-]. reflexivity.
  - destruct (_ && _); [discriminate|]. intros [= <- <-]. reflexivity.
Qed.
Lemma check_sig_nops r r' b : check_sig k r = Some (r', b) -> nops r' = nops r.
Proof.
  unfold check_sig. destruct (stk r) as [|key [|sig s]]; try discriminate. destruct (tapscript k).
  - destruct (check_tapscript k key sig r) as [[r1 b1]|] eqn:E; [|discriminate]. intros [= <- <-]. cbn. eapply check_tapscript_nops, E.
  - destruct (negb _); [discriminate|]. intros [= <- <-]. reflexivity.
Qed.
Lemma check_multisig_nops early r r' b : check_multisig k early r = Some (r', b) -> nops r' <= 201.
Proof.
  unfold check_multisig. destruct (stk r) as [|a s1]; [discriminate|]. destruct (number 4 a) as [n|]; [|discriminate].
  destruct (negb _); [discriminate|]. destruct (nops r + n >? 201) eqn:E; [discriminate|]. destruct (len s1 <? n); [discriminate|].
  destruct (skipn _ s1) as [|x s2]; [discriminate|]. destruct (number 4 x) as [m|]; [|discriminate]. destruct (negb _); [discriminate|].
  destruct (len s2 <? m); [discriminate|]. destruct (skipn _ s2) as [|dummy s3]; [discriminate|].
  destruct (multi_ok _ _ _ _ _); [|discriminate]. destruct (_ && _); [discriminate|]. intros [= <- <-]. cbn [nops with_stk with_nops].
  destruct (Z.gtb_spec (nops r + n) 201); [discriminate|assumption].
Qed.
Lemma exec_nops early c d rest pos r r' : byte_ok c -> exec k early c d rest pos r = Some r' -> nops r <= 201 -> nops r' <= 201.
Proof.
  intros Hc. unfold exec. destruct (Z.leb_spec c 78) as [C|C].
  { intros [= <-]. exact (fun x => x). }
  assert (I : In c (map (fun n => 79 + Z.of_nat n) (seq 0 177))) by (apply code_in; unfold byte_ok in Hc; lia). clear Hc C.
  cbn in I. intros E.
  assert (G : (nops r' = nops r \/ nops r' <= 201)); [|intros; lia].
  repeat (destruct I as [I|I]; [subst c|]); [..|contradiction]; cbn -[lift stack_word arithmetic_word hash_word check_sig check_multisig check_tapscript branch tapscript rule number lock_time_ok sequence_ok] in E;
  try discriminate E; try (left; injection E as <-; reflexivity); try (left; eapply lift_nops, E).
  1,2: left; unfold branch in E; destruct (executing r); [destruct (stk r); [discriminate|]; destruct (if tapscript k then _ else _); [|discriminate]|]; injection E as <-; reflexivity.
  1,2: left; destruct (vf r); [discriminate|]; injection E as <-; reflexivity.
  1: left; destruct (stk r); [discriminate|]; injection E as <-; reflexivity.
  1: left; destruct (astk r); [discriminate|]; injection E as <-; reflexivity.
  - left. unfold push_result in E. destruct (check_sig k r) as [[r1 b]|] eqn:Q; [|discriminate]. injection E as <-. apply check_sig_nops in Q. exact Q.
  - left. unfold verify_result in E. destruct (check_sig k r) as [[r1 b]|] eqn:Q; [|discriminate]. destruct b; [|discriminate]. injection E as <-. apply check_sig_nops in Q. exact Q.
  - right. destruct (tapscript k); [discriminate|]. unfold push_result in E. destruct (check_multisig k early r) as [[r1 b]|] eqn:Q; [|discriminate]. injection E as <-. apply check_multisig_nops in Q. exact Q.
  - right. destruct (tapscript k); [discriminate|]. unfold verify_result in E. destruct (check_multisig k early r) as [[r1 b]|] eqn:Q; [|discriminate]. destruct b; [|discriminate]. injection E as <-. apply check_multisig_nops in Q. exact Q.
  - left. destruct (negb _); [injection E as <-; reflexivity|]. destruct (stk r); [discriminate|]. destruct (lock_time_ok _ _); [|discriminate]. injection E as <-; reflexivity.
  - left. destruct (negb _); [injection E as <-; reflexivity|]. destruct (stk r); [discriminate|]. destruct (sequence_ok _ _); [|discriminate]. injection E as <-; reflexivity.
  - left. destruct (tapscript k); [|discriminate]. destruct (stk r) as [|key [|num [|sig s]]]; try discriminate. destruct (number 4 num); [|discriminate].
    destruct (check_tapscript k key sig r) as [[r1 b]|] eqn:Q; [|discriminate]. injection E as <-. apply check_tapscript_nops in Q. exact Q.
Qed.
(** A script that evaluates has no truncated tail and no invalid opcode. *)
Lemma eval_scan early fuel : forall pos l r r', bytes_ok l -> eval k early fuel pos l r = Some r' ->
  snd (scan fuel l) = [] /\ Forall (fun p => is_invalid_op (fst p) = false) (fst (scan fuel l)).
Proof.
  induction fuel as [|f IH]; intros pos l r r' Hok H.
  - destruct l; [split; [reflexivity|constructor]|discriminate].
  - destruct l as [|x t]; [split; [reflexivity|constructor]|]. cbn [eval] in H. cbn [scan].
    destruct (next_op (x :: t)) as [[[c d] rest]|] eqn:E; [|discriminate].
    destruct (next_op_sound _ _ _ _ Hok E) as (Hc & _ & Hr & _).
    destruct (len d >? 520); [discriminate|]. destruct (nops _ >? 201); [discriminate|].
    destruct (disabled c) eqn:D; [discriminate|].
    assert (I : is_invalid_op c = false).
    { rewrite invalid_code, D by assumption. cbn [orb].
      destruct (Z.eqb_spec c 101) as [->|]; [rewrite orb_true_r in H; discriminate|].
      destruct (Z.eqb_spec c 102) as [->|]; [rewrite orb_true_r in H; discriminate|]. reflexivity. }
    match type of H with match ?X with _ => _ end = _ => destruct X as [r2|]; [|discriminate] end.
    destruct (len (stk r2) + len (astk r2) >? 1000); [discriminate|].
    destruct (IH _ _ _ _ Hr H) as [A B]. destruct (scan f rest) as [ops tail]. cbn [fst snd] in *. split; [exact A|]. constructor; assumption.
Qed.
End Nops.

Section Sim5.
Variable e : env.
Hypothesis K : ctx_ok e.
Hypothesis W : Forall op_wf (escript e).
Hypothesis Len : Z.of_nat (length (escript e)) < 2 ^ 32.
Hypothesis Valid : Forall (fun o => is_invalid_op (code o) = false) (escript e).

Definition sim_run (x : option (sc * st)) (y : option rst) : Prop :=
  match x with
  | None => False
  | Some (c, s) => match y with Some r => c = script_success /\ R e s r | None => c <> script_success /\ c <> prevalid_script end
  end.

Lemma R_set_operations s r n : R e s r -> R e (set_operations n s) (with_nops n r).
Proof. intros [A1 A2 A3 A4 A5 A6 A7 A8]. constructor; try assumption. reflexivity. Qed.
Lemma skipn_S {A} n (l : list A) x t : skipn n l = x :: t -> skipn (S n) l = t /\ (n < length l)%nat.
Proof.
  revert l. induction n as [|n IH]; intros l H.
  - cbn in H. subst l. split; [reflexivity|cbn; lia].
  - destruct l as [|y l]; [discriminate|]. cbn [skipn] in *. destruct (IH _ H) as [Q1 Q2]. split; [exact Q1|cbn; lia].
Qed.
Lemma overflow_same s r : R e s r -> is_stack_overflow s = (len (stk r) + len (astk r) >? 1000).
Proof. intros H. unfold is_stack_overflow. rewrite (F2_len _ _ (R_prim _ _ _ H)), (F2_len _ _ (R_alt _ _ _ H)). reflexivity. Qed.

Lemma loop_sim ops : forall position s r fuel,
  skipn position (escript e) = ops -> (length (ops_to_data ops) <= fuel)%nat ->
  R e s r -> len (prim s) <= 2 ^ 62 -> nops r <= 201 ->
  executing r = true \/ len (stk r) + len (astk r) <= 1000 ->
  sim_run (run_loop e position ops s) (eval e false fuel (Z.of_nat position) (ops_to_data ops) r).
Proof.
  induction ops as [|o ops IH]; intros position s r fuel HS HF H L N X.
  - change (ops_to_data []) with (@nil Z). cbn [run_loop]. assert (Q := cond_length _ _ _ (R_cond _ _ _ H)).
    unfold is_balanced. destruct fuel; cbn [eval];
     (destruct (cond s), (vf r); cbn in Q; try discriminate; [split; [reflexivity|exact H]|split; discriminate]).
  - destruct (skipn_S _ _ _ _ HS) as [HS' HL].
    assert (Wo : op_wf o /\ is_invalid_op (code o) = false).
    { assert (I : In o (escript e)) by (rewrite <- (firstn_skipn position (escript e)), HS; apply in_or_app; right; left; reflexivity).
      split; [exact (proj1 (Forall_forall _ _) W _ I)|exact (proj1 (Forall_forall _ _) Valid _ I)]. }
    destruct Wo as [Wo Io]. pose proof Wo as (_ & Hc & Hdok & _).
    rewrite ops_cons in *. destruct (op_data_nonempty o Wo) as (x & l & E).
    destruct fuel as [|f]; [rewrite E in HF; cbn in HF; lia|].
    assert (EV : eval e false (S f) (Z.of_nat position) (op_to_data o ++ ops_to_data ops) r =
      if len (data o) >? 520 then None
      else let r1 := if negb (tapscript e) && (96 <? code o) then with_nops (nops r + 1) r else r in
        if nops r1 >? 201 then None else if disabled (code o) then None else
        match (if executing r1 || (99 <=? code o) && (code o <=? 104) then exec e false (code o) (data o) (ops_to_data ops) (Z.of_nat position) r1 else Some r1) with
        | None => None
        | Some r2 => if len (stk r2) + len (astk r2) >? 1000 then None else eval e false f (Z.of_nat position + 1) (ops_to_data ops) r2
        end).
    { pose proof (next_op_complete o (ops_to_data ops) Wo) as NO. rewrite E in *. cbn [app eval] in *. rewrite NO. reflexivity. }
    rewrite EV. clear EV. cbn [run_loop]. unfold is_oversized_op, max_push_data_size.
    destruct (Z.gtb_spec (len (data o)) 520) as [C|C]; [split; discriminate|].
    assert (HF' : (length (ops_to_data ops) <= f)%nat) by (rewrite E, app_length in HF; cbn in HF; lia).
    (* counting *)
    set (r1 := if negb (tapscript e) && (96 <? code o) then with_nops (nops r + 1) r else r).
    assert (CNT : exists s1, ops_increment_op e o s = (negb (nops r1 >? 201), s1) /\ R e s1 r1 /\ prim s1 = prim s /\ stk r1 = stk r /\ astk r1 = astk r /\ executing r1 = executing r).
    { unfold ops_increment_op. change (enabled e bip342_rule) with (tapscript e). subst r1. destruct (tapscript e) eqn:T; cbn [negb andb].
      - exists s. split; [f_equal; lia|]. split; [assumption|]. split; [|split; [|split]]; reflexivity.
      - unfold is_counted. destruct (Z.ltb_spec 96 (code o)) as [D|D].
        + destruct (Z.leb_spec 97 (code o)); [|lia]. exists (set_operations (operations s + 1) s).
          rewrite (R_ops _ _ _ H). split; [cbn [operations set_operations nops with_nops]; f_equal; lia|].
          split; [apply R_set_operations; assumption|]. split; [|split; [|split]]; reflexivity.
        + destruct (Z.leb_spec 97 (code o)); [lia|]. exists s. rewrite (R_ops _ _ _ H). split; [f_equal; lia|].
          split; [assumption|]. split; [|split; [|split]]; reflexivity. }
    destruct CNT as (s1 & EC & H1 & Ep & Es & Ea & Ex). rewrite EC. clear EC. cbv zeta.
    destruct (Z.gtb_spec (nops r1) 201) as [N1|N1]; cbn [negb]; [split; discriminate|].
    rewrite invalid_code in Io by assumption. apply orb_false_iff in Io as [Io I102]. apply orb_false_iff in Io as [Io I101].
    rewrite Io. assert (Iv : is_invalid_op (code o) = false) by (rewrite invalid_code, Io, I101, I102 by assumption; reflexivity).
    rewrite <- (conditional_code _ Hc Iv), (is_success_executing e s1 r1 H1), orb_comm.
    destruct (executing r1 || is_conditional (code o)) eqn:EX.
    + pose proof (run_op_sim e K W Len position o (ops_to_data ops) s1 r1 Wo HL ltac:(rewrite HS'; reflexivity) C ltac:(rewrite Ep; exact L) H1) as S.
      destruct (run_op e position o s1) as [[c s2]|]; [|contradiction]. cbn [obind]. unfold sim in S.
      destruct (exec e false (code o) (data o) (ops_to_data ops) (Z.of_nat position) r1) as [r2|] eqn:EE.
      * destruct S as [-> H2]. rewrite (overflow_same _ _ H2). destruct (Z.gtb_spec (len (stk r2) + len (astk r2)) 1000) as [O|O]; [split; discriminate|].
        replace (Z.of_nat position + 1) with (Z.of_nat (S position)) by lia.
        apply (IH (S position) s2 r2 f HS' HF' H2).
        -- rewrite (F2_len _ _ (R_prim _ _ _ H2)). pose proof (len_nonneg (astk r2)). lia.
        -- exact (exec_nops e false _ _ _ _ _ _ Hc EE N1).
        -- right; lia.
      * destruct c; try (split; discriminate). contradiction.
    + apply orb_false_iff in EX as [EX _]. rewrite Es, Ea.
      destruct X as [X|X]; [congruence|]. destruct (Z.gtb_spec (len (stk r) + len (astk r)) 1000); [lia|].
      replace (Z.of_nat position + 1) with (Z.of_nat (S position)) by lia.
      apply (IH (S position) s1 r1 f HS' HF' H1); [rewrite Ep; exact L|lia|right; rewrite Es, Ea; lia].
Qed.
End Sim5.
