(** Invariants of script prefixes: the conditional counter, the operation count,
    the stack limit and the signature budget, for any list of operations. *)
From Verif Require Import Base Bytes MathModel MathSpec MathProofs MathProofs2 NumberModel OpModel InterpEnv InterpModel InterpFrame.

Section Special.
Variable e : env.
Definition same_cond (s s' : st) : Prop := cond s' = cond s /\ neg s' = neg s.

Lemma code_run c d u position s : one_of c [99; 100; 103; 104; 172; 173; 174; 175; 186] = true ->
  forall f, lookup c (simple_table e) = Some f -> run_op e position (mkop c d u) s = f s.
Proof.
  intros H f F. apply one_of_in in H. cbn in H.
  repeat (destruct H as [<-|H]; [injection F as <-; reflexivity|]). contradiction.
Qed.

(** Conditionals. *)
Definition opens (s s' : st) : Prop :=
  exists b, cond s' = b :: cond s /\ neg s' = neg s + (if b : bool then 0 else 1) /\ operations s' = operations s /\ budget s' = budget s.
Lemma op_if_opens s s' : op_if e s = Some (op_success, s') -> opens s s'.
Proof.
  unfold op_if. destruct (is_success s).
  - destruct (is_stack_empty s); [discriminate|]. destruct (pop_bool_ _ s) as [[[v|] s1]|] eqn:E; try discriminate.
    cbn [obind]. intros [= <-]. apply pop_bool_frame in E as (A1 & A2 & A3 & A4). exists v. cbn. rewrite A1, A2. auto.
  - intros [= <-]. exists false. cbn. auto.
Qed.
Lemma op_notif_opens s s' : op_notif e s = Some (op_success, s') -> opens s s'.
Proof.
  unfold op_notif. destruct (is_success s).
  - destruct (is_stack_empty s); [discriminate|]. destruct (pop_bool_ _ s) as [[[v|] s1]|] eqn:E; try discriminate.
    cbn [obind]. intros [= <-]. apply pop_bool_frame in E as (A1 & A2 & A3 & A4). exists (negb v). cbn. rewrite A1, A2. auto.
  - intros [= <-]. exists true. cbn. auto.
Qed.
Lemma op_else_flips s s' : op_else s = Some (op_success, s') ->
  exists b r, cond s = b :: r /\ cond s' = negb b :: r /\ neg s' = neg s + (if b then 1 else -1) /\ operations s' = operations s /\ budget s' = budget s.
Proof.
  unfold op_else, is_balanced, else_if_. destruct (cond s) as [|b r]; [discriminate|]. cbn [obind]. intros [= <-]. exists b, r. cbn. auto.
Qed.
Lemma op_endif_closes s s' : op_endif s = Some (op_success, s') ->
  exists b r, cond s = b :: r /\ cond s' = r /\ neg s' = neg s + (if b : bool then 0 else -1) /\ operations s' = operations s /\ budget s' = budget s.
Proof.
  unfold op_endif, is_balanced, end_if_. destruct (cond s) as [|b r]; [discriminate|]. cbn [obind]. intros [= <-]. exists b, r. cbn. auto.
Qed.

(** Signature operations. *)
Definition element_nonempty (i : nat) (s : st) : bool :=
  match nth_error (prim s) i with
  | Some v => match variant_chunk v with Some [] => false | _ => true end
  | None => false
  end.
Definition charge_of (taken : bool) : Z := if taken then 50 else 0.
Lemma sigops_spec s g s' : 0 <= budget s < 2 ^ 64 -> sigops_increment s = (g, s') ->
  s' = set_budget (budget s') s /\ (g = true -> budget s' = budget s - 50 /\ 1 <= budget s').
Proof.
  intros B. unfold sigops_increment. rewrite floored_subtract_clamps; [|reflexivity|unfold fits; cbn; lia|unfold fits; cbn; lia].
  unfold clamp. cbn [imin imax sg u64 bits]. intros [= <- <-]. split; [reflexivity|]. cbn [budget set_budget].
  rewrite negb_true_iff, Z.eqb_neq. lia.
Qed.
Lemma pop_chunk_inv s c s' : pop_chunk_ s = Some (c, s') -> exists v r, prim s = v :: r /\ variant_chunk v = Some c /\ s' = set_prim r s.
Proof.
  unfold pop_chunk_, top, drop_. destruct (prim s) as [|v r]; [discriminate|]. cbn [hd_error obind]. destruct (variant_chunk v) eqn:E; [|discriminate].
  cbn [obind]. intros [= <- <-]. exists v, r. auto.
Qed.
Lemma len0 {A} (l : list A) : (len l =? 0) = match l with [] => true | _ => false end.
Proof. destruct l; [reflexivity|]. rewrite len_cons. pose proof (len_nonneg l). destruct (Z.eqb_spec (1 + len l) 0); [lia|reflexivity]. Qed.

(** Result of checking a signature in place: what was charged. *)
Definition sig_effect (i : nat) (s s' : st) (ok : bool) : Prop :=
  cond s' = cond s /\ neg s' = neg s /\ operations s' = operations s /\
  (enabled e bip342_rule = false -> budget s' = budget s) /\
  (enabled e bip342_rule = true -> 0 <= budget s < 2 ^ 64 -> ok = true ->
     budget s' = budget s - charge_of (element_nonempty i s) /\ (element_nonempty i s = true -> 1 <= budget s')).

Definition tap_fail (c : ec) : bool :=
  match c with e_cs_low_stack | e_cs_empty_key | e_cs_schnorr1 | e_cs_schnorr2 | e_cs_schnorr3 | e_cs_budget => true | _ => false end.
Lemma check_sig_verify_effect s c s' : op_check_sig_verify e s = Some (c, s') ->
  sig_effect 1 s s' (negb (tap_fail c)).
Proof.
  unfold op_check_sig_verify. destruct (_ <? 2). { intros [= <- <-]. split; [|split; [|split; [|split]]]; try reflexivity. intros _ _ X; discriminate X. }
  destruct (pop_chunk_ s) as [[key s1]|] eqn:E1; [|discriminate]. cbn [obind]. apply pop_chunk_inv in E1 as (v1 & r1 & P1 & C1 & ->).
  destruct (pop_chunk_ (set_prim r1 s)) as [[sg s2]|] eqn:E2; [|discriminate]. cbn [obind]. apply pop_chunk_inv in E2 as (v2 & r2 & P2 & C2 & ->).
  cbn [prim set_prim] in P2. subst r1. set (s2 := set_prim r2 (set_prim (v2 :: r2) s)).
  assert (NE : element_nonempty 1 s = match sg with [] => false | _ => true end).
  { unfold element_nonempty. rewrite P1. cbn [nth_error]. rewrite C2. destruct sg; reflexivity. }
  assert (PLAIN : forall c', enabled e bip342_rule = true -> (tap_fail c' = false -> sg = []) -> ret c' s2 = Some (c, s') -> sig_effect 1 s s' (negb (tap_fail c))).
  { intros c' B N2 [= <- <-]. unfold sig_effect. rewrite NE. split; [|split; [|split; [|split]]]; try reflexivity.
    intros A _ X. apply negb_true_iff in X. rewrite N2 by assumption. cbn. split; [lia|discriminate]. }
  destruct (enabled e bip342_rule) eqn:B.
  - rewrite !len0. destruct key as [|k0 key]. { apply PLAIN; [reflexivity|discriminate]. }
    destruct sg as [|g0 sg]. { apply PLAIN; [reflexivity|reflexivity]. }
    assert (CH : (let (good, s3) := sigops_increment s2 in if good : bool then ret op_success s3 else ret e_cs_budget s3) = Some (c, s') ->
       sig_effect 1 s s' (negb (tap_fail c))).
    { destruct (sigops_increment s2) as [g s3] eqn:Q. intros X. unfold sig_effect. rewrite NE.
      assert (F : cond s3 = cond s /\ neg s3 = neg s /\ operations s3 = operations s).
      { unfold sigops_increment in Q. injection Q as _ <-. repeat split. }
      destruct F as (F1 & F2 & F3).
      destruct g; injection X as <- <-; (split; [|split; [|split; [|split]]]); try assumption; try (intros; congruence).
      - intros _ Bd _. destruct (sigops_spec s2 true s3 Bd Q) as [_ S]. specialize (S eq_refl). cbn [charge_of]. change (budget s2) with (budget s) in S. split; intros; lia. 
      - intros _ _ Y. discriminate Y. }
    destruct (len (k0 :: key) =? 32); [|exact CH]. destruct (schnorr_split (g0 :: sg)) as [[sig flags]|]; [|apply PLAIN; [reflexivity|discriminate]].
    destruct (signature_hash e _ flags); [|apply PLAIN; [reflexivity|discriminate]].
    destruct (verify_schnorr _ _ _ _); cbn [negb]; [exact CH|apply PLAIN; [reflexivity|discriminate]].
  - assert (LEG : forall c', ret c' s2 = Some (c, s') -> sig_effect 1 s s' (negb (tap_fail c))).
    { intros c' [= <- <-]. split; [|split; [|split; [|split]]]; try reflexivity. congruence. }
    destruct (len sg =? 0); [apply LEG|]. destruct (ecdsa_split sg) as [der flags]. destruct (decode_signature _ _ _); [|apply LEG].
    destruct (signature_hash e _ flags); apply LEG.
Qed.
Lemma check_sig_effect s s' : op_check_sig e s = Some (op_success, s') -> sig_effect 1 s s' true.
Proof.
  unfold op_check_sig. destruct (op_check_sig_verify e s) as [[c s1]|] eqn:E; [|discriminate]. cbn [obind].
  apply check_sig_verify_effect in E. intros X.
  assert (G : exists b, s' = push_bool b s1 /\ (enabled e bip342_rule = true -> tap_fail c = false)).
  { destruct (enabled e bip66_rule), (enabled e bip342_rule), c; cbn in X; try discriminate X; injection X as <-; eexists; (split; [reflexivity|]); intros; try discriminate; reflexivity. }
  destruct G as (b & -> & G).
  destruct E as (A1 & A2 & A3 & A4 & A5). split; [exact A1|]. split; [exact A2|]. split; [exact A3|]. split; [exact A4|].
  intros B Bd _. apply (A5 B Bd). rewrite (G B). reflexivity.
Qed.
Lemma check_sig_add_effect s s' : op_check_sig_add e s = Some (op_success, s') -> sig_effect 2 s s' true /\ enabled e bip342_rule = true.
Proof.
  unfold op_check_sig_add. destruct (enabled e bip342_rule) eqn:B; cbn [negb]; [|unfold op_unevaluated; destruct (is_invalid_op _); discriminate].
  destruct (_ <? 3); [discriminate|].
  destruct (pop_chunk_ s) as [[key s1]|] eqn:E1; [|discriminate]. cbn [obind]. apply pop_chunk_inv in E1 as (v1 & r1 & P1 & C1 & ->).
  destruct (len key =? 0); [discriminate|].
  destruct (pop_signed32_ (set_prim r1 s)) as [[n s2]|] eqn:E2; [|discriminate]. cbn [obind].
  unfold pop_signed32_, top, drop_ in E2. cbn [prim set_prim] in E2. destruct r1 as [|v2 r2]; [discriminate|]. cbn [hd_error obind] in E2.
  destruct (variant_signed 4 v2) as [[g x]|]; [|discriminate]. cbn [obind] in E2. injection E2 as <- <-. destruct g; [|discriminate].
  destruct (pop_chunk_ _) as [[sg s3]|] eqn:E3; [|discriminate]. cbn [obind]. apply pop_chunk_inv in E3 as (v3 & r3 & P3 & C3 & ->).
  cbn [prim set_prim] in P3. subst r2. rewrite len0.
  set (s3 := set_prim r3 _). intros X. split; [|reflexivity].
  assert (NE : element_nonempty 2 s = match sg with [] => false | _ => true end).
  { unfold element_nonempty. rewrite P1. cbn [nth_error]. rewrite C3. destruct sg; reflexivity. }
  unfold sig_effect. rewrite NE. destruct sg as [|g0 sg].
  { injection X as <-. split; [|split; [|split; [|split]]]; try reflexivity. intros; cbn; split; [lia|discriminate]. }
  assert (CH : forall s4, cond s4 = cond s -> neg s4 = neg s -> operations s4 = operations s -> budget s4 = budget s ->
     (let (good, s5) := sigops_increment s4 in if good : bool then do r <- arith i64 (x + 1); ret op_success (push_signed64 r s5) else ret e_csa7 s5) = Some (op_success, s') ->
     cond s' = cond s /\ neg s' = neg s /\ operations s' = operations s /\ (enabled e bip342_rule = false -> budget s' = budget s) /\
     (enabled e bip342_rule = true -> 0 <= budget s < 2 ^ 64 -> true = true -> budget s' = budget s - charge_of true /\ (true = true -> 1 <= budget s'))).
  { intros s4 Q1 Q2 Q3 Q4. destruct (sigops_increment s4) as [g s5] eqn:Q. destruct g; [|discriminate].
    assert (F : cond s5 = cond s4 /\ neg s5 = neg s4 /\ operations s5 = operations s4).
    { unfold sigops_increment in Q. injection Q as _ <-. repeat split. }
    destruct F as (F1 & F2 & F3). destruct (arith i64 (x + 1)); [|discriminate]. cbn [obind]. intros [= <-].
    cbn [cond neg operations budget push_signed64 push_variant set_prim]. split; [congruence|]. split; [congruence|]. split; [congruence|]. split; [congruence|].
    intros _ Bd _. rewrite <- Q4 in Bd. destruct (sigops_spec s4 true s5 Bd Q) as [_ S]. specialize (S eq_refl). cbn [charge_of]. split; intros; lia. }
  destruct (len key =? 32); [|apply (CH s3); try reflexivity; exact X].
  destruct (schnorr_split (g0 :: sg)) as [[sig flags]|]; [|discriminate].
  destruct (cache s3) as [[f h]|] eqn:EC.
  - destruct (f =? flags).
    + destruct (negb _); [discriminate|]. apply (CH s3); try reflexivity; exact X.
    + destruct (signature_hash e _ flags); [|discriminate]. destruct (negb _); [discriminate|]. apply (CH (set_cache (Some (flags, l)) s3)); try reflexivity; exact X.
  - destruct (signature_hash e _ flags); [|discriminate]. destruct (negb _); [discriminate|]. apply (CH (set_cache (Some (flags, l)) s3)); try reflexivity; exact X.
Qed.

(** Multisig. *)
Definition multi_effect (s s' : st) (ok : bool) : Prop :=
  cond s' = cond s /\ neg s' = neg s /\ budget s' = budget s /\ (ok = true -> operations s <= operations s' <= 201 /\ enabled e bip342_rule = false).
Definition multi_fail (c : ec) : bool :=
  match c with e_cms_verify1 | e_cms_verify2 | e_cms_verify3 | op_invalid | op_reserved => true | _ => false end.
Lemma check_multisig_verify_effect s c s' : op_check_multisig_verify e s = Some (c, s') -> multi_effect s s' (negb (multi_fail c)).
Proof.
  unfold op_check_multisig_verify. destruct (enabled e bip342_rule) eqn:B.
  { unfold op_unevaluated. destruct (is_invalid_op _); intros [= <- <-]; (split; [|split; [|split]]); try reflexivity; discriminate. }
  destruct (pop_index32 s) as [[n s1]|] eqn:E1; [|discriminate]. cbn [obind]. pose proof (pop_index_frame _ _ _ E1) as (F1 & F2 & F3 & F4).
  assert (N0 : forall v, n = Some v -> 0 <= v).
  { unfold pop_index32 in E1. destruct (pop_signed32 s) as [[x s1']|]; [|discriminate]. cbn [obind] in E1. injection E1 as <- _. destruct x as [x|]; [|discriminate].
    intros v. destruct (Z.ltb_spec x 0); [discriminate|]. destruct (x <? _); [|discriminate]. intros [= <-]. assumption. }
  destruct n as [n|]. 2: { intros [= <- <-]. split; [|split; [|split]]; try assumption. discriminate. }
  specialize (N0 n eq_refl).
  destruct (n >? 20). { intros [= <- <-]. split; [|split; [|split]]; try assumption. discriminate. }
  unfold ops_increment_keys. rewrite B. cbn [negb].
  destruct (Z.gtb_spec (operations s1 + n) 201) as [O|O]; cbn [negb].
  { intros [= <- <-]. split; [|split; [|split]]; try assumption. discriminate. }
  set (s2 := set_operations (operations s1 + n) s1). intros X.
  assert (G : frame s2 s').
  { revert X. match goal with |- ?L = _ -> _ => assert (Y : framed s2 L) end; [|intros X; exact (Y _ _ X)].
    frames; try (destruct (multisig_loop _ _ _ _ _) as [[[|? ?]|] ?]); frames. }
  destruct G as (G1 & G2 & G3 & G4). unfold s2 in G1, G2, G3, G4. cbn in G1, G2, G3, G4.
  split; [congruence|]. split; [congruence|]. split; [congruence|]. intros _. split; [lia|exact B].
Qed.
Lemma check_multisig_effect s s' : op_check_multisig e s = Some (op_success, s') -> multi_effect s s' true.
Proof.
  unfold op_check_multisig. destruct (enabled e bip342_rule) eqn:B; [unfold op_unevaluated; destruct (is_invalid_op _); discriminate|].
  destruct (op_check_multisig_verify e s) as [[c s1]|] eqn:E; [|discriminate]. cbn [obind]. intros X.
  assert (NU : c <> op_invalid /\ c <> op_reserved).
  { revert E. unfold op_check_multisig_verify. rewrite B. unfold obind.
    repeat match goal with
    | |- context [match ?x with _ => _ end = _ -> _] => destruct x
    end; try discriminate; unfold ret; intros Q; injection Q as <- _; split; discriminate. }
  apply check_multisig_verify_effect in E.
  assert (G : exists b, s' = push_bool b s1 /\ multi_fail c = false).
  { destruct (enabled e bip66_rule), c; cbn in X; try discriminate X; injection X as <-; eexists; (split; [reflexivity|]); try reflexivity; exfalso; destruct NU; congruence. }
  destruct G as (b & -> & G). rewrite G in E. exact E.
Qed.
End Special.

(** ** Runs of prefixes.  The loop went through all the operations given exactly
    when it ends in success or in unbalanced conditionals. *)
Definition went_through (c : sc) : bool := match c with script_success | invalid_stack_scope => true | _ => false end.
Section Trace.
Variable e : env.
Lemma run_loop_nil position s : run_loop e position [] s = Some (if is_balanced s then script_success else invalid_stack_scope, s).
Proof. reflexivity. Qed.
Lemma run_loop_app a : forall b position s,
  run_loop e position (a ++ b) s =
  match run_loop e position a s with
  | Some (c, s') => if went_through c then run_loop e (position + length a) b s' else Some (c, s')
  | None => None
  end.
Proof.
  induction a as [|o a IH]; intros b position s.
  - rewrite run_loop_nil. cbn [app length]. rewrite Nat.add_0_r. destruct (is_balanced s); reflexivity.
  - cbn [app run_loop length]. destruct (is_oversized_op o); [reflexivity|]. destruct (ops_increment_op e o s) as [g s1].
    destruct (negb g); [reflexivity|]. replace (position + S (length a))%nat with (S position + length a)%nat by lia.
    destruct (_ || _); [|apply IH]. destruct (run_op e position o s1) as [[c s2]|]; [|reflexivity]. cbn [obind].
    destruct c; try reflexivity. destruct (is_stack_overflow s2); [reflexivity|apply IH].
Qed.
(** One more operation. *)
Lemma run_loop_snoc a o s c s' : run_loop e 0 (a ++ [o]) s = Some (c, s') -> went_through c = true ->
  exists c1 s1 s2, run_loop e 0 a s = Some (c1, s1) /\ went_through c1 = true /\ is_oversized_op o = false /\
    ops_increment_op e o s1 = (true, s2) /\
    ((is_conditional (code o) || is_success s2 = true /\ run_op e (length a) o s2 = Some (op_success, s') /\ is_stack_overflow s' = false) \/
     (is_conditional (code o) || is_success s2 = false /\ s' = s2)).
Proof.
  rewrite run_loop_app. destruct (run_loop e 0 a s) as [[c1 s1]|]; [|discriminate].
  destruct (went_through c1) eqn:G1; [|intros [= <- <-] X; congruence]. cbn [run_loop plus].
  destruct (is_oversized_op o); [intros [= <- <-]; discriminate|]. destruct (ops_increment_op e o s1) as [g s2] eqn:Q.
  destruct g; cbn [negb]; [|intros [= <- <-]; discriminate]. intros X Y. exists c1, s1, s2. split; [reflexivity|]. split; [exact G1|]. split; [reflexivity|].
  split; [exact Q|]. destruct (_ || _).
  - left. split; [reflexivity|]. destruct (run_op e (length a) o s2) as [[c3 s3]|]; [|discriminate]. cbn [obind] in X.
    destruct c3; try (injection X as <- <-; discriminate Y). destruct (is_stack_overflow s3) eqn:V; [injection X as <- <-; discriminate Y|].
    injection X as _ <-. split; [reflexivity|exact V].
  - right. split; [reflexivity|]. injection X as _ <-. reflexivity.
Qed.
Lemma run_loop_prefix a b s c s' : run_loop e 0 (a ++ b) s = Some (c, s') -> went_through c = true ->
  exists c1 s1, run_loop e 0 a s = Some (c1, s1) /\ went_through c1 = true.
Proof.
  rewrite run_loop_app. destruct (run_loop e 0 a s) as [[c1 s1]|]; [|discriminate]. destruct (went_through c1) eqn:G; [eauto|]. intros [= <- <-] X. congruence.
Qed.

(** How many of the given opcodes occur. *)
Definition count (f : Z -> bool) (ops : list op) : Z := len (filter (fun o => f (code o)) ops).
Definition is_open (c : Z) : bool := (c =? 99) || (c =? 100).      (* OP_IF, OP_NOTIF *)
Definition is_close (c : Z) : bool := c =? 104.                     (* OP_ENDIF *)
Lemma count_snoc f a o : count f (a ++ [o]) = count f a + (if f (code o) then 1 else 0).
Proof. unfold count. rewrite filter_app, len_app. cbn [filter]. destruct (f (code o)); reflexivity. Qed.
(** Signature operations whose signature is not empty: second from the top for
    OP_CHECKSIG and OP_CHECKSIGVERIFY, third for OP_CHECKSIGADD. *)
Definition spends (o : op) (s : st) : bool :=
  is_success s &&
  (((code o =? 172) || (code o =? 173)) && element_nonempty 1 s || (code o =? 186) && element_nonempty 2 s).
Fixpoint spent (done rest : list op) (s0 : st) : Z :=
  match rest with
  | [] => 0
  | o :: rest' =>
    (match run_loop e 0 done s0 with Some (_, s) => if spends o s then 1 else 0 | None => 0 end) + spent (done ++ [o]) rest' s0
  end.
Lemma spent_snoc rest : forall done o s0, spent done (rest ++ [o]) s0 =
  spent done rest s0 + match run_loop e 0 (done ++ rest) s0 with Some (_, s) => if spends o s then 1 else 0 | None => 0 end.
Proof.
  induction rest as [|x rest IH]; intros done o s0; cbn [spent app].
  - rewrite app_nil_r. lia.
  - rewrite IH, <- app_assoc. cbn [app]. lia.
Qed.

Record inv (s0 : st) (ops : list op) (s : st) : Prop := mkinv {
  i_neg : neg s = len (filter negb (cond s));
  i_depth : len (cond s) = count is_open ops - count is_close ops;
  i_size : is_success s = true /\ ops = [] \/ len (prim s) + len (alt s) <= 1000;
  i_ops : enabled e bip342_rule = false -> count (fun c => 97 <=? c) ops <= operations s <= 201;
  i_data : Forall (fun o => len (data o) <= 520) ops;
  i_budget : enabled e bip342_rule = true -> budget s = budget s0 - 50 * spent [] ops s0 /\ 0 <= budget s <= budget s0 /\ (0 < spent [] ops s0 -> 1 <= budget s)
}.
Definition cleared (s0 : st) : Prop := alt s0 = [] /\ cond s0 = [] /\ neg s0 = 0 /\ operations s0 = 0 /\ 0 <= budget s0 < 2 ^ 64.

Lemma all_true_neg c : len (filter negb c) = 0 -> forallb (fun b => b) c = true.
Proof. induction c as [|[|] c IH]; [reflexivity|exact IH|]. cbn [filter negb]. rewrite len_cons. pose proof (len_nonneg (filter negb c)). lia. Qed.

Lemma run_op_effect position o s s' : run_op e position o s = Some (op_success, s') ->
  (enabled e bip342_rule = true -> 0 <= budget s < 2 ^ 64) ->
  ((is_open (code o) = true /\ opens s s') \/
   (code o = 103 /\ exists b r, cond s = b :: r /\ cond s' = negb b :: r /\ neg s' = neg s + (if b then 1 else -1)) \/
   (code o = 104 /\ exists b r, cond s = b :: r /\ cond s' = r /\ neg s' = neg s + (if b : bool then 0 else -1)) \/
   (is_open (code o) = false /\ code o <> 104 /\ cond s' = cond s /\ neg s' = neg s)) /\
  (enabled e bip342_rule = false -> operations s <= 201 -> operations s <= operations s' <= 201) /\
  (enabled e bip342_rule = true ->
     let n := ((code o =? 172) || (code o =? 173)) && element_nonempty 1 s || (code o =? 186) && element_nonempty 2 s in
     budget s' = budget s - charge_of n /\ (n = true -> 1 <= budget s')).
Proof.
  intros H B1. destruct (special (code o)) eqn:S.
  - destruct o as [c d u]. cbn [code] in *. apply one_of_in in S. cbn in S.
    destruct S as [<-|[<-|[<-|[<-|[<-|[<-|[<-|[<-|[<-|[]]]]]]]]]].
    + change (op_if e s = Some (op_success, s')) in H. apply op_if_opens in H. pose proof H as (b & _ & _ & Q1 & Q2).
      split; [left; split; [reflexivity|exact H]|]. split; [intros; lia|]. cbn. intros _. split; [lia|discriminate].
    + change (op_notif e s = Some (op_success, s')) in H. apply op_notif_opens in H. pose proof H as (b & _ & _ & Q1 & Q2).
      split; [left; split; [reflexivity|exact H]|]. split; [intros; lia|]. cbn. intros _. split; [lia|discriminate].
    + change (op_else s = Some (op_success, s')) in H. apply op_else_flips in H as (b & r & A1 & A2 & A3 & A4 & A5).
      split; [right; left; split; [reflexivity|]; exists b, r; auto|]. split; [intros; lia|]. cbn. intros _. split; [lia|discriminate].
    + change (op_endif s = Some (op_success, s')) in H. apply op_endif_closes in H as (b & r & A1 & A2 & A3 & A4 & A5).
      split; [right; right; left; split; [reflexivity|]; exists b, r; auto|]. split; [intros; lia|]. cbn. intros _. split; [lia|discriminate].
    + change (op_check_sig e s = Some (op_success, s')) in H. apply check_sig_effect in H as (A1 & A2 & A3 & A4 & A5).
      split; [right; right; right; split; [reflexivity|split; [discriminate|auto]]|]. split; [intros; lia|]. intros X. cbv zeta.
      replace (((172 =? 172) || (172 =? 173)) && element_nonempty 1 s || (172 =? 186) && element_nonempty 2 s) with (element_nonempty 1 s) by (cbn; destruct (element_nonempty 1 s); reflexivity).
      apply A5; [exact X|apply B1, X|reflexivity].
    + change (op_check_sig_verify e s = Some (op_success, s')) in H. apply check_sig_verify_effect in H as (A1 & A2 & A3 & A4 & A5).
      split; [right; right; right; split; [reflexivity|split; [discriminate|auto]]|]. split; [intros; lia|]. intros X. cbv zeta.
      replace (((173 =? 172) || (173 =? 173)) && element_nonempty 1 s || (173 =? 186) && element_nonempty 2 s) with (element_nonempty 1 s) by (cbn; destruct (element_nonempty 1 s); reflexivity).
      apply A5; [exact X|apply B1, X|reflexivity].
    + change (op_check_multisig e s = Some (op_success, s')) in H. apply check_multisig_effect in H as (A1 & A2 & A3 & A4). destruct (A4 eq_refl) as [A5 A6].
      split; [right; right; right; split; [reflexivity|split; [discriminate|auto]]|]. split; [intros; lia|]. intros X. congruence.
    + change (op_check_multisig_verify e s = Some (op_success, s')) in H. apply check_multisig_verify_effect in H as (A1 & A2 & A3 & A4). destruct (A4 eq_refl) as [A5 A6].
      split; [right; right; right; split; [reflexivity|split; [discriminate|auto]]|]. split; [intros; lia|]. intros X. congruence.
    + change (op_check_sig_add e s = Some (op_success, s')) in H. apply check_sig_add_effect in H as [(A1 & A2 & A3 & A4 & A5) A6].
      split; [right; right; right; split; [reflexivity|split; [discriminate|auto]]|]. split; [intros; congruence|]. intros X. cbv zeta.
      replace (((186 =? 172) || (186 =? 173)) && element_nonempty 1 s || (186 =? 186) && element_nonempty 2 s) with (element_nonempty 2 s) by reflexivity.
      apply A5; [exact X|apply B1, X|reflexivity].
  - destruct (run_op_framed e position o s S _ _ H) as (A1 & A2 & A3 & A4).
    assert (N : code o <> 99 /\ code o <> 100 /\ code o <> 104 /\ code o <> 172 /\ code o <> 173 /\ code o <> 186).
    { unfold special, one_of in S. cbn [existsb] in S. rewrite !orb_false_iff, !Z.eqb_neq in S. tauto. }
    destruct N as (N1 & N2 & N3 & N4 & N5 & N6).
    split; [right; right; right; split; [|auto]|].
    { unfold is_open. apply orb_false_iff. rewrite !Z.eqb_neq. auto. }
    split; [intros; lia|]. intros _. cbv zeta. apply Z.eqb_neq in N4, N5, N6. rewrite N4, N5, N6. cbn [orb andb charge_of]. split; [lia|discriminate].
Qed.
Lemma filter_negb_cons b c : len (filter negb (b :: c)) = (if b : bool then 0 else 1) + len (filter negb c).
Proof. destruct b; cbn [filter negb]; [reflexivity|apply len_cons]. Qed.

Lemma prefix_inv s0 ops : cleared s0 -> forall c s, run_loop e 0 ops s0 = Some (c, s) -> went_through c = true -> inv s0 ops s.
Proof.
  intros (Z1 & Z2 & Z3 & Z4 & Z5). induction ops as [|o ops IH] using rev_ind; intros c s H G.
  - rewrite run_loop_nil in H. injection H as _ <-. constructor.
    + rewrite Z2, Z3. reflexivity.
    + rewrite Z2. reflexivity.
    + left. split; [unfold is_success; rewrite Z3; reflexivity|reflexivity].
    + rewrite Z4. intros _. cbn. lia.
    + constructor.
    + intros _. change (spent [] [] s0) with 0. lia.
  - destruct (run_loop_snoc ops o s0 c s H G) as (c1 & s1 & s2 & H1 & G1 & OV & IN & STEP).
    specialize (IH c1 s1 H1 G1). destruct IH as [I1 I2 I3 I4 I5 I6].
    assert (EQ : s2 = set_operations (operations s2) s1 /\ (enabled e bip342_rule = false -> operations s2 = operations s1 + (if 97 <=? code o then 1 else 0) /\ operations s2 <= 201)).
    { revert IN. unfold ops_increment_op. destruct (enabled e bip342_rule).
      - intros [= <-]. split; [destruct s1; reflexivity|discriminate].
      - unfold is_counted. intros Q. injection Q as Q1 Q2. destruct (97 <=? code o); subst s2; cbn [operations set_operations] in *;
         (split; [destruct s1; reflexivity|]; intros _; lia). }
    destruct EQ as [EQ EO].
    assert (C2 : cond s2 = cond s1 /\ neg s2 = neg s1 /\ budget s2 = budget s1 /\ prim s2 = prim s1 /\ alt s2 = alt s1) by (rewrite EQ; repeat split).
    destruct C2 as (C1 & C2 & C3 & C4 & C5).
    assert (SP : spent [] (ops ++ [o]) s0 = spent [] ops s0 + (if spends o s1 then 1 else 0)) by (rewrite spent_snoc; cbn [app]; rewrite H1; reflexivity).
    assert (NN : 0 <= spent [] ops s0).
    { clear. generalize (@nil op). induction ops as [|o ops IH]; intros d; cbn [spent]; [lia|]. specialize (IH (d ++ [o])).
      destruct (run_loop e 0 d s0) as [[? s]|]; [destruct (spends o s)|]; lia. }
    unfold is_oversized_op, max_push_data_size in OV.
    assert (D : Forall (fun x => len (data x) <= 520) (ops ++ [o])).
    { apply Forall_app. split; [assumption|]. constructor; [|constructor]. destruct (Z.gtb_spec (len (data o)) 520); [discriminate|assumption]. }
    destruct STEP as [(EX & RO & NOV)|(EX & ->)].
    + assert (BB : enabled e bip342_rule = true -> 0 <= budget s2 < 2 ^ 64) by (intros B; destruct (I6 B) as (J1 & J2 & J3); lia).
      destruct (run_op_effect (length ops) o s2 s RO BB) as (X1 & X2 & X3). clear BB.
      constructor.
      * destruct X1 as [(_ & b & Q1 & Q2 & _)|[(_ & b & r & Q1 & Q2 & Q3)|[(_ & b & r & Q1 & Q2 & Q3)|(_ & _ & Q1 & Q2)]]].
        -- rewrite Q1, Q2, filter_negb_cons, C1, C2. lia.
        -- rewrite Q2, Q3, filter_negb_cons, C2, I1, <- C1, Q1, filter_negb_cons. destruct b; cbn [negb]; lia.
        -- rewrite Q2, Q3, C2, I1, <- C1, Q1, filter_negb_cons. destruct b; lia.
        -- rewrite Q1, Q2, C1, C2. exact I1.
      * rewrite !count_snoc. destruct X1 as [(Q0 & b & Q1 & Q2 & _)|[(Q0 & b & r & Q1 & Q2 & Q3)|[(Q0 & b & r & Q1 & Q2 & Q3)|(Q0 & Q00 & Q1 & Q2)]]].
        -- rewrite Q1, len_cons, C1, I2, Q0. unfold is_open in Q0. unfold is_close. destruct (Z.eqb_spec (code o) 104) as [E|]; [rewrite E in Q0; discriminate|]. lia.
        -- rewrite Q2, len_cons. rewrite C1 in Q1. rewrite Q1, len_cons in I2. rewrite Q0. change (is_open 103) with false; change (is_close 103) with false; change (is_open 104) with false; change (is_close 104) with true; cbn [is_open is_close Z.eqb Pos.eqb orb]. lia.
        -- rewrite Q2. rewrite C1 in Q1. rewrite Q1, len_cons in I2. rewrite Q0. change (is_open 103) with false; change (is_close 103) with false; change (is_open 104) with false; change (is_close 104) with true; cbn [is_open is_close Z.eqb Pos.eqb orb]. lia.
        -- rewrite Q1, C1, I2, Q0. unfold is_close. apply Z.eqb_neq in Q00. rewrite Q00. lia.
      * right. unfold is_stack_overflow in NOV. destruct (Z.gtb_spec (len (prim s) + len (alt s)) 1000); [discriminate|assumption].
      * intros B. destruct (EO B) as [O1 O2]. specialize (X2 B O2). specialize (I4 B). rewrite count_snoc. lia.
      * exact D.
      * intros B. destruct (I6 B) as (J1 & J2 & J3). specialize (X3 B). cbv zeta in X3. rewrite SP.
        assert (SPE : spends o s1 = ((code o =? 172) || (code o =? 173)) && element_nonempty 1 s2 || (code o =? 186) && element_nonempty 2 s2).
        { unfold spends, element_nonempty. rewrite C4. destruct (is_success s1) eqn:SS; [reflexivity|].
          assert (is_success s2 = false) as S2 by (unfold is_success in *; rewrite C2; exact SS). rewrite S2, orb_false_r in EX.
          cbn [andb]. unfold is_conditional in EX. apply one_of_in in EX. cbn in EX. destruct EX as [E|[E|[E|[E|[]]]]]; rewrite <- E; reflexivity. }
        rewrite SPE. destruct X3 as [Y1 Y2]. destruct (_ || _) in Y1, Y2 |- *; cbn [charge_of] in Y1; [specialize (Y2 eq_refl)|]; lia.
    + apply orb_false_iff in EX as [EX1 EX2]. constructor.
      * rewrite C1, C2. exact I1.
      * rewrite !count_snoc, C1, I2. unfold is_open, is_close. unfold is_conditional, one_of in EX1. cbn [existsb] in EX1.
        rewrite !orb_false_iff in EX1. destruct EX1 as (-> & -> & _ & -> & _). cbn [orb]. lia.
      * right. rewrite C4, C5. destruct I3 as [[I3 _]|I3]; [|exact I3]. unfold is_success in *. rewrite C2 in EX2. congruence.
      * intros B. destruct (EO B) as [O1 O2]. specialize (I4 B). rewrite count_snoc. lia.
      * exact D.
      * intros B. specialize (I6 B). rewrite SP, C3. assert (spends o s1 = false) as ->.
        { unfold spends. unfold is_success in *. rewrite <- C2, EX2. reflexivity. } rewrite Z.add_0_r. exact I6.
Qed.
End Trace.
