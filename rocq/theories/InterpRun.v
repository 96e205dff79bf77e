(** The whole run of a program against the reference evaluation. *)
From Verif Require Import Base Bytes MathModel MathSpec MathProofs NumberModel NumberSpec NumberProofs NumberProps OpModel OpSpec
  OpProofs OpProofs2 OpProofs3 OpProps InterpEnv InterpModel InterpSpec InterpElem InterpSim InterpSim2 InterpSim3 InterpSim4 InterpSim5 SubscriptProofs.

(** How a program starts (program_construct.ipp:36-137): the initial stack stands
    for the byte stack [b0]; with a witness it is the witness (whose last element
    is the top) and one of the two segwit rules is active; without one the script
    is not a tapscript and the elements respect the push limit.  A tapscript's
    budget is one more than the validation weight. *)
Record start_ok (k : ctx) (wit : option (list (list Z))) (s0 : list variant) (b0 : list (list Z)) (w bud : Z) : Prop := mkstart {
  so_stack : Forall2 element_bytes s0 b0;
  so_size : len s0 <= 2 ^ 62;
  so_wit : match wit with
    | Some x => b0 = rev x /\ (Z.testbit (eflags k) bip342_rule || Z.testbit (eflags k) bip141_rule = true)
    | None => tapscript k = false /\ Forall (fun d => len d <= 520) b0
    end;
  so_budget : tapscript k = true -> bud = w + 1 /\ 0 <= w < 2 ^ 63
}.

Definition program (k : ctx) (l : list Z) (wit : option (list (list Z))) : env := mkenv k (parse_script l) wit.
Definition run_script (k : ctx) (l : list Z) (wit : option (list (list Z))) (s0 : list variant) (bud : Z) : option (sc * st) :=
  run (program k l wit) (initial s0 bud).

Lemma F2_elem s0 b0 : Forall2 element_bytes s0 b0 -> Forall (fun d => len d <= 520) b0 -> Forall2 elem s0 b0.
Proof. induction 1; intros F; [constructor|]. apply Forall_cons_iff in F as [F1 F2]. constructor; [split; assumption|auto]. Qed.
Lemma F2_length2 {A B} (P : A -> B -> Prop) l t : Forall2 P l t -> len l = len t.
Proof. induction 1; [reflexivity|]. rewrite !len_cons, IHForall2. reflexivity. Qed.
Lemma existsb_false_forall {A} (f : A -> bool) l : existsb f l = false <-> Forall (fun x => f x = false) l.
Proof.
  induction l as [|a l IH]; cbn; [split; [constructor|reflexivity]|]. rewrite orb_false_iff, IH. split; [intros []; constructor; assumption|].
  intros H. apply Forall_cons_iff in H. exact H.
Qed.
Lemma scan_codes f : forall l, bytes_ok l -> Forall (fun p => byte_ok (fst p)) (fst (scan f l)).
Proof.
  induction f as [|f IH]; intros l Hok; [constructor|]. cbn [scan]. destruct (next_op l) as [[[c d] r]|] eqn:E; [|constructor].
  destruct (next_op_sound _ _ _ _ Hok E) as (Hc & _ & Hr & _). specialize (IH r Hr). destruct (scan f r) as [ops tail]. constructor; assumption.
Qed.
Lemma scan_success f : forall l, bytes_ok l -> snd (scan f l) = [] -> existsb (fun p => is_success_op (fst p)) (fst (scan f l)) = existsb (fun p => op_success_code (fst p)) (fst (scan f l)).
Proof.
  intros l Hok _. pose proof (scan_codes f l Hok) as H. induction H as [|p t Hp Ht IH]; [reflexivity|]. cbn [existsb]. rewrite IH, success_code by assumption. reflexivity.
Qed.
Lemma existsb_map {A B} (f : B -> bool) (g : A -> B) l : existsb f (map g l) = existsb (fun x => f (g x)) l.
Proof. induction l; cbn; [reflexivity|]. rewrite IHl. reflexivity. Qed.

Lemma ops_length_le ops : Forall op_wf ops -> (length ops <= length (ops_to_data ops))%nat.
Proof.
  induction 1 as [|o t Ho Ht IH]; [cbn; lia|]. rewrite ops_cons, app_length. destruct (op_data_nonempty o Ho) as (x & q & ->). cbn [length] in *. lia.
Qed.

Section Run.
Variable k : ctx.
Variable l : list Z.
Variable wit : option (list (list Z)).
Hypothesis K : ctx_ok k.
Hypothesis Hok : bytes_ok l.
Hypothesis Hl : len l <= max_bytes.

Definition sim_verdict (x : option (sc * st)) (v : verdict) : Prop :=
  match x with
  | None => False
  | Some (c, s) =>
    match v with
    | Fails => c <> script_success /\ c <> prevalid_script
    | Succeeds_unconditionally => c = prevalid_script
    | Completes r => c = script_success /\ R (program k l wit) s r
    end
  end.

Lemma sv_fails c s : c <> script_success -> c <> prevalid_script -> sim_verdict (Some (c, s)) Fails.
Proof. intros; split; assumption. Qed.
Theorem run_sim s0 b0 w bud : start_ok k wit s0 b0 w bud ->
  sim_verdict (run_script k l wit s0 bud) (evaluate k false l b0 wit w).
Proof.
  intros [S1 S2 S3 S4]. unfold run_script, run, evaluate, initialize.
  change (enabled (program k l wit) bip342_rule) with (tapscript k). cbn [escript ewitness program].
  pose proof (parse_script_scan l Hok Hl) as PS. pose proof (parse_script_data l Hok) as PD.
  pose proof (eval_scan k false (length l) 0 l (start b0 w l)) as ES. pose proof (scan_codes (length l) l Hok) as SC.
  unfold script_scan in *. destruct (scan (length l) l) as [ops tail] eqn:ESC. cbn [fst snd] in *.
  assert (PV : is_prevalid (parse_script l) = existsb (fun o => op_success_code (fst o)) ops).
  { rewrite PS. unfold is_prevalid. rewrite existsb_app, existsb_map. cbn [code].
    replace (existsb (fun o => is_success_op (code o)) match tail with [] => [] | _ :: _ => [mkop any_invalid tail true] end) with false by (destruct tail; reflexivity).
    rewrite orb_false_r. clear -SC. induction SC as [|p t Hp Ht IH]; [reflexivity|]. cbn [existsb]. rewrite IH, success_code by assumption. reflexivity. }
  rewrite PV. destruct (tapscript k && existsb (fun o => op_success_code (fst o)) ops) eqn:E1; [exact eq_refl|].
  assert (PF : is_prefail (parse_script l) = existsb (fun p => is_invalid_op (fst p)) ops || match tail with [] => false | _ => true end).
  { rewrite PS. unfold is_prefail. rewrite existsb_app, existsb_map. cbn [code]. f_equal. destruct tail; reflexivity. }
  assert (UF : is_underflow (parse_script l) = match tail with [] => false | _ => true end).
  { unfold is_underflow. rewrite PF, PS, rev_app_distr. destruct tail; [|rewrite orb_true_r; reflexivity]. cbn [rev app]. rewrite <- map_rev.
    destruct (rev ops); [apply andb_false_r|]. apply andb_false_r. }
  assert (FL : match tail with [] => false | _ => true end = true \/ existsb (fun p => is_invalid_op (fst p)) ops = true ->
     eval k false (length l) 0 l (start b0 w l) = None).
  { intros Q. destruct (eval k false (length l) 0 l (start b0 w l)) as [r|]; [|reflexivity]. destruct (ES r Hok eq_refl) as [A B].
    destruct Q as [Q|Q]; [subst tail; discriminate|]. apply existsb_false_forall in B. congruence. }
  rewrite UF. destruct tail as [|x tail].
  2: { rewrite FL by (left; reflexivity). match goal with |- sim_verdict _ ?v => change (sim_verdict (Some (invalid_script, initial s0 bud)) v) end. clear E1. destruct (tapscript k && (len b0 >? 1000)); [apply sv_fails; discriminate|]. destruct (match wit with Some e => existsb (fun d => len d >? 520) e | None => false end); [apply sv_fails; discriminate|].
       destruct (negb _ && _); apply sv_fails; discriminate. }
  unfold is_stack_overflow. cbn [prim alt initial]. change (len (@nil variant)) with 0. rewrite Z.add_0_r, (F2_length2 _ _ _ S1).
  destruct (tapscript k && (len b0 >? 1000)) eqn:E2; [apply sv_fails; discriminate|].
  assert (WT : ((tapscript k || enabled (program k l wit) bip141_rule) &&
      match wit with Some w0 => existsb (fun d => len d >? 520) w0 | None => false end) = match wit with Some w0 => existsb (fun d => len d >? 520) w0 | None => false end).
  { destruct wit as [x|]; [|apply andb_false_r]. destruct S3 as [_ S3]. change (tapscript k || enabled (program k l (Some x)) bip141_rule) with (Z.testbit (eflags k) bip342_rule || Z.testbit (eflags k) bip141_rule).
    rewrite S3. reflexivity. }
  rewrite WT. destruct (match wit with Some w0 => existsb (fun d => len d >? 520) w0 | None => false end) eqn:E3; [apply sv_fails; discriminate|].
  unfold is_oversized, script_size, max_script_size. rewrite ops_size_len, PD.
  destruct (negb (tapscript k) && (len l >? 10000)) eqn:E4; [apply sv_fails; discriminate|].
  rewrite PF, orb_false_r. destruct (existsb (fun p => is_invalid_op (fst p)) ops) eqn:E5.
  { rewrite FL by (right; reflexivity). apply sv_fails; discriminate. }
  rewrite app_nil_r in PS.
  assert (W : Forall op_wf (parse_script l)).
  { pose proof (parse_script_wf l Hok) as H. revert H. rewrite PS. clear. intros H.
    induction ops as [|p t IH]; [constructor|]. cbn [map] in *. inversion H as [|o T|o os Ho Hos]; subst.
    - exfalso. destruct T as (U & _). discriminate U.
    - constructor; auto. }
  assert (B520 : Forall (fun d => len d <= 520) b0).
  { destruct wit as [x|]; [|apply S3]. destruct S3 as [-> _]. apply existsb_false_forall in E3. apply Forall_rev.
    revert E3. apply Forall_impl. intros d Hd. destruct (Z.gtb_spec (len d) 520); [discriminate|assumption]. }
  pose proof (ops_length_le _ W) as LL. rewrite PD in LL.
  pose proof (loop_sim (program k l wit) K W ltac:(cbn [escript program]; unfold len, max_bytes in *; lia)) as LS.
  cbn [escript program ectx] in LS.
  assert (V : Forall (fun o => is_invalid_op (code o) = false) (parse_script l)).
  { rewrite PS. apply existsb_false_forall in E5. clear -E5. induction E5; constructor; assumption. }
  specialize (LS V (parse_script l) 0%nat (initial s0 bud) (start b0 w l) (length l) eq_refl ltac:(rewrite PD; lia)).
  rewrite PD in LS. change (Z.of_nat 0) with 0 in LS.
  assert (R0 : R (program k l wit) (initial s0 bud) (start b0 w l)).
  { constructor.
    - apply F2_elem; assumption.
    - constructor.
    - split; [reflexivity|]. left. split; reflexivity.
    - reflexivity.
    - exact S4.
    - exact PD.
    - unfold subscript_v1. cbn [fst snd offset initial]. destruct (escript (program k l wit)); reflexivity.
    - intros _ f h Q. discriminate Q. }
  specialize (LS R0 S2 ltac:(cbn; lia) ltac:(left; reflexivity)).
  unfold sim_verdict, sim_run in *. destruct (run_loop _ _ _ _) as [[c s]|]; [|exact LS].
  destruct (eval k false (length l) 0 l (start b0 w l)); exact LS.
Qed.
End Run.
