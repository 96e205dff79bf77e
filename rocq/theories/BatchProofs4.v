(** Invariants of the captured log, and whole blocks. *)
From Verif Require Import Base Bytes MathModel ShaModel AccModel KdfModel SigopSpec StreamModel NumberModel StateModel OpModel ChainModel BlockModel ValidModel PatternModel InterpEnv InterpModel InterpTrace InterpEarly SighashModel ConnectSpec ConnectModel BatchModel BatchProofs BatchProofs2 BatchSpec BatchProofs3.

Definition log_ok (l : log) : Prop := Forall group_ok (l_groups l) /\ len (l_groups l) <= 65536.
Lemma put_group_ok h ks gs l b l' : put_group h ks gs l = Some (b, l') -> log_ok l -> log_ok l'.
Proof.
  unfold put_group. destruct (multisig_check (len gs) (len ks)) eqn:M; [|discriminate]. cbn [negb]. destruct (Z.gtb_spec (len (l_groups l)) 65535); intros [= _ <-]; [auto|].
  intros [F L]. split; cbn [l_groups]; [|rewrite len_app; change (len [(h, ks, gs)]) with 1; lia]. apply Forall_app. split; [exact F|]. constructor; [|constructor].
  unfold multisig_check in M. pose proof (len_nonneg gs). cbn [group_ok]. lia.
Qed.
Section Run.
Variable e : env.
Variables (on spends : bool).
Variable compress : list Z -> option (list Z).
Definition kept (rc : outcome_c) : Prop := match rc with Some (_, _, l') => log_ok l' | None => True end.
Lemma capture_ecdsa_log k h g l : log_ok l -> match capture_ecdsa e on spends compress k h g l with Some (_, l') => log_ok l' | None => True end.
Proof.
  intros H. unfold capture_ecdsa. destruct (on && _); [|exact H]. destruct (to_compressed compress k) as [k'|]; [|exact H].
  destruct (put_group _ _ _ _) as [[b l']|] eqn:P; [|exact I]. cbn [obind]. pose proof (put_group_ok _ _ _ _ _ _ P H). destruct b; assumption.
Qed.
Lemma capture_schnorr_log k h g s l : log_ok l -> log_ok (snd (capture_schnorr e on spends k h g s l)).
Proof.
  intros H. destruct (capture_schnorr _ _ _ _ _ _ _ _) as [v l'] eqn:C. cbn [snd]. destruct (capture_schnorr_ok e on spends _ _ _ _ _ _ _ C) as [[_ [X _]]|[_ [X _]]]; unfold log_ok; rewrite X, app_nil_r; exact H.
Qed.
Lemma csv_log s l : log_ok l -> kept (op_check_sig_verify_c e on spends compress s l).
Proof.
  intros H. unfold op_check_sig_verify_c. destruct (_ <? _); [exact H|]. destruct (pop_chunk_ s) as [[key s1]|]; [|exact I]. cbn [obind].
  destruct (pop_chunk_ s1) as [[en s2]|]; [|exact I]. cbn [obind]. destruct (enabled e bip342_rule).
  - destruct (_ =? 0); [exact H|]. destruct (_ =? 0); [exact H|]. destruct (_ =? 32); [|destruct (sigops_increment s2) as [[] s3]; exact H].
    destruct (schnorr_split en) as [[g f]|]; [|exact H]. destruct (signature_hash e _ f) as [h|]; [|exact H]. pose proof (capture_schnorr_log key h g s2 l H) as K.
    destruct (capture_schnorr _ _ _ _ _ _ _ _) as [v l']. cbn [snd] in K. destruct (negb v); [exact K|]. destruct (sigops_increment s2) as [[] s3]; exact K.
  - destruct (_ =? 0); [exact H|]. unfold ecdsa_split. destruct (decode_signature _ _ _) as [g|]; [|exact H]. destruct (signature_hash e _ _) as [h|]; [|exact H].
    pose proof (capture_ecdsa_log key h g l H) as K. destruct (capture_ecdsa _ _ _ _ _ _ _ _) as [[v l']|]; [|exact I]. destruct v; exact K.
Qed.
Lemma cs_log s l : log_ok l -> kept (op_check_sig_c e on spends compress s l).
Proof.
  intros H. unfold op_check_sig_c. pose proof (csv_log s l H) as K. destruct (op_check_sig_verify_c _ _ _ _ _ _) as [[[c s1] l']|]; [|exact I]. cbn [obind kept] in *.
  assert (T : kept (if enabled e bip66_rule && ec_eqb c e_cs_decode_signature then retc c s1 l'
    else if enabled e bip342_rule && (ec_eqb c e_cs_empty_key || ec_eqb c e_cs_schnorr1 || ec_eqb c e_cs_schnorr2 || ec_eqb c e_cs_schnorr3 || ec_eqb c e_cs_budget) then retc c s1 l'
    else retc op_success (push_bool (succeeded c) s1) l')). { destruct (_ && _); [exact K|]. destruct (_ && _); exact K. }
  destruct c; exact T || exact K.
Qed.
Lemma cmsv_log s l : log_ok l -> kept (op_check_multisig_verify_c e on spends compress s l).
Proof.
  intros H. unfold op_check_multisig_verify_c. destruct (enabled e bip342_rule); [exact H|].
  destruct (pop_index32 s) as [[[n|] s1]|]; [|exact H|exact I]. cbn [obind]. destruct (n >? 20); [exact H|].
  destruct (ops_increment_keys e n s1) as [[] s2]; [|exact H]. cbn [negb].
  destruct (pop_chunks n s2) as [[[keys|] s3]|]; [|exact H|exact I]. cbn [obind].
  destruct (pop_index32 s3) as [[[m|] s4]|]; [|exact H|exact I]. cbn [obind]. destruct (m >? len keys); [exact H|].
  destruct (pop_chunks m s4) as [[[ens|] s5]|]; [|exact H|exact I]. cbn [obind]. destruct (is_stack_empty s5); [exact H|].
  destruct (pop_strict_bool_ s5) as [[dummy s6]|]; [|exact I]. cbn [obind]. destruct (dummy && _); [exact H|].
  assert (K : match capture_multisig e on spends compress keys ens s6 l with Some (_, l') => log_ok l' | None => True end).
  { unfold capture_multisig. destruct (negb on); [exact H|]. destruct (negb _); [exact H|]. destruct (_ || _); [exact I|]. destruct (parse_multisig _ _ _ _ _) as [[[h ks] gs]|]; [|exact H].
    destruct (put_group _ _ _ _) as [[b l']|] eqn:P; [|exact I]. eapply put_group_ok; eassumption. }
  destruct (capture_multisig _ _ _ _ _ _ _ _) as [[b l']|]; [|exact I]. cbn [obind]. destruct b; [exact K|]. destruct (multisig_loop _ _ _ _ _) as [[[|]|] c]; exact K.
Qed.
Lemma cms_log s l : log_ok l -> kept (op_check_multisig_c e on spends compress s l).
Proof.
  intros H. unfold op_check_multisig_c. destruct (enabled e bip342_rule); [exact H|]. pose proof (cmsv_log s l H) as K. destruct (op_check_multisig_verify_c _ _ _ _ _ _) as [[[c s1] l']|]; [|exact I]. cbn [obind kept] in *.
  assert (T : kept (if enabled e bip66_rule && ec_eqb c e_cms_decode_signature then retc c s1 l' else retc op_success (push_bool (succeeded c) s1) l')). { destruct (_ && _); exact K. }
  destruct c; exact T || exact K.
Qed.
Lemma csa_log s l : log_ok l -> kept (op_check_sig_add_c e on spends s l).
Proof.
  intros H. unfold op_check_sig_add_c. destruct (negb _); [exact H|]. destruct (_ <? _); [exact H|]. destruct (pop_chunk_ s) as [[key s1]|]; [|exact I]. cbn [obind]. destruct (_ =? 0); [exact H|].
  destruct (pop_signed32_ s1) as [[[n|] s2]|]; [|exact H|exact I]. cbn [obind]. destruct (pop_chunk_ s2) as [[en s3]|]; [|exact I]. cbn [obind]. destruct (_ =? 0); [exact H|].
  cbv zeta. assert (Ch : forall s4 l', log_ok l' -> kept (let (good, s5) := sigops_increment s4 in if good : bool then do r <- arith i64 (n + 1); retc op_success (push_signed64 r s5) l' else retc e_csa7 s5 l')).
  { intros s4 l' H'. destruct (sigops_increment s4) as [[] s5]; [|exact H']. destruct (arith i64 (n + 1)); [exact H'|exact I]. }
  destruct (_ =? 32); [|apply Ch, H]. destruct (schnorr_split en) as [[g f]|]; [|exact H].
  assert (V : forall h s4, kept (let (verified, l0) := capture_schnorr e on spends key h g s4 l in if negb verified then retc e_csa6 s4 l0 else
     (let (good, s5) := sigops_increment s4 in if good : bool then do r <- arith i64 (n + 1); retc op_success (push_signed64 r s5) l0 else retc e_csa7 s5 l0))).
  { intros h s4. pose proof (capture_schnorr_log key h g s4 l H) as K. destruct (capture_schnorr _ _ _ _ _ _ _ _) as [v l']. cbn [snd] in K. destruct (negb v); [exact K|apply Ch, K]. }
  destruct (cache s3) as [[f' h']|]; [destruct (f' =? f); [apply V|]|]; (destruct (signature_hash e _ f); [apply V|exact H]).
Qed.
Lemma op_log position o s l : log_ok l -> kept (run_op_c e on spends compress position o s l).
Proof.
  intros H. unfold run_op_c. destruct (_ =? 172); [apply cs_log, H|]. destruct (_ =? 173); [apply csv_log, H|]. destruct (_ =? 174); [apply cms_log, H|]. destruct (_ =? 175); [apply cmsv_log, H|].
  destruct (_ =? 186); [apply csa_log, H|]. destruct (run_op e position o s) as [[c s']|]; [exact H|exact I].
Qed.
Lemma loop_log ops : forall position s l, log_ok l -> match run_loop_c e on spends compress position ops s l with Some (_, _, l') => log_ok l' | None => True end.
Proof.
  induction ops as [|o ops IH]; intros position s l H; cbn [run_loop_c]; [exact H|]. destruct (is_oversized_op o); [exact H|].
  destruct (ops_increment_op e o s) as [[] s1]; [|exact H]. cbn [negb]. destruct (_ || _); [|apply IH, H]. pose proof (op_log position o s1 l H) as K.
  destruct (run_op_c _ _ _ _ _ _ _ _) as [[[c s2] l']|]; [|exact I]. cbn [obind kept] in *. destruct c; try exact K. destruct (is_stack_overflow s2); [exact K|apply IH, K].
Qed.
Lemma run_log s l : log_ok l -> match run_c e on spends compress s l with Some (_, _, l') => log_ok l' | None => True end.
Proof. intros H. unfold run_c. destruct (initialize e s); [exact H|]. apply loop_log, H. Qed.
End Run.
Section Connect.
Variables (checked s8 : bool) (widths : list nat) (on : bool).
Variable compress : list Z -> option (list Z).
Definition ckept (rc : option (connect_code * log)) : Prop := match rc with Some (_, l') => log_ok l' | None => True end.
Lemma ckept_run e spends s l (k : sc * st -> log -> option (connect_code * log)) : log_ok l -> (forall r l', log_ok l' -> ckept (k r l')) ->
  ckept (do (r, l1) <- run_c e on spends compress s l; k r l1).
Proof. intros H K. pose proof (run_log e on spends compress s l H) as R. destruct (run_c _ _ _ _ _ _) as [[r l']|]; [|exact I]. cbn [obind]. apply K. destruct r. exact R. Qed.
Lemma witness_log sp w p embedded l : log_ok l -> ckept (connect_witness_c checked s8 widths on compress sp w p embedded l).
Proof.
  intros H. unfold connect_witness_c. destruct (ValidModel.script_version p); try exact H.
  - destruct (extract_segwit _ _ _ _ _) as [c|[s stack]]; [exact H|]. apply ckept_run; [exact H|]. intros r l' H'. exact H'.
  - destruct (_ || _); [exact H|]. destruct (extract_taproot _ _ _ _ _ _) as [c|[[leaf s] stack]]; [exact H|]. apply ckept_run; [exact H|]. intros r l' H'. exact H'.
Qed.
Lemma connect_log sp s w p l : log_ok l -> ckept (connect_c checked s8 widths on compress sp s w p l).
Proof.
  intros H. unfold connect_c. destruct p as [p|]; [|exact H]. apply ckept_run; [exact H|]. intros r l1 H1. destruct (fst r); try exact H1.
  apply ckept_run; [exact H1|]. intros r2 l2 H2. destruct (fst r2); try exact H2. destruct (negb _); [exact H2|]. destruct (is_pay_to_script_hash sp p).
  - unfold connect_embedded_c. destruct (negb _); [exact H2|]. destruct (pop_chunk_ _) as [[d rest]|]; [|exact I]. cbn [obind]. cbv zeta. apply ckept_run; [exact H2|].
    intros r3 l3 H3. destruct (fst r3); try exact H3. destruct (negb _); [exact H3|]. destruct (is_pay_to_witness _ _); [destruct (negb _); [exact H3|apply witness_log, H3]|]. destruct (negb _); exact H3.
  - destruct (is_pay_to_witness _ _); [destruct (negb _); [exact H2|apply witness_log, H2]|]. destruct (negb _); exact H2.
Qed.
End Connect.
