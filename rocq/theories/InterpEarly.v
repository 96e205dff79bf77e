(** The reference client's early exit in CHECKMULTISIG only matters for
    signatures that are not strictly encoded; and the result as a matching. *)
From Verif Require Import Base Bytes NumberSpec OpSpec InterpEnv InterpSpec.
From Verif Require Import OpModel OpProofs OpProofs3 InterpSim4 InterpSim5.

(** Signatures matched to distinct keys in the same order. *)
Inductive matching (ok : list Z -> list Z -> bool) : list (list Z) -> list (list Z) -> Prop :=
| match_none keys : matching ok keys []
| match_take key keys sig sigs : ok key sig = true -> matching ok keys sigs -> matching ok (key :: keys) (sig :: sigs)
| match_skip key keys sigs : matching ok keys sigs -> matching ok (key :: keys) sigs.

Lemma matching_len ok keys sigs : matching ok keys sigs -> len sigs <= len keys.
Proof. induction 1; rewrite ?len_cons; [change (len (@nil (list Z))) with 0; apply len_nonneg|lia|lia]. Qed.
Lemma matching_tail ok keys sig sigs : matching ok keys (sig :: sigs) -> matching ok keys sigs.
Proof.
  revert sig sigs. induction keys as [|key keys IH]; intros sig sigs H; [inversion H|].
  inversion H; subst; [apply match_skip; assumption|apply match_skip; eauto].
Qed.
(** Taking a matching key greedily is never wrong. *)
Lemma matching_greedy ok key keys sig sigs : ok key sig = true -> matching ok (key :: keys) (sig :: sigs) -> matching ok keys sigs.
Proof. intros E H. inversion H; subst; [assumption|]. eapply matching_tail; eassumption. Qed.
Section Early.
Variable k : ctx.
Lemma multi_short ok keys : forall sigs b, len keys < len sigs -> multi_ok k false keys sigs ok = Some b -> b = false.
Proof.
  assert (N : forall l : list (list Z), len l < len (@nil (list Z)) -> False) by (intros l; change (len (@nil (list Z))) with 0; pose proof (len_nonneg l); lia).
  induction keys as [|key keys IH]; intros sigs b L H; (destruct sigs as [|sig sigs]; [exfalso; exact (N _ L)|]).
  - cbn [multi_ok] in H. injection H as <-. reflexivity.
  - cbn [multi_ok andb] in H. destruct (negb (encoding_ok k sig)); [discriminate|]. rewrite !len_cons in L.
    destruct (ok key sig); (eapply IH; [|exact H]); rewrite ?len_cons; lia.
Qed.
Lemma multi_early ok keys : forall sigs b, multi_ok k false keys sigs ok = Some b -> multi_ok k true keys sigs ok = Some b.
Proof.
  induction keys as [|key keys IH]; intros sigs b H; (destruct sigs as [|sig sigs]; [exact H|]); [exact H|].
  cbn [multi_ok]. cbn [andb]. destruct (Z.ltb_spec (len (key :: keys)) (len (sig :: sigs))) as [L|L].
  - f_equal. symmetry. eapply multi_short; eassumption.
  - cbn [multi_ok andb] in H. destruct (negb (encoding_ok k sig)); [discriminate|]. apply IH, H.
Qed.
Lemma multi_decides ok keys : forall sigs, Forall (fun s => encoding_ok k s = true) sigs ->
  exists b, multi_ok k false keys sigs ok = Some b /\ (b = true <-> matching ok keys sigs).
Proof.
  induction keys as [|key keys IH]; intros sigs F; (destruct sigs as [|sig sigs]; [exists true; split; [reflexivity|split; [intros _; constructor|reflexivity]]|]).
  - exists false. split; [reflexivity|]. split; [discriminate|]. intros H. inversion H.
  - cbn [multi_ok andb]. pose proof (Forall_inv F) as E. cbv beta in E. rewrite E. cbn [negb]. apply Forall_inv_tail in F.
    destruct (ok key sig) eqn:O.
    + destruct (IH sigs F) as (b & Hb & M). exists b. split; [exact Hb|]. rewrite M. split.
      * intros Q. apply match_take; assumption.
      * apply matching_greedy, O.
    + destruct (IH (sig :: sigs) ltac:(constructor; assumption)) as (b & Hb & M). exists b. split; [exact Hb|]. rewrite M. split.
      * apply match_skip.
      * intros Q. inversion Q; subst; [congruence|assumption].
Qed.
Lemma multi_same ok keys sigs : Forall (fun s => encoding_ok k s = true) sigs -> multi_ok k true keys sigs ok = multi_ok k false keys sigs ok.
Proof. intros F. destruct (multi_decides ok keys sigs F) as (b & E & _). rewrite E. apply multi_early, E. Qed.
Lemma encoding_lax sigs : rule k bip66_rule = false -> Forall (fun s => encoding_ok k s = true) sigs.
Proof. intros B. apply Forall_forall. intros s _. unfold encoding_ok. rewrite B. destruct s; reflexivity. Qed.

Lemma check_multisig_early r x : check_multisig k false r = Some x -> check_multisig k true r = Some x.
Proof.
  unfold check_multisig. destruct (stk r) as [|a s1]; [discriminate|]. destruct (number 4 a) as [n|]; [|discriminate].
  destruct (negb _); [discriminate|]. destruct (_ >? 201); [discriminate|]. destruct (len s1 <? n); [discriminate|].
  destruct (skipn _ s1) as [|y s2]; [discriminate|]. destruct (number 4 y) as [m|]; [|discriminate]. destruct (negb _); [discriminate|].
  destruct (len s2 <? m); [discriminate|]. destruct (skipn _ s2) as [|dummy s3]; [discriminate|].
  destruct (multi_ok k false _ _ _) as [b|] eqn:E; [|discriminate]. rewrite (multi_early _ _ _ _ E). exact (fun h => h).
Qed.
Lemma check_multisig_lax r : rule k bip66_rule = false -> check_multisig k true r = check_multisig k false r.
Proof.
  intros B. unfold check_multisig. destruct (stk r) as [|a s1]; [reflexivity|]. destruct (number 4 a) as [n|]; [|reflexivity].
  destruct (negb _); [reflexivity|]. destruct (_ >? 201); [reflexivity|]. destruct (len s1 <? n); [reflexivity|].
  destruct (skipn _ s1) as [|y s2]; [reflexivity|]. destruct (number 4 y) as [m|]; [|reflexivity]. destruct (negb _); [reflexivity|].
  destruct (len s2 <? m); [reflexivity|]. destruct (skipn _ s2) as [|dummy s3]; [reflexivity|].
  rewrite multi_same by (apply encoding_lax, B). reflexivity.
Qed.
Lemma exec_early_cases early c d rest pos r : byte_ok c ->
  exec k early c d rest pos r =
  if c =? 174 then if tapscript k then None else push_result (check_multisig k early r)
  else if c =? 175 then if tapscript k then None else verify_result (check_multisig k early r)
  else exec k false c d rest pos r.
Proof.
  intros Hc. destruct (Z.le_gt_cases c 78) as [C|C].
  - destruct (Z.eqb_spec c 174); [lia|]. destruct (Z.eqb_spec c 175); [lia|]. unfold exec. destruct (Z.leb_spec c 78); [reflexivity|lia].
  - assert (I : In c (map (fun n => 79 + Z.of_nat n) (seq 0 177))) by (apply code_in; unfold byte_ok in Hc; lia). clear Hc C. cbn in I.
    repeat (destruct I as [I|I]; [subst c; reflexivity|]). contradiction.
Qed.
Lemma exec_early c d rest pos r r' : byte_ok c -> exec k false c d rest pos r = Some r' -> exec k true c d rest pos r = Some r'.
Proof.
  intros Hc H. rewrite (exec_early_cases true) by assumption. rewrite (exec_early_cases false) in H by assumption.
  destruct (c =? 174); [|destruct (c =? 175); [|exact H]]; (destruct (tapscript k); [discriminate|]);
   (destruct (check_multisig k false r) as [x|] eqn:E; [|discriminate]); rewrite (check_multisig_early _ _ E); exact H.
Qed.
Lemma eval_early fuel : forall pos l r r', bytes_ok l -> eval k false fuel pos l r = Some r' -> eval k true fuel pos l r = Some r'.
Proof.
  induction fuel as [|f IH]; intros pos l r r' Hok H; [exact H|]. destruct l as [|x t]; [exact H|]. cbn [eval] in *.
  destruct (next_op (x :: t)) as [[[c d] rest]|] eqn:E; [|discriminate]. destruct (next_op_sound _ _ _ _ Hok E) as (Hc & _ & Hr & _).
  destruct (len d >? 520); [discriminate|]. destruct (nops _ >? 201); [discriminate|]. destruct (disabled c); [discriminate|].
  destruct (executing _ || _).
  - match type of H with match ?X with _ => _ end = _ => destruct X as [r2|] eqn:EX; [|discriminate] end. rewrite (exec_early _ _ _ _ _ _ Hc EX).
    destruct (_ >? 1000); [discriminate|]. apply IH; assumption.
  - destruct (_ >? 1000); [discriminate|]. apply IH; assumption.
Qed.
(** Without strict encodings, or without multisig operations, there is no difference. *)
Definition no_multisig (l : list Z) : Prop := Forall (fun o => fst o <> 174 /\ fst o <> 175) (fst (script_scan l)).
Lemma eval_same fuel : forall pos l r, bytes_ok l ->
  rule k bip66_rule = false \/ Forall (fun o => fst o <> 174 /\ fst o <> 175) (fst (scan fuel l)) ->
  eval k true fuel pos l r = eval k false fuel pos l r.
Proof.
  induction fuel as [|f IH]; intros pos l r Hok Q; [reflexivity|]. destruct l as [|x t]; [reflexivity|]. cbn [eval]. cbn [scan] in Q.
  destruct (next_op (x :: t)) as [[[c d] rest]|] eqn:E; [|reflexivity]. destruct (next_op_sound _ _ _ _ Hok E) as (Hc & _ & Hr & _).
  assert (Q' : rule k bip66_rule = false \/ Forall (fun o => fst o <> 174 /\ fst o <> 175) (fst (scan f rest))).
  { destruct Q as [Q|Q]; [left; exact Q|right]. destruct (scan f rest). apply Forall_inv_tail in Q. exact Q. }
  assert (X : forall r1, exec k true c d rest pos r1 = exec k false c d rest pos r1).
  { intros r1. rewrite (exec_early_cases true), (exec_early_cases false) by assumption. destruct Q as [Q|Q].
    - rewrite check_multisig_lax by exact Q. destruct (c =? 174), (c =? 175); reflexivity.
    - destruct (scan f rest). apply Forall_inv in Q. cbn [fst] in Q. destruct Q as [Q1 Q2]. apply Z.eqb_neq in Q1, Q2. rewrite Q1, Q2. reflexivity. }
  destruct (len d >? 520); [reflexivity|]. destruct (nops _ >? 201); [reflexivity|]. destruct (disabled c); [reflexivity|]. rewrite X.
  destruct (if _ : bool then _ else _); [|reflexivity]. destruct (_ >? 1000); [reflexivity|]. apply IH; assumption.
Qed.
Lemma evaluate_early l b0 wit w : bytes_ok l ->
  (forall r, evaluate k false l b0 wit w = Completes r -> evaluate k true l b0 wit w = Completes r) /\
  (evaluate k false l b0 wit w = Succeeds_unconditionally <-> evaluate k true l b0 wit w = Succeeds_unconditionally) /\
  (rule k bip66_rule = false \/ no_multisig l -> evaluate k true l b0 wit w = evaluate k false l b0 wit w).
Proof.
  intros Hok. unfold evaluate, no_multisig. pose proof (eval_same (length l) 0 l (start b0 w l) Hok) as ES. pose proof (eval_early (length l) 0 l (start b0 w l)) as EE.
  unfold script_scan in *. destruct (scan (length l) l) as [ops tail]. cbn [fst] in *.
  destruct (tapscript k && existsb _ ops); [split; [|split; [|reflexivity]]; [discriminate|tauto]|].
  destruct (tapscript k && _); [split; [|split; [|reflexivity]]; [discriminate|tauto]|].
  destruct (match wit with Some _ => _ | None => _ end); [split; [|split; [|reflexivity]]; [discriminate|tauto]|].
  destruct (negb _ && _); [split; [|split; [|reflexivity]]; [discriminate|tauto]|].
  split; [|split].
  - intros r. destruct (eval k false _ _ _ _) as [r1|] eqn:E; [|discriminate]. intros [= <-]. rewrite (EE r1 Hok eq_refl). reflexivity.
  - destruct (eval k false _ _ _ _), (eval k true _ _ _ _); split; discriminate.
  - intros Q. rewrite (ES Q). reflexivity.
Qed.
End Early.
