(** Script code stripping: the model's filter of operations against the
    byte-level deletion of the reference (property C55). *)
From Verif Require Import Base Bytes MathModel NumberModel NumberProofs OpModel OpSpec
  OpProofs OpProofs3 OpProps InterpEnv InterpModel InterpSpec.

Definition push_op (d : list Z) : op := mkop (nominal_opcode_from_data d) d false.
Lemma push_op_wf d : bytes_ok d -> len d <= 520 -> op_wf (push_op d).
Proof.
  intros H L. unfold op_wf, push_op, nominal_opcode_from_data. cbn [underflow code data]. pose proof (len_nonneg d).
  assert (E : complete_op (opcode_from_size (len d)) d) by (apply complete_nominal; [exact H|lia]).
  destruct (complete_wf _ _ E) as (_ & W); [unfold max_bytes; lia|]. split; [reflexivity|]. exact W.
Qed.
Lemma direct_push_op d : bytes_ok d -> len d <= 520 -> direct_push d = op_to_data (push_op d).
Proof.
  intros H L. rewrite op_to_data_eq by (apply push_op_wf; assumption). unfold direct_push, push_op, nominal_opcode_from_data, prefix_of. cbn [code data].
  pose proof (len_nonneg d). unfold opcode_from_size, push_size_75, push_one_size, push_two_size, push_four_size.
  destruct (Z.ltb_spec (len d) 76), (Z.leb_spec (len d) 75); try lia.
  - unfold size_bytes. destruct (Z.eqb_spec (len d) 76); [lia|]. destruct (Z.eqb_spec (len d) 77); [lia|]. destruct (Z.eqb_spec (len d) 78); [lia|]. reflexivity.
  - destruct (Z.leb_spec (len d) 255).
    + cbn [size_bytes Z.eqb Pos.eqb le_bytes app]. rewrite Z.mod_small by lia. reflexivity.
    + destruct (Z.leb_spec (len d) 65535); [|lia]. reflexivity.
Qed.
Lemma op_data_nonempty o : op_wf o -> exists x l, op_to_data o = x :: l.
Proof. intros H. rewrite op_to_data_eq by assumption. eauto. Qed.
Lemma op_eq o p : op_wf o -> op_wf p -> code o = code p -> data o = data p -> o = p.
Proof. intros (U & _) (V & _). destruct o, p; cbn in *. intros. subst. reflexivity. Qed.
Lemma is_prefix_app a l : is_prefix a (a ++ l) = true.
Proof. induction a; [reflexivity|]. cbn [app is_prefix]. rewrite Z.eqb_refl. exact IHa. Qed.
Lemma is_prefix_true a : forall l, is_prefix a l = true -> exists r, l = a ++ r.
Proof.
  induction a as [|x a IH]; intros l H; [exists l; reflexivity|]. destruct l as [|y l]; [discriminate|]. cbn [is_prefix] in H.
  apply andb_true_iff in H as [E H]. apply Z.eqb_eq in E. subst y. destruct (IH l H) as (r & ->). exists r. reflexivity.
Qed.
Definition op_eqb (o p : op) : bool := (code o =? code p) && bytes_eqb (data o) (data p).
Lemma op_eqb_ok o p : op_wf o -> op_wf p -> (op_eqb o p = true <-> o = p).
Proof.
  intros H1 H2. unfold op_eqb. rewrite andb_true_iff, Z.eqb_eq, bytes_eqb_ok. split; [intros []; apply op_eq; assumption|intros ->; auto].
Qed.
Lemma prefix_is_op o p r : op_wf o -> op_wf p -> is_prefix (op_to_data p) (op_to_data o ++ r) = op_eqb o p.
Proof.
  intros H1 H2. destruct (op_eqb o p) eqn:E.
  - apply (op_eqb_ok o p H1 H2) in E. subst. apply is_prefix_app.
  - destruct (is_prefix _ _) eqn:F; [|reflexivity]. exfalso. apply is_prefix_true in F as (x & F).
    pose proof (next_op_complete o r H1) as A. rewrite F, (next_op_complete p x H2) in A. inversion A as [[A1 A2 A3]].
    assert (op_eqb o p = true) by (apply op_eqb_ok; try assumption; apply op_eq; congruence). congruence.
Qed.
Lemma firstn_prefix (a r : list Z) : firstn (length (a ++ r) - length r) (a ++ r) = a.
Proof. rewrite app_length. replace (length a + length r - length r)%nat with (length a) by lia. rewrite firstn_app, firstn_all, Nat.sub_diag. apply app_nil_r. Qed.
Lemma ops_cons o ops : ops_to_data (o :: ops) = op_to_data o ++ ops_to_data ops. Proof. reflexivity. Qed.
Lemma find_and_delete_ops p ops : op_wf p -> Forall op_wf ops -> forall fuel, (length (ops_to_data ops) <= fuel)%nat ->
  find_and_delete fuel (op_to_data p) (ops_to_data ops) = ops_to_data (filter (fun o => negb (op_eqb o p)) ops).
Proof.
  intros Hp H. induction H as [|o ops Ho _ IH]; intros fuel L.
  - destruct fuel; [reflexivity|]. destruct (op_data_nonempty p Hp) as (x & l & E). rewrite E. reflexivity.
  - rewrite ops_cons in *. destruct (op_data_nonempty o Ho) as (x & l & E). rewrite app_length in L. rewrite E in L. cbn [length] in L.
    destruct fuel as [|fuel]; [lia|]. cbn [find_and_delete filter]. rewrite prefix_is_op by assumption. destruct (op_eqb o p) eqn:Q; cbn [negb].
    + apply (op_eqb_ok o p Ho Hp) in Q. subst p. rewrite skipn_app, skipn_all, Nat.sub_diag. cbn [app skipn]. apply IH. lia.
    + rewrite next_op_complete by assumption. rewrite firstn_prefix, IH by lia. reflexivity.
Qed.
Lemma delete_separators_ops ops : Forall op_wf ops -> forall fuel, (length (ops_to_data ops) <= fuel)%nat ->
  delete_separators fuel (ops_to_data ops) = ops_to_data (filter (fun o => negb (code o =? 171)) ops).
Proof.
  induction 1 as [|o ops Ho _ IH]; intros fuel L; [destruct fuel; reflexivity|].
  rewrite ops_cons in *. destruct (op_data_nonempty o Ho) as (x & l & E). rewrite app_length in L. rewrite E in L. cbn [length] in L.
  destruct fuel as [|fuel]; [lia|]. cbn [delete_separators filter]. rewrite next_op_complete by assumption. rewrite firstn_prefix, IH by lia.
  destruct (code o =? 171); reflexivity.
Qed.
Lemma filter_wf f ops : Forall op_wf ops -> Forall op_wf (filter f ops).
Proof. induction 1; cbn [filter]; [constructor|]. destruct (f x); [constructor; assumption|assumption]. Qed.
Lemma filter_filter {A} (f g : A -> bool) l : filter f (filter g l) = filter (fun x => g x && f x) l.
Proof. induction l; [reflexivity|]. cbn [filter]. destruct (g a); cbn [andb filter]; [destruct (f a); rewrite IHl; reflexivity|exact IHl]. Qed.
Lemma filter_ext' {A} (f g : A -> bool) l : Forall (fun x => f x = g x) l -> filter f l = filter g l.
Proof. induction 1; [reflexivity|]. cbn [filter]. rewrite H, IHForall. reflexivity. Qed.
Lemma fold_delete sigs ops : Forall (fun d => bytes_ok d /\ len d <= 520) sigs -> Forall op_wf ops ->
  fold_left (fun x s => find_and_delete (length x) (direct_push s) x) sigs (ops_to_data ops) =
  ops_to_data (filter (fun o => negb (existsb (fun d => op_eqb o (push_op d)) sigs)) ops).
Proof.
  intros H. revert ops. induction H as [|d sigs [Hd Ld] _ IH]; intros ops Ho; cbn [fold_left existsb].
  - f_equal. induction ops as [|o ops IHo]; [reflexivity|]. cbn [filter negb]. f_equal. apply IHo. inversion Ho; assumption.
  - rewrite direct_push_op, find_and_delete_ops by (try apply push_op_wf; auto). rewrite IH by (apply filter_wf; assumption).
    f_equal. rewrite filter_filter. apply filter_ext'. apply Forall_forall. intros o _. rewrite negb_orb. reflexivity.
Qed.
Lemma strip_same sigs o : op_wf o -> contains (strips sigs) o = existsb (fun d => op_eqb o (push_op d)) sigs || (code o =? 171).
Proof.
  intros Ho. unfold contains, strips. rewrite existsb_app. f_equal.
  - induction sigs as [|d sigs IH]; [reflexivity|]. cbn [map existsb]. rewrite IH. reflexivity.
  - cbn [existsb]. rewrite orb_false_r. unfold strip_eq. cbn [fst snd]. destruct (Z.eqb_spec (code o) 171) as [E|]; [|reflexivity].
    destruct Ho as (_ & _ & _ & Hs). rewrite E in Hs. cbn in Hs. apply len_zero in Hs. rewrite Hs. reflexivity.
Qed.
(** The bytes of the stripped operations are the reference script code. *)
Lemma script_code_ops sigs ops : Forall (fun d => bytes_ok d /\ len d <= 520) sigs -> Forall op_wf ops ->
  script_code sigs (ops_to_data ops) = ops_to_data (filter (fun o => negb (contains (strips sigs) o)) ops).
Proof.
  intros H Ho. unfold script_code. rewrite fold_delete by assumption.
  rewrite delete_separators_ops by (try apply filter_wf; try assumption; apply le_n). f_equal. rewrite filter_filter.
  apply filter_ext'. eapply Forall_impl; [|exact Ho]. intros o Hw. cbv beta. rewrite strip_same by assumption. rewrite negb_orb. reflexivity.
Qed.
Lemma filter_all {A} (f : A -> bool) l : existsb f l = false -> filter (fun x => negb (f x)) l = l.
Proof. induction l; [reflexivity|]. cbn [existsb filter]. intros H. apply orb_false_iff in H as [-> H]. cbn [negb]. rewrite IHl by assumption. reflexivity. Qed.
Lemma skipn_Forall {A} (P : A -> Prop) n l : Forall P l -> Forall P (skipn n l).
Proof. intros H. rewrite <- (firstn_skipn n l) in H. apply Forall_app in H. tauto. Qed.
Lemma subscript_bytes (e : env) sigs s : Forall op_wf (escript e) -> Forall (fun d => bytes_ok d /\ len d <= 520) sigs ->
  ops_to_data (skipn (snd (subscript e sigs s)) (fst (subscript e sigs s))) =
  if witness_v0 e then ops_to_data (skipn (offset s) (escript e))
  else script_code sigs (ops_to_data (skipn (offset s) (escript e))).
Proof.
  intros He Hs. unfold subscript. change (enabled e bip143_rule && match eversion e with segwit => true | _ => false end) with (witness_v0 e).
  destruct (witness_v0 e); [reflexivity|]. rewrite script_code_ops by (try assumption; apply skipn_Forall; assumption).
  destruct (existsb (contains (strips sigs)) (skipn (offset s) (escript e))) eqn:X; cbn [negb fst snd]; [reflexivity|].
  rewrite filter_all by assumption. reflexivity.
Qed.
