(** What single operations leave unchanged, and runs of script prefixes. *)
From Verif Require Import Base Bytes MathModel NumberModel OpModel InterpEnv InterpModel.

(** Nothing but the stacks, the offset and the hash cache changes. *)
Definition frame (s s' : st) : Prop :=
  cond s' = cond s /\ neg s' = neg s /\ operations s' = operations s /\ budget s' = budget s.
Lemma frame_refl s : frame s s. Proof. repeat split. Qed.
Lemma frame_trans a b c : frame a b -> frame b c -> frame a c.
Proof. intros (A1 & A2 & A3 & A4) (B1 & B2 & B3 & B4). unfold frame. repeat split; congruence. Qed.
Lemma frame_prim p s : frame s (set_prim p s). Proof. repeat split. Qed.
Lemma frame_alt p s : frame s (set_alt p s). Proof. repeat split. Qed.
Lemma frame_offset p s : frame s (set_offset p s). Proof. repeat split. Qed.
Lemma frame_cache p s : frame s (set_cache p s). Proof. repeat split. Qed.

Lemma drop_frame s s' : drop_ s = Some s' -> frame s s'.
Proof. unfold drop_. destruct (prim s); [discriminate|]. intros [= <-]. apply frame_prim. Qed.
Lemma pop_frame s v s' : pop_ s = Some (v, s') -> frame s s'.
Proof. unfold pop_. destruct (prim s); [discriminate|]. intros [= _ <-]. apply frame_prim. Qed.
Lemma swap_frame i j s s' : swap_ i j s = Some s' -> frame s s'.
Proof. unfold swap_. destruct (nth_error _ i); [|discriminate]. cbn [obind]. destruct (nth_error _ j); [|discriminate]. intros [= <-]. apply frame_prim. Qed.
Lemma erase_frame i s s' : erase_ i s = Some s' -> frame s s'.
Proof. unfold erase_. destruct (i <? _)%nat; [|discriminate]. intros [= <-]. apply frame_prim. Qed.
Lemma dup_at_frame i s s' : dup_at i s = Some s' -> frame s s'.
Proof. unfold dup_at. destruct (peek_ i s); [|discriminate]. intros [= <-]. apply frame_prim. Qed.
Lemma push_length_frame n s s' : push_length n s = Some s' -> frame s s'.
Proof. unfold push_length. destruct (n <=? _); [|discriminate]. intros [= <-]. apply frame_prim. Qed.
Lemma pop_chunk_frame s c s' : pop_chunk_ s = Some (c, s') -> frame s s'.
Proof.
  unfold pop_chunk_. destruct (top s); [|discriminate]. cbn [obind]. destruct (variant_chunk v); [|discriminate]. cbn [obind].
  destruct (drop_ s) eqn:E; [|discriminate]. intros [= _ <-]. apply drop_frame, E.
Qed.
Lemma pop_n_frame n : forall s l s', pop_n n s = Some (l, s') -> frame s s'.
Proof.
  induction n as [|n IH]; intros s l s'; cbn [pop_n]; [intros [= _ <-]; apply frame_refl|].
  destruct (pop_chunk_ s) as [[c s1]|] eqn:E; [|discriminate]. cbn [obind]. destruct (pop_n n s1) as [[t s2]|] eqn:E2; [|discriminate].
  intros [= _ <-]. eapply frame_trans; [eapply pop_chunk_frame, E|eapply IH, E2].
Qed.
Lemma pop_chunks_frame n s l s' : pop_chunks n s = Some (l, s') -> frame s s'.
Proof.
  unfold pop_chunks. destruct (_ <? _); [intros [= _ <-]; apply frame_refl|]. destruct (pop_n _ s) as [[t s2]|] eqn:E; [|discriminate].
  intros [= _ <-]. eapply pop_n_frame, E.
Qed.
Lemma pop_strict_frame s b s' : pop_strict_bool_ s = Some (b, s') -> frame s s'.
Proof. unfold pop_strict_bool_. destruct (top s); [|discriminate]. cbn [obind]. destruct (drop_ s) eqn:E; [|discriminate]. intros [= _ <-]. apply drop_frame, E. Qed.
Lemma pop_bool_frame m s b s' : pop_bool_ m s = Some (b, s') -> frame s s'.
Proof.
  unfold pop_bool_. destruct (top s); [|discriminate]. cbn [obind]. destruct (negb m).
  - destruct (drop_ s) eqn:E; [|discriminate]. intros [= _ <-]. apply drop_frame, E.
  - destruct (variant_minimal_bool v) as [g x]. destruct (negb g); [intros [= _ <-]; apply frame_refl|].
    destruct (drop_ s) eqn:E; [|discriminate]. intros [= _ <-]. apply drop_frame, E.
Qed.
Lemma pop_signed_frame s v s' : pop_signed32_ s = Some (v, s') -> frame s s'.
Proof.
  unfold pop_signed32_. destruct (top s); [|discriminate]. cbn [obind]. destruct (variant_signed 4 v0) as [[g x]|]; [|discriminate]. cbn [obind].
  destruct (drop_ s) eqn:E; [|discriminate]. intros [= _ <-]. apply drop_frame, E.
Qed.
Lemma pop_signed32_frame s v s' : pop_signed32 s = Some (v, s') -> frame s s'.
Proof. unfold pop_signed32. destruct (is_stack_empty s); [intros [= _ <-]; apply frame_refl|apply pop_signed_frame]. Qed.
Lemma pop_index_frame s v s' : pop_index32 s = Some (v, s') -> frame s s'.
Proof. unfold pop_index32. destruct (pop_signed32 s) as [[x s1]|] eqn:E; [|discriminate]. intros [= _ <-]. eapply pop_signed32_frame, E. Qed.
Lemma pop_binary_frame s v s' : pop_binary32 s = Some (v, s') -> frame s s'.
Proof.
  unfold pop_binary32. destruct (_ <? 2); [intros [= _ <-]; apply frame_refl|]. destruct (pop_signed32_ s) as [[x s1]|] eqn:E; [|discriminate]. cbn [obind].
  apply pop_signed_frame in E. destruct x; [|intros [= _ <-]; exact E]. destruct (pop_signed32_ s1) as [[y s2]|] eqn:E2; [|discriminate].
  intros [= _ <-]. eapply frame_trans; [exact E|eapply pop_signed_frame, E2].
Qed.
Lemma pop_ternary_frame s v s' : pop_ternary32 s = Some (v, s') -> frame s s'.
Proof.
  unfold pop_ternary32. destruct (_ <? 3); [intros [= _ <-]; apply frame_refl|]. destruct (pop_signed32_ s) as [[x s1]|] eqn:E; [|discriminate]. cbn [obind].
  apply pop_signed_frame in E. destruct x; [|intros [= _ <-]; exact E]. destruct (pop_signed32_ s1) as [[y s2]|] eqn:E2; [|discriminate]. cbn [obind].
  apply pop_signed_frame in E2. destruct y; [|intros [= _ <-]; eapply frame_trans; eassumption].
  destruct (pop_signed32_ s2) as [[w s3]|] eqn:E3; [|discriminate]. intros [= _ <-]. apply pop_signed_frame in E3. eauto using frame_trans.
Qed.

(** [frame] through an outcome. *)
Definition framed (s : st) (x : outcome) : Prop := forall c s', x = Some (c, s') -> frame s s'.
Lemma framed_ret c s s' : frame s s' -> framed s (ret c s').
Proof. intros H c' s1 [= _ <-]. exact H. Qed.
Lemma framed_bind {A} (x : option A) (f : A -> outcome) s : (forall a, x = Some a -> framed s (f a)) -> framed s (obind x f).
Proof. intros H. destruct x; [apply H; reflexivity|intros c s' [=]]. Qed.
Ltac collect :=
  repeat match goal with
  | H : drop_ _ = Some _ |- _ => apply drop_frame in H
  | H : pop_ _ = Some _ |- _ => apply pop_frame in H
  | H : swap_ _ _ _ = Some _ |- _ => apply swap_frame in H
  | H : erase_ _ _ = Some _ |- _ => apply erase_frame in H
  | H : dup_at _ _ = Some _ |- _ => apply dup_at_frame in H
  | H : push_length _ _ = Some _ |- _ => apply push_length_frame in H
  | H : pop_chunk_ _ = Some _ |- _ => apply pop_chunk_frame in H
  | H : pop_chunks _ _ = Some _ |- _ => apply pop_chunks_frame in H
  | H : pop_bool_ _ _ = Some _ |- _ => apply pop_bool_frame in H
  | H : pop_strict_bool_ _ = Some _ |- _ => apply pop_strict_frame in H
  | H : pop_signed32_ _ = Some _ |- _ => apply pop_signed_frame in H
  | H : pop_signed32 _ = Some _ |- _ => apply pop_signed32_frame in H
  | H : pop_index32 _ = Some _ |- _ => apply pop_index_frame in H
  | H : pop_binary32 _ = Some _ |- _ => apply pop_binary_frame in H
  | H : pop_ternary32 _ = Some _ |- _ => apply pop_ternary_frame in H
  end.
Ltac chain := unfold push_bool, push_chunk, push_signed64, push_variant; collect;
  repeat match goal with
  | |- frame ?s ?s => apply frame_refl
  | H : frame ?s ?s' |- frame ?s ?s' => exact H
  | |- frame _ (set_prim _ _) => eapply frame_trans; [|apply frame_prim]
  | |- frame _ (set_alt _ _) => eapply frame_trans; [|apply frame_alt]
  | |- frame _ (set_offset _ _) => eapply frame_trans; [|apply frame_offset]
  | |- frame _ (set_cache _ _) => eapply frame_trans; [|apply frame_cache]
  | H : frame ?a ?b |- frame _ ?b => eapply frame_trans; [|exact H]
  end.
Ltac frames :=
  repeat (cbv beta iota zeta; match goal with
  | |- framed _ (ret _ _) => apply framed_ret; chain
  | |- framed _ (obind _ _) => apply framed_bind; intros ? ?
  | |- framed _ (if ?b then _ else _) => destruct b eqn:?
  | |- framed _ (match ?x with _ => _ end) => destruct x eqn:?
  | |- framed _ (op_nop _) => unfold op_nop
  end).
Section Frame.
Variable e : env.
Lemma lookup_in {A} c (t : list (Z * A)) a : lookup c t = Some a -> In (c, a) t.
Proof. induction t as [|[k x] t IH]; [discriminate|]. cbn [lookup]. destruct (Z.eqb_spec k c) as [->|]; [intros [= ->]; left; reflexivity|right; auto]. Qed.
Definition special (c : Z) : bool := one_of c [99; 100; 103; 104; 172; 173; 174; 175; 186].
Lemma simple_framed c f s : lookup c (simple_table e) = Some f -> special c = false -> framed s (f s).
Proof.
  intros H S. apply lookup_in in H. cbn in H.
  repeat (destruct H as [H|H]; [injection H as <- <-; try discriminate S; clear S|]); [..|contradiction].
  all: try (apply framed_ret; apply frame_refl).
  all: unfold op_verify, op_to_alt_stack, op_from_alt_stack, op_drop2, op_dup2, op_dup3, op_over2, op_rot2, op_swap2, op_if_dup, op_depth, op_drop,
   op_dup, op_nip, op_over, op_pick, op_roll, op_rot, op_swap, op_tuck, op_size_, op_equal, op_equal_verify, op_num_equal_verify, op_within,
   op_check_locktime_verify, op_check_sequence_verify.
  all: frames.
Qed.
Lemma run_op_framed position o s : special (code o) = false -> framed s (run_op e position o s).
Proof.
  intros S. unfold run_op. repeat match goal with |- framed _ (if ?b then _ else _) => destruct b end;
   try (unfold op_push_number, op_push, op_codeseparator; frames; fail).
  destruct (lookup (code o) (simple_table e)) as [f|] eqn:E; [eapply simple_framed; eassumption|].
  destruct (lookup (code o) unary_table) as [u|]; [unfold op_unary; frames|].
  destruct (lookup (code o) binary_table) as [b|]; [unfold op_binary; frames|].
  destruct (lookup (code o) (hash_table e)) as [h|]; [unfold op_hash; frames|]. frames.
Qed.
(** The special operations. *)
Lemma one_of_in c l : one_of c l = true -> In c l.
Proof. unfold one_of. intros H. apply existsb_exists in H as (x & I & E). apply Z.eqb_eq in E. subst. exact I. Qed.
End Frame.
