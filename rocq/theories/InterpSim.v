(** Simulation between the interpreter model and the reference evaluator: the
    relation between states, and the operations that only touch the stacks. *)
From Verif Require Import Base Bytes MathModel NumberModel NumberSpec NumberProofs NumberProps OpModel OpSpec OpProofs
  InterpEnv InterpModel InterpSpec InterpElem.

(** An element stands for bytes of a length that a size_t count can express. *)
Definition elem (v : variant) (b : list Z) : Prop := element_bytes v b /\ len b <= 520.
(** Condition stacks: equal while all true; otherwise equal from the bottom up to
    and including the lowest false. *)
Definition cond_rel (c : list bool) (v : list bool) (n : Z) : Prop :=
  n = len (filter negb c) /\
  ((c = v /\ forallb (fun b => b) c = true) \/
   exists x y t, c = x ++ false :: t /\ v = y ++ false :: t /\ length x = length y /\ forallb (fun b => b) t = true).

Definition hash_ok (h : list Z -> list Z) : Prop := forall b, bytes_ok b -> bytes_ok (h b) /\ len (h b) <= 520.
(** What the constructors of a program establish. *)
Definition ctx_ok (k : ctx) : Prop :=
  (Z.testbit (eflags k) bip342_rule = true -> eversion k = taproot) /\
  hash_ok (h_ripemd160 k) /\ hash_ok (h_sha1 k) /\ hash_ok (h_sha256 k) /\ hash_ok (h_hash160 k) /\ hash_ok (h_hash256 k) /\
  fits u32 (e_sequence k) /\ fits u32 (e_locktime k) /\ fits u32 (e_txversion k).

Section Sim.
Variable e : env.
Hypothesis K : ctx_ok e.

Record R (s : st) (r : rst) : Prop := mkR {
  R_prim : Forall2 elem (prim s) (stk r);
  R_alt : Forall2 elem (alt s) (astk r);
  R_cond : cond_rel (cond s) (vf r) (neg s);
  R_ops : operations s = nops r;
  R_budget : tapscript e = true -> budget s = weight r + 1 /\ 0 <= weight r < 2 ^ 63;
  R_code : ops_to_data (skipn (offset s) (escript e)) = code_from r;
  R_pos : subscript_v1 (escript e, offset s) = sep_pos r;
  R_cache : tapscript e = true -> forall f h, cache s = Some (f, h) -> sighash_v1 e (sep_pos r) f = Some h
}.
Definition sim (x : outcome) (y : option rst) : Prop :=
  match x with
  | None => False
  | Some (c, s) => match y with Some r => c = op_success /\ R s r | None => c <> op_success end
  end.

Lemma sim_fail c s : c <> op_success -> sim (ret c s) None. Proof. intros H. exact H. Qed.
Lemma sim_ok s r : R s r -> sim (ret op_success s) (Some r). Proof. intros H. split; [reflexivity|exact H]. Qed.

Lemma R_set_prim s r p t : R s r -> Forall2 elem p t -> R (set_prim p s) (with_stk t r).
Proof. intros [] H. constructor; assumption. Qed.
Lemma R_set_both s r p t a b : R s r -> Forall2 elem p t -> Forall2 elem a b -> R (set_alt a (set_prim p s)) (with_alt t b r).
Proof. intros [] H H'. constructor; assumption. Qed.

Lemma elem_int v : fits i64 v -> v <> imin i64 -> elem (VInt v) (script_num v).
Proof.
  intros Hf Hm. pose proof (script_num_elem v Hf Hm) as H. split; [exact H|]. destruct H as (_ & _ & Hok & Hmin & Hv).
  apply Z.le_trans with 9; [|lia]. apply (minimal_len_le _ 9 Hok Hmin ltac:(lia)). rewrite Hv.
  unfold fits, imin, imax in *. cbn in *. lia.
Qed.
Lemma elem_small v : - 2 ^ 62 <= v <= 2 ^ 62 -> elem (VInt v) (script_num v).
Proof. intros H. apply elem_int; unfold fits, imin, imax; cbn in *; lia. Qed.
Lemma elem_vbool b : elem (VBool b) (bool_bytes b).
Proof. split; [reflexivity|]. destruct b; cbn; lia. Qed.
Lemma elem_vchunk c : bytes_ok c -> len c <= 520 -> elem (VChunk c) c.
Proof. intros H1 H2. repeat split; assumption. Qed.
Lemma elem_chunk v b : elem v b -> variant_chunk v = Some b.
Proof. intros [H _]. apply element_bytes_chunk, H. Qed.

Lemma size_lt2 s : (stack_size s <? 2) = match prim s with _ :: _ :: _ => false | _ => true end.
Proof. unfold stack_size. destruct (prim s) as [|a [|b l]]; [reflexivity|reflexivity|]. rewrite !len_cons. pose proof (len_nonneg l). destruct (Z.ltb_spec (1 + (1 + len l)) 2); [lia|reflexivity]. Qed.
Lemma size_lt3 s : (stack_size s <? 3) = match prim s with _ :: _ :: _ :: _ => false | _ => true end.
Proof. unfold stack_size. destruct (prim s) as [|a [|b [|c l]]]; try reflexivity. rewrite !len_cons. pose proof (len_nonneg l). destruct (Z.ltb_spec (1 + (1 + (1 + len l))) 3); [lia|reflexivity]. Qed.
Lemma size_lt4 s : (stack_size s <? 4) = match prim s with _ :: _ :: _ :: _ :: _ => false | _ => true end.
Proof. unfold stack_size. destruct (prim s) as [|a [|b [|c [|d l]]]]; try reflexivity. rewrite !len_cons. pose proof (len_nonneg l). destruct (Z.ltb_spec (1 + (1 + (1 + (1 + len l)))) 4); [lia|reflexivity]. Qed.
Lemma size_lt6 s : (stack_size s <? 6) = match prim s with _ :: _ :: _ :: _ :: _ :: _ :: _ => false | _ => true end.
Proof. unfold stack_size. destruct (prim s) as [|a [|b [|c [|d [|f [|g l]]]]]]; try reflexivity. rewrite !len_cons. pose proof (len_nonneg l). destruct (Z.ltb_spec (1 + (1 + (1 + (1 + (1 + (1 + len l)))))) 6); [lia|reflexivity]. Qed.

(** Open both states on their stacks. *)
Ltac open H :=
  match type of H with R ?s ?r =>
    let P := fresh "P" in pose proof (R_prim _ _ H) as P;
    destruct s as [sp sa sc sn so sb sf sh], r as [rs ra rv rn rw rc rp];
    cbn [prim stk] in P
  end.
Ltac peel :=
  repeat match goal with
  | P : Forall2 elem _ ?l |- _ => match l with [] => fail 1 | _ :: _ => fail 1 | _ => is_var l; destruct l end
  | P : Forall2 elem _ [] |- _ => inversion P; subst; clear P
  | P : Forall2 elem _ (_ :: _) |- _ => inversion P; subst; clear P
  end.
Ltac done_prim H :=
  apply sim_ok; eapply (R_set_prim _ _ _ _ H); repeat (first [assumption | constructor]).

Lemma F2_cons_r (P : variant -> list Z -> Prop) l b t : Forall2 P l (b :: t) -> exists v m, l = v :: m /\ P v b /\ Forall2 P m t.
Proof. intros H. inversion H; subst. eauto. Qed.
Lemma F2_nil_r (P : variant -> list Z -> Prop) l : Forall2 P l [] -> l = [].
Proof. intros H. inversion H. reflexivity. Qed.
Ltac step P :=
  match type of P with
  | Forall2 elem ?l ?t =>
    let b := fresh "b" in let t' := fresh "t" in
    destruct t as [|b t'];
    [apply F2_nil_r in P; subst l |
     let v := fresh "v" in let m := fresh "m" in let E := fresh "E" in let Q := fresh "Q" in
     apply F2_cons_r in P as (v & m & E & Q & P); subst l]
  end.
Ltac finish H :=
  cbn -[sim ret]; first [ now (apply sim_fail; discriminate) | done_prim H ].

Lemma F2_len l t : Forall2 elem l t -> len l = len t.
Proof. induction 1; [reflexivity|]. rewrite !len_cons, IHForall2. reflexivity. Qed.

Lemma sim_drop2 s r : R s r -> sim (op_drop2 s) (lift (stack_word 109) r).
Proof. intros H. open H. unfold op_drop2. rewrite size_lt2. step P; [finish H|]. step P; [finish H|]. finish H. Qed.
Lemma sim_dup2 s r : R s r -> sim (op_dup2 s) (lift (stack_word 110) r).
Proof. intros H. open H. unfold op_dup2. rewrite size_lt2. step P; [finish H|]. step P; [finish H|]. finish H. Qed.
Lemma sim_dup3 s r : R s r -> sim (op_dup3 s) (lift (stack_word 111) r).
Proof. intros H. open H. unfold op_dup3. rewrite size_lt3. do 3 (step P; [finish H|]). finish H. Qed.
Lemma sim_over2 s r : R s r -> sim (op_over2 s) (lift (stack_word 112) r).
Proof. intros H. open H. unfold op_over2. rewrite size_lt4. do 4 (step P; [finish H|]). finish H. Qed.
Lemma sim_rot2 s r : R s r -> sim (op_rot2 s) (lift (stack_word 113) r).
Proof. intros H. open H. unfold op_rot2. rewrite size_lt6. do 6 (step P; [finish H|]). finish H. Qed.
Lemma sim_swap2 s r : R s r -> sim (op_swap2 s) (lift (stack_word 114) r).
Proof. intros H. open H. unfold op_swap2. rewrite size_lt4. do 4 (step P; [finish H|]). finish H. Qed.
Lemma sim_drop s r : R s r -> sim (op_drop s) (lift (stack_word 117) r).
Proof. intros H. open H. unfold op_drop. do 1 (step P; [finish H|]). finish H. Qed.
Lemma sim_dup s r : R s r -> sim (op_dup s) (lift (stack_word 118) r).
Proof. intros H. open H. unfold op_dup. do 1 (step P; [finish H|]). finish H. Qed.
Lemma sim_nip s r : R s r -> sim (op_nip s) (lift (stack_word 119) r).
Proof. intros H. open H. unfold op_nip. rewrite size_lt2. do 2 (step P; [finish H|]). finish H. Qed.
Lemma sim_over s r : R s r -> sim (op_over s) (lift (stack_word 120) r).
Proof. intros H. open H. unfold op_over. rewrite size_lt2. do 2 (step P; [finish H|]). finish H. Qed.
Lemma sim_rot s r : R s r -> sim (op_rot s) (lift (stack_word 123) r).
Proof. intros H. open H. unfold op_rot. rewrite size_lt3. do 3 (step P; [finish H|]). finish H. Qed.
Lemma sim_swap s r : R s r -> sim (op_swap s) (lift (stack_word 124) r).
Proof. intros H. open H. unfold op_swap. rewrite size_lt2. do 2 (step P; [finish H|]). finish H. Qed.
Lemma sim_tuck s r : R s r -> sim (op_tuck s) (lift (stack_word 125) r).
Proof. intros H. open H. unfold op_tuck. rewrite size_lt2. do 2 (step P; [finish H|]). finish H. Qed.

Lemma sim_verify s r : R s r -> sim (op_verify s) (lift (stack_word 105) r).
Proof.
  intros H. open H. unfold op_verify. step P; [finish H|]. cbn [is_stack_empty prim peek_bool_ top hd_error obind].
  rewrite (elem_bool _ _ (proj1 Q)). unfold lift; cbn [stk stack_word]. destruct (cast_to_bool b); finish H.
Qed.
Lemma sim_if_dup s r : R s r -> sim (op_if_dup s) (lift (stack_word 115) r).
Proof.
  intros H. open H. unfold op_if_dup. step P; [finish H|]. cbn [is_stack_empty prim peek_bool_ top hd_error obind].
  rewrite (elem_bool _ _ (proj1 Q)). unfold lift; cbn [stk stack_word]. destruct (cast_to_bool b); [finish H|].
  apply sim_ok. apply (R_set_prim _ _ (v :: m) (b :: t) H). constructor; assumption.
Qed.
Lemma sim_depth s r : R s r -> len (prim s) <= 2 ^ 62 -> sim (op_depth s) (lift (stack_word 116) r).
Proof.
  intros H L. open H. unfold op_depth, push_length, stack_size. cbn [prim] in *. pose proof (len_nonneg sp).
  destruct (Z.leb_spec (len sp) (imax i64)) as [C|C]; [|unfold imax in C; cbn in C; lia]. cbn [obind].
  unfold lift. cbn [stk stack_word]. rewrite <- (F2_len _ _ P).
  replace (match rs with [] => Some (script_num (len sp) :: rs) | _ => Some (script_num (len sp) :: rs) end) with (Some (script_num (len sp) :: rs)) by (destruct rs; reflexivity).
  apply sim_ok. apply (R_set_prim _ _ (VInt (len sp) :: sp) (script_num (len sp) :: rs) H). constructor; [apply elem_small; lia|exact P].
Qed.
Lemma sim_size s r : R s r -> sim (op_size_ s) (lift (stack_word 130) r).
Proof.
  intros H. open H. unfold op_size_. step P; [finish H|]. cbn [is_stack_empty prim top hd_error obind].
  unfold variant_size. rewrite (elem_chunk _ _ Q). cbn [omap obind]. destruct Q as [Q1 Q2]. pose proof (len_nonneg b). unfold push_length.
  destruct (Z.leb_spec (len b) (imax i64)) as [C|C]; [|unfold imax in C; cbn in C; lia]. cbn [obind].
  apply sim_ok. apply (R_set_prim _ _ (VInt (len b) :: v :: m) (script_num (len b) :: b :: t) H).
  constructor; [apply elem_small; lia|]. constructor; [split; assumption|exact P].
Qed.
Lemma sim_equal s r : R s r -> sim (op_equal s) (lift (stack_word 135) r).
Proof.
  intros H. open H. unfold op_equal. rewrite size_lt2. do 2 (step P; [finish H|]).
  cbn [prim pop_ obind set_prim]. rewrite (elem_eq _ _ _ _ (proj1 Q) (proj1 Q0)). unfold lift; cbn [obind stk stack_word].
  apply sim_ok. apply (R_set_prim _ _ (VBool (same_bytes b b0) :: m0) (bool_bytes (same_bytes b b0) :: t0) H). constructor; [apply elem_vbool|exact P].
Qed.
Lemma sim_equal_verify s r : R s r -> sim (op_equal_verify s) (lift (stack_word 136) r).
Proof.
  intros H. open H. unfold op_equal_verify. rewrite size_lt2. do 2 (step P; [finish H|]).
  cbn [prim pop_ obind set_prim]. rewrite (elem_eq _ _ _ _ (proj1 Q) (proj1 Q0)). unfold lift; cbn [obind stk stack_word].
  destruct (same_bytes b b0); [|apply sim_fail; discriminate].
  apply sim_ok. apply (R_set_prim _ _ m0 t0 H). exact P.
Qed.
Lemma sim_to_alt s r : R s r -> sim (op_to_alt_stack s)
  (match stk r with a :: t => Some (with_alt t (a :: astk r) r) | [] => None end).
Proof.
  intros H. pose proof (R_alt _ _ H) as A. open H. unfold op_to_alt_stack. step P; [finish H|]. cbn in A.
  cbn. apply sim_ok. apply (R_set_both _ _ m t (v :: sa) (b :: ra) H); [assumption|constructor; assumption].
Qed.
Lemma sim_from_alt s r : R s r -> sim (op_from_alt_stack s)
  (match astk r with a :: t => Some (with_alt (a :: stk r) t r) | [] => None end).
Proof.
  intros H. pose proof (R_alt _ _ H) as A. open H. unfold op_from_alt_stack. cbn [alt astk] in *.
  destruct ra as [|b ra]; [apply F2_nil_r in A; subst sa; apply sim_fail; discriminate|].
  apply F2_cons_r in A as (v & m & -> & Q & A). apply sim_ok.
  apply (R_set_both _ _ (v :: sp) (b :: rs) m ra H); [constructor; assumption|assumption].
Qed.

(** ** Numbers. *)
Definition sees4 (v : variant) (b : list Z) := exists g n, variant_signed 4 v = Some (g, n) /\ number 4 b = (if g : bool then Some n else None).
Lemma elem_num4 v b : elem v b -> sees4 v b.
Proof. intros [H _]. apply elem_signed; [lia|exact H]. Qed.
Lemma number4_range b n : bytes_ok b -> number 4 b = Some n -> - 2147483647 <= n <= 2147483647.
Proof.
  intros Hok. unfold number. destruct (Z.leb_spec (len b) 4) as [C|C]; [|discriminate]. intros E; inversion E; subst n.
  destruct (list_eq_dec Z.eq_dec b []) as [->|N]; [cbn; lia|]. pose proof (magnitude_bound b Hok N) as B.
  assert (2 ^ (8 * len b - 1) <= 2 ^ 31) by (apply Z.pow_le_mono_r; lia).
  unfold script_value. destruct (_ <? _); lia.
Qed.
Lemma elem_range v b n : elem v b -> number 4 b = Some n -> - 2147483647 <= n <= 2147483647.
Proof. intros [H _]. apply number4_range. eapply element_ok, H. Qed.

Lemma pop_signed32_cons s v b p : elem v b -> prim s = v :: p ->
  pop_signed32_ s = Some (number 4 b, set_prim p s).
Proof.
  intros Q E. destruct (elem_num4 v b Q) as (g & n & E1 & E2). unfold pop_signed32_, top, drop_. rewrite E. cbn [hd_error obind].
  rewrite E1. cbn [obind]. rewrite E2. destruct g; reflexivity.
Qed.
Lemma arith_ok n : - 2 ^ 62 <= n <= 2 ^ 62 -> arith i64 n = Some n.
Proof. intros H. unfold arith. cbn [sg i64]. destruct (fitsb i64 n) eqn:E; [reflexivity|]. apply fitsb_false in E. exfalso. apply E. unfold fits, imin, imax. cbn in *. lia. Qed.

Lemma sim_pick s r : R s r -> len (prim s) <= 2 ^ 62 -> sim (op_pick s) (lift (stack_word 121) r).
Proof.
  intros H L. open H. unfold op_pick, pop_index32, pop_signed32. step P; [finish H|]. cbn [is_stack_empty prim].
  erewrite (pop_signed32_cons _ v b m Q); [|reflexivity]. unfold lift; cbn [obind stk stack_word].
  destruct (number 4 b) as [n|] eqn:En; [|apply sim_fail; discriminate].
  pose proof (F2_len _ _ P) as Lm. unfold stack_size. cbn [set_prim prim]. rewrite Lm.
  destruct (Z.ltb_spec n 0) as [C|C], (Z.leb_spec 0 n) as [D|D]; try lia; cbn [andb]; [apply sim_fail; discriminate|].
  destruct (Z.ltb_spec n (len t)) as [F|F]; [|apply sim_fail; discriminate].
  unfold dup_at, peek_. cbn [prim set_prim]. assert (Lt : (Z.to_nat n < length m)%nat) by (unfold len in *; lia).
  destruct (nth_error m (Z.to_nat n)) as [w|] eqn:Ew; [|apply nth_error_None in Ew; lia]. cbn [obind].
  assert (Qw : elem w (nth (Z.to_nat n) t [])).
  { clear - P Ew. revert m t P Ew. induction (Z.to_nat n) as [|i IH]; intros m t P Ew; inversion P; subst; try discriminate; cbn in *.
    - inversion Ew; subst; assumption.
    - eapply IH; eassumption. }
  apply sim_ok. apply (R_set_prim _ _ (w :: m) (nth (Z.to_nat n) t [] :: t) H). constructor; assumption.
Qed.
Lemma F2_remove i : forall m t, Forall2 elem m t -> Forall2 elem (firstn i m ++ skipn (S i) m) (firstn i t ++ skipn (S i) t).
Proof.
  induction i as [|i IH]; intros m t P; inversion P; subst; cbn [firstn skipn app]; try assumption; try constructor; try assumption.
  apply (IH l l'). assumption.
Qed.
Lemma F2_nth i : forall m t w, Forall2 elem m t -> nth_error m i = Some w -> elem w (nth i t []).
Proof. induction i; intros m t w P E; inversion P; subst; try discriminate; cbn in *; [inversion E; subst; assumption|eapply IHi; eassumption]. Qed.
Lemma sim_roll s r : R s r -> len (prim s) <= 2 ^ 62 -> sim (op_roll s) (lift (stack_word 122) r).
Proof.
  intros H L. open H. unfold op_roll, pop_index32, pop_signed32. step P; [finish H|]. cbn [is_stack_empty prim].
  erewrite (pop_signed32_cons _ v b m Q); [|reflexivity]. unfold lift; cbn [obind stk stack_word].
  destruct (number 4 b) as [n|] eqn:En; [|apply sim_fail; discriminate].
  pose proof (F2_len _ _ P) as Lm. unfold stack_size. cbn [set_prim prim]. rewrite Lm.
  destruct (Z.ltb_spec n 0) as [C|C], (Z.leb_spec 0 n) as [D|D]; try lia; cbn [andb]; [apply sim_fail; discriminate|].
  destruct (Z.ltb_spec n (len t)) as [F|F]; [|apply sim_fail; discriminate].
  unfold peek_, erase_. cbn [prim set_prim]. assert (Lt : (Z.to_nat n < length m)%nat) by (unfold len in *; lia).
  destruct (nth_error m (Z.to_nat n)) as [w|] eqn:Ew; [|apply nth_error_None in Ew; lia]. cbn [obind].
  destruct (Nat.ltb_spec (Z.to_nat n) (length m)); [|lia]. cbn [obind].
  apply sim_ok. apply (R_set_prim _ _ (w :: firstn (Z.to_nat n) m ++ skipn (S (Z.to_nat n)) m)
    (nth (Z.to_nat n) t [] :: firstn (Z.to_nat n) t ++ skipn (S (Z.to_nat n)) t) H).
  constructor; [eapply F2_nth; eassumption|apply F2_remove; assumption].
Qed.
Ltac push_int H := apply sim_ok; eapply (R_set_prim _ _ (VInt _ :: _) (script_num _ :: _) H); constructor; [apply elem_small; lia|assumption].
Ltac push_b H := apply sim_ok; eapply (R_set_prim _ _ (VBool _ :: _) (bool_bytes _ :: _) H); constructor; [apply elem_vbool|assumption].
Lemma sim_unary c u s r : lookup c unary_table = Some u -> R s r -> sim (op_unary u s) (lift (arithmetic_word c) r).
Proof.
  intros Hc H. open H. unfold op_unary, pop_signed32. step P; [cbn; discriminate|].
  cbn [is_stack_empty prim]. erewrite (pop_signed32_cons _ v b m Q); [|reflexivity]. cbn [obind].
  unfold lift. cbn [stk arithmetic_word]. destruct (number 4 b) as [n|] eqn:En; [|apply sim_fail; discriminate].
  pose proof (elem_range _ _ _ Q En) as B. cbn [set_prim].
  unfold unary_table in Hc. cbn [lookup] in Hc.
  repeat match type of Hc with (if ?a =? ?b then _ else _) = _ => destruct (Z.eqb_spec a b) as [<-|_]; [inversion Hc; subst u; clear Hc|] end; [..|discriminate].
  all: cbn [unary_word].
  - rewrite arith_ok by lia. cbn [obind]. push_int H.
  - rewrite arith_ok by lia. cbn [obind]. push_int H.
  - rewrite arith_ok by lia. cbn [obind]. push_int H.
  - replace (if n <? 0 then - n else n) with (Z.abs n) by (destruct (Z.ltb_spec n 0); lia). rewrite arith_ok by lia. cbn [obind]. push_int H.
  - push_b H.
  - push_b H.
Qed.
Lemma pop_binary32_cons s a b v w p : elem v a -> elem w b -> prim s = v :: w :: p ->
  exists q, pop_binary32 s = Some (match number 4 a, number 4 b with Some n, Some m => Some (m, n) | _, _ => None end, q) /\
    (number 4 a <> None -> q = set_prim p s).
Proof.
  intros Q1 Q2 E. unfold pop_binary32. rewrite size_lt2, E. rewrite (pop_signed32_cons s v a (w :: p) Q1 E). cbn [obind].
  destruct (number 4 a) as [n|] eqn:En; [|eexists; split; [reflexivity|congruence]].
  rewrite (pop_signed32_cons (set_prim (w :: p) s) w b p Q2 eq_refl). cbn [obind].
  eexists. split; [destruct (number 4 b); reflexivity|reflexivity].
Qed.
Lemma sim_binary c o s r : lookup c binary_table = Some o -> R s r -> sim (op_binary o s) (lift (arithmetic_word c) r).
Proof.
  intros Hc H. assert (Hu : forall n, unary_word c n = None).
  { intros n. unfold binary_table in Hc. cbn [lookup] in Hc.
    repeat match type of Hc with (if ?a =? ?b then _ else _) = _ => destruct (Z.eqb_spec a b) as [<-|_]; [reflexivity|] end; discriminate. }
  open H. unfold op_binary, lift. cbn [stk arithmetic_word].
  step P; [cbn; discriminate|]. step P.
  { unfold pop_binary32. rewrite size_lt2. cbn [prim obind]. cbn [arithmetic_word]. destruct (number 4 b); [rewrite Hu|]; apply sim_fail; discriminate. }
  destruct (pop_binary32_cons (mkst (v :: v0 :: m0) sa sc sn so sb sf sh) b b0 v v0 m0 Q Q0 eq_refl) as (q & -> & Eq). cbn [obind].
  cbn [arithmetic_word].
  destruct (number 4 b) as [n|] eqn:En; [|apply sim_fail; discriminate]. rewrite Hu. rewrite (Eq ltac:(congruence)). clear Eq.
  destruct (number 4 b0) as [k|] eqn:Ek; [|apply sim_fail; discriminate].
  pose proof (elem_range _ _ _ Q En) as B. pose proof (elem_range _ _ _ Q0 Ek) as B0. cbn [set_prim].
  unfold binary_table in Hc. cbn [lookup] in Hc.
  repeat match type of Hc with (if ?a =? ?b then _ else _) = _ => destruct (Z.eqb_spec a b) as [<-|_]; [inversion Hc; subst o; clear Hc|] end; [..|discriminate].
  all: cbn [binary_word].
  - rewrite arith_ok by lia. cbn [obind]. push_int H.
  - rewrite arith_ok by lia. cbn [obind]. push_int H.
  - push_b H.
  - push_b H.
  - push_b H.
  - push_b H.
  - push_b H.
  - replace (k >? n) with (n <? k) by lia. push_b H.
  - replace (negb (k >? n)) with (k <=? n) by lia. push_b H.
  - replace (negb (k <? n)) with (n <=? k) by lia. push_b H.
  - replace (if k <? n then k else n) with (Z.min k n) by (destruct (Z.ltb_spec k n); lia). push_int H.
  - replace (if k >? n then k else n) with (Z.max k n) by (destruct (Z.gtb_spec k n); lia). push_int H.
Qed.
Lemma sim_num_equal_verify s r : R s r -> sim (op_num_equal_verify s) (lift (arithmetic_word 157) r).
Proof.
  intros H. open H. unfold op_num_equal_verify, lift. cbn [stk arithmetic_word].
  step P; [cbn; discriminate|]. step P.
  { unfold pop_binary32. rewrite size_lt2. cbn [prim obind]. cbn [arithmetic_word]. destruct (number 4 b); apply sim_fail; discriminate. }
  destruct (pop_binary32_cons (mkst (v :: v0 :: m0) sa sc sn so sb sf sh) b b0 v v0 m0 Q Q0 eq_refl) as (q & -> & Eq). cbn [obind].
  cbn [arithmetic_word unary_word].
  destruct (number 4 b) as [n|] eqn:En; [|apply sim_fail; discriminate]. rewrite (Eq ltac:(congruence)). clear Eq.
  destruct (number 4 b0) as [k|] eqn:Ek; [|apply sim_fail; discriminate].
  cbn [binary_word Z.eqb Pos.eqb set_prim]. destruct (k =? n); [|apply sim_fail; discriminate].
  apply sim_ok. apply (R_set_prim _ _ m0 t0 H). exact P.
Qed.
Lemma sim_within s r : R s r -> sim (op_within s) (lift (arithmetic_word 165) r).
Proof.
  intros H. open H. unfold op_within, pop_ternary32, lift. rewrite size_lt3. cbn [stk arithmetic_word].
  step P; [cbn; discriminate|]. cbn [arithmetic_word unary_word].
  step P; [destruct (number 4 b); cbn; discriminate|].
  step P; [destruct (number 4 b); [destruct (number 4 b0)|]; cbn; discriminate|].
  cbn [prim obind]. erewrite (pop_signed32_cons _ v b (v0 :: v1 :: m) Q); [|reflexivity]. cbn [obind].
  destruct (number 4 b) as [n|] eqn:En; [|apply sim_fail; discriminate].
  erewrite (pop_signed32_cons _ v0 b0 (v1 :: m) Q0); [|reflexivity]. cbn [obind].
  destruct (number 4 b0) as [k|] eqn:Ek; [|apply sim_fail; discriminate].
  erewrite (pop_signed32_cons _ v1 b1 m Q1); [|reflexivity]. cbn [obind binary_word Z.eqb Pos.eqb].
  destruct (number 4 b1) as [x|] eqn:Ex; [|apply sim_fail; discriminate]. cbn [obind set_prim].
  replace (negb (x <? k) && (x <? n)) with ((k <=? x) && (x <? n)) by lia. push_b H.
Qed.
Lemma sim_hash h s r : hash_ok h -> R s r ->
  sim (op_hash h s) (match stk r with a :: t => Some (with_stk (h a :: t) r) | [] => None end).
Proof.
  intros Hh H. open H. unfold op_hash. step P; [cbn; discriminate|]. cbn [is_stack_empty prim stk].
  unfold pop_chunk_, top. cbn [prim hd_error obind]. rewrite (elem_chunk _ _ Q). cbn [obind drop_ prim].
  destruct (Hh b (element_ok _ _ (proj1 Q))) as [O L]. apply sim_ok. apply (R_set_prim _ _ (VChunk (h b) :: m) (h b :: t) H).
  constructor; [apply elem_vchunk; [assumption|lia]|assumption].
Qed.
End Sim.
