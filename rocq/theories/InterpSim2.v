(** Simulation: conditionals, lock times, script code and signatures. *)
From Verif Require Import Base Bytes MathModel MathSpec MathProofs BitProofs NumberModel NumberSpec NumberProofs NumberProps OpModel OpSpec
  OpProofs OpProofs3 OpProps InterpEnv InterpModel InterpSpec InterpElem InterpSim.

(** ** Conditions. *)
Lemma all_true_filter c : forallb (fun b => b) c = true <-> len (filter negb c) = 0.
Proof.
  induction c as [|[] c IH]; cbn [forallb filter negb]; [split; reflexivity|exact IH|].
  rewrite len_cons. pose proof (len_nonneg (filter negb c)). split; [discriminate|lia].
Qed.
Lemma cond_executing c v n : cond_rel c v n -> (n =? 0) = forallb (fun b => b) v.
Proof.
  intros [-> [[<- H]|(x & y & t & -> & -> & L & T)]].
  - rewrite H. apply all_true_filter in H. rewrite H. reflexivity.
  - rewrite filter_app, len_app. cbn [filter negb]. rewrite len_cons, forallb_app. cbn [forallb]. rewrite andb_false_r.
    pose proof (len_nonneg (filter negb x)). pose proof (len_nonneg (filter negb t)). destruct (Z.eqb_spec (len (filter negb x) + (1 + len (filter negb t))) 0); [lia|reflexivity].
Qed.
Lemma cond_push_on c v n b : cond_rel c v n -> (n =? 0) = true -> cond_rel (b :: c) (b :: v) (n + if b then 0 else 1).
Proof.
  intros [-> [[<- H]|(x & y & t & -> & -> & L & T)]] Hn.
  - split; [destruct b; cbn [filter negb]; rewrite ?len_cons; lia|]. destruct b; [left|right].
    + split; [reflexivity|exact H].
    + exists [], [], c. repeat split; assumption.
  - exfalso. apply Z.eqb_eq in Hn. rewrite filter_app, len_app in Hn. cbn [filter negb] in Hn. rewrite len_cons in Hn.
    pose proof (len_nonneg (filter negb x)). pose proof (len_nonneg (filter negb t)). lia.
Qed.
Lemma cond_push_off c v n b b' : cond_rel c v n -> (n =? 0) = false -> cond_rel (b :: c) (b' :: v) (n + if b then 0 else 1).
Proof.
  intros [-> [[<- H]|(x & y & t & -> & -> & L & T)]] Hn.
  - exfalso. apply all_true_filter in H. rewrite H in Hn. discriminate.
  - split; [destruct b; cbn [filter negb]; rewrite ?len_cons; lia|]. right. exists (b :: x), (b' :: y), t. repeat split; [cbn; congruence|exact T].
Qed.
Lemma cond_else b c b' v n : cond_rel (b :: c) (b' :: v) n -> cond_rel (negb b :: c) (negb b' :: v) (n + if b then 1 else -1).
Proof.
  intros [-> [[E H]|(x & y & t & E1 & E2 & L & T)]].
  - inversion E; subst b' v. cbn [forallb] in H. apply andb_true_iff in H as [-> H]. split; [cbn [filter negb]; rewrite len_cons; lia|].
    right. exists [], [], c. repeat split; assumption.
  - destruct x as [|x1 x], y as [|y1 y]; try discriminate; cbn [app] in E1, E2; inversion E1; inversion E2; subst.
    + split; [cbn [filter negb]; rewrite len_cons; lia|]. left. split; [reflexivity|exact T].
    + split; [destruct x1; cbn [filter negb]; rewrite ?len_cons; lia|]. right. exists (negb x1 :: x), (negb y1 :: y), t.
      cbn in L. repeat split; [cbn; congruence|exact T].
Qed.
Lemma cond_endif b c b' v n : cond_rel (b :: c) (b' :: v) n -> cond_rel c v (n + if b then 0 else -1).
Proof.
  intros [-> [[E H]|(x & y & t & E1 & E2 & L & T)]].
  - inversion E; subst b' v. cbn [forallb] in H. apply andb_true_iff in H as [-> H]. split; [cbn [filter negb]; lia|]. left. split; [reflexivity|exact H].
  - destruct x as [|x1 x], y as [|y1 y]; try discriminate; cbn [app] in E1, E2; inversion E1; inversion E2; subst.
    + split; [cbn [filter negb]; rewrite len_cons; lia|]. left. split; [reflexivity|exact T].
    + split; [destruct x1; cbn [filter negb]; rewrite ?len_cons; lia|]. right. exists x, y, t. cbn in L. repeat split; [congruence|exact T].
Qed.
Lemma cond_length c v n : cond_rel c v n -> length c = length v.
Proof. intros [_ [[-> _]|(x & y & t & -> & -> & L & _)]]; [reflexivity|]. rewrite !app_length, L. reflexivity. Qed.

Section Sim2.
Variable e : env.
Hypothesis K : ctx_ok e.
Notation R := (R e).
Notation sim := (sim e).

Lemma R_set_cond s r c n p v t : R s r -> Forall2 elem p t -> cond_rel c v n -> R (set_cond c n (set_prim p s)) (with_vf t v r).
Proof. intros [] H1 H2. constructor; assumption. Qed.
Lemma is_success_executing s r : R s r -> is_success s = executing r.
Proof. intros H. apply (cond_executing _ _ _ (R_cond _ _ _ H)). Qed.

Lemma pop_bool_cons s v b p minimal : elem v b -> prim s = v :: p ->
  exists q, pop_bool_ minimal s = Some (if minimal : bool then cast_to_bool_minimal b else Some (cast_to_bool b), q) /\
  ((if minimal : bool then cast_to_bool_minimal b else Some (cast_to_bool b)) <> None -> q = set_prim p s).
Proof.
  intros Q E. unfold pop_bool_, top, drop_. rewrite E. cbn [hd_error obind]. destruct minimal; cbn [negb].
  - rewrite (elem_minimal _ _ (proj1 Q)). destruct (variant_minimal_bool v) as [[] w]; cbn [negb obind]; eexists; split; try reflexivity; congruence.
  - cbn [obind]. rewrite (elem_bool _ _ (proj1 Q)). eexists; split; reflexivity.
Qed.
Lemma sim_branch (inv : bool) s r : R s r ->
  sim (if inv then op_notif e s else op_if e s) (branch e inv r).
Proof.
  intros H. pose proof (is_success_executing _ _ H) as Hx. pose proof (R_cond _ _ _ H) as C.
  unfold op_if, op_notif, branch. rewrite Hx. fold (tapscript e). 
  destruct (executing r) eqn:X.
  - pose proof (R_prim _ _ _ H) as P. destruct (stk r) as [|b t] eqn:Es.
    { apply F2_nil_r in P. unfold is_stack_empty. rewrite P. destruct inv; cbn; discriminate. }
    apply F2_cons_r in P as (v & m & Ep & Q & P). unfold is_stack_empty. rewrite Ep.
    destruct (pop_bool_cons s v b m (tapscript e) Q Ep) as (q & E & Eq).
    change (enabled e bip342_rule) with (tapscript e). rewrite E. cbn [obind].
    destruct (if tapscript e then cast_to_bool_minimal b else Some (cast_to_bool b)) as [w|]; [|destruct inv; cbn; discriminate].
    rewrite (Eq ltac:(discriminate)). 
    assert (G : forall z, sim (ret op_success (begin_if z (set_prim m s))) (Some (with_vf t (z :: vf r) r))).
    { intros z. apply sim_ok. unfold begin_if. apply (R_set_cond s r); [assumption|assumption|].
      cbn [set_prim cond neg]. apply cond_push_on; [assumption|]. unfold is_success in Hx. exact Hx. }
    destruct inv, w; apply G.
  - assert (Hn : (neg s =? 0) = false) by exact Hx.
    assert (G : forall z, sim (ret op_success (begin_if z s)) (Some (with_vf (stk r) (false :: vf r) r))).
    { intros z. apply sim_ok. unfold begin_if. destruct H. constructor; try assumption. cbn. apply cond_push_off; assumption. }
    destruct inv; apply G.
Qed.
Lemma sim_else s r : R s r -> sim (op_else s) (match vf r with b :: v => Some (with_vf (stk r) (negb b :: v) r) | [] => None end).
Proof.
  intros H. pose proof (R_cond _ _ _ H) as C. pose proof (cond_length _ _ _ C) as L. unfold op_else, is_balanced, else_if_.
  destruct (cond s) as [|b c], (vf r) as [|b' v]; try discriminate L; [cbn; discriminate|]. cbn [obind]. apply sim_ok.
  destruct H. constructor; try assumption. cbn. apply cond_else, C.
Qed.
Lemma sim_endif s r : R s r -> sim (op_endif s) (match vf r with b :: v => Some (with_vf (stk r) v r) | [] => None end).
Proof.
  intros H. pose proof (R_cond _ _ _ H) as C. pose proof (cond_length _ _ _ C) as L. unfold op_endif, is_balanced, end_if_.
  destruct (cond s) as [|b c], (vf r) as [|b' v]; try discriminate L; [cbn; discriminate|]. cbn [obind]. apply sim_ok.
  destruct H. constructor; try assumption. cbn. eapply cond_endif, C.
Qed.

(** ** Lock times. *)
Lemma peek40 s v b p : elem v b -> prim s = v :: p ->
  peek_unsigned40 s = Some (match number 5 b with Some n => if n <? 0 then None else Some n | None => None end).
Proof.
  intros [Q _] E. unfold peek_unsigned40, is_stack_empty, top. rewrite E. cbn [hd_error obind].
  destruct (elem_signed 5 v b ltac:(lia) Q) as (g & n & -> & ->). cbn [obind]. destruct g; cbn [negb orb]; [|reflexivity]. destruct (n <? 0); reflexivity.
Qed.
Lemma sim_cltv s r : R s r -> sim (op_check_locktime_verify e s)
  (if negb (rule e bip65_rule) then Some r
   else match stk r with a :: _ => if lock_time_ok e a then Some r else None | [] => None end).
Proof.
  intros H. unfold op_check_locktime_verify. change (enabled e bip65_rule) with (rule e bip65_rule).
  destruct (rule e bip65_rule); cbn [negb]; [|apply sim_ok, H].
  pose proof (R_prim _ _ _ H) as P. destruct (stk r) as [|b t] eqn:Es.
  { apply F2_nil_r in P. unfold peek_unsigned40, is_stack_empty. rewrite P. cbn [obind]. destruct (e_sequence e =? 4294967295); cbn; discriminate. }
  apply F2_cons_r in P as (v & m & Ep & Q & P). rewrite (peek40 s v b m Q Ep). unfold lock_time_ok. cbn [obind].
  destruct (number 5 b) as [n|]; [|destruct (e_sequence e =? 4294967295); cbn; discriminate].
  destruct (e_sequence e =? 4294967295) eqn:E1; [rewrite andb_false_r; cbn; discriminate|]. cbn [negb]. rewrite andb_true_r.
  destruct (Z.ltb_spec n 0) as [E2|E2], (Z.leb_spec 0 n) as [E2'|E2']; try lia; cbn [andb]; [cbn; discriminate|].
  destruct (Z.ltb_spec n 500000000), (Z.leb_spec 500000000 n); try lia;
  destruct (Z.ltb_spec (e_locktime e) 500000000), (Z.leb_spec 500000000 (e_locktime e)); try lia; cbn [negb Bool.eqb andb orb]; try (cbn; discriminate);
  destruct (Z.gtb_spec n (e_locktime e)), (Z.leb_spec n (e_locktime e)); try lia; try (cbn; discriminate); apply sim_ok, H.
Qed.
Lemma land_mask n : 0 <= n -> Z.land n (2 ^ 22 + 65535) = (if Z.testbit n 22 then 2 ^ 22 else 0) + n mod 2 ^ 16.
Proof.
  intros Hn. assert (B : 0 <= n mod 2 ^ 16 < 2 ^ 16) by (apply Z.mod_pos_bound; reflexivity).
  replace ((if Z.testbit n 22 then 2 ^ 22 else 0) + n mod 2 ^ 16) with (Z.lor (if Z.testbit n 22 then 2 ^ 22 else 0) (n mod 2 ^ 16)).
  2:{ assert (D : Z.land (if Z.testbit n 22 then 2 ^ 22 else 0) (n mod 2 ^ 16) = 0).
      { apply Z.bits_inj'. intros i Hi. rewrite Z.land_spec, Z.bits_0. destruct (Z.lt_ge_cases i 16) as [C|C].
        - destruct (Z.testbit n 22); [|rewrite Z.bits_0; reflexivity]. rewrite Z.pow2_bits_false by lia. reflexivity.
        - rewrite (Z.mod_pow2_bits_high n 16 i) by lia. apply andb_false_r. }
      rewrite Z.add_nocarry_lxor by exact D. apply Z.bits_inj'. intros i Hi. rewrite Z.lor_spec, Z.lxor_spec.
      assert (D' := f_equal (fun z => Z.testbit z i) D). cbv beta in D'. rewrite Z.land_spec, Z.bits_0 in D'.
      destruct (Z.testbit (if Z.testbit n 22 then 2 ^ 22 else 0) i), (Z.testbit (n mod 2 ^ 16) i); try reflexivity; discriminate. }
  change (2 ^ 22 + 65535) with (Z.lor (2 ^ 22) (Z.ones 16)). apply Z.bits_inj'. intros i Hi.
  rewrite Z.land_spec, !Z.lor_spec. rewrite <- Z.land_ones by lia. rewrite Z.land_spec.
  destruct (Z.eq_dec i 22) as [->|N].
  - rewrite Z.pow2_bits_true by lia. rewrite Z.ones_spec_high by lia. cbn [orb]. rewrite andb_true_r, andb_false_r, orb_false_r.
    destruct (Z.testbit n 22); [symmetry; apply Z.pow2_bits_true; lia|symmetry; apply Z.bits_0].
  - rewrite (Z.pow2_bits_false 22 i) by lia. cbn [orb].
    assert (Z.testbit (if Z.testbit n 22 then 2 ^ 22 else 0) i = false) as ->; [|reflexivity].
    destruct (Z.testbit n 22); [apply Z.pow2_bits_false; lia|apply Z.bits_0].
Qed.
Lemma low16 v : bit_and u32 v (mask_left u32 16) = v mod 2 ^ 16.
Proof.
  apply (bit_ext u32); [reflexivity| | |].
  - unfold bit_and. apply fits_wrap. reflexivity.
  - assert (B : 0 <= v mod 2 ^ 16 < 2 ^ 16) by (apply Z.mod_pos_bound; reflexivity). unfold fits, imin, imax. cbn in *. lia.
  - intros i Hi. rewrite bit_and_bit by exact Hi. rewrite mask_left_bit by (try reflexivity; try exact Hi; lia).
    unfold bit. cbn [bits u32] in *. destruct (Z.ltb_spec i (32 - 16)).
    + rewrite Z.mod_pow2_bits_low by lia. apply andb_true_r.
    + rewrite Z.mod_pow2_bits_high by lia. apply andb_false_r.
Qed.
Lemma wrap32_bit n i : 0 <= i < 32 -> Z.testbit (wrap u32 n) i = Z.testbit n i.
Proof. intros H. unfold wrap. cbn [sg u32 bits]. apply Z.mod_pow2_bits_low. lia. Qed.
Lemma wrap32_low n : wrap u32 n mod 2 ^ 16 = n mod 2 ^ 16.
Proof.
  unfold wrap. cbn [sg u32 bits]. change (2 ^ 32) with (2 ^ 16 * 2 ^ 16). rewrite Z.rem_mul_r by lia.
  rewrite Z.mul_comm, Z.mod_add by lia. apply Z.mod_mod. lia.
Qed.
Lemma sim_csv s r : R s r -> sim (op_check_sequence_verify e s)
  (if negb (rule e bip112_rule) then Some r
   else match stk r with a :: _ => if sequence_ok e a then Some r else None | [] => None end).
Proof.
  intros H. unfold op_check_sequence_verify. change (enabled e bip112_rule) with (rule e bip112_rule).
  destruct (rule e bip112_rule); cbn [negb]; [|apply sim_ok, H].
  pose proof (R_prim _ _ _ H) as P. destruct (stk r) as [|b t] eqn:Es.
  { apply F2_nil_r in P. unfold peek_unsigned32, peek_unsigned40, is_stack_empty. rewrite P. cbn. discriminate. }
  apply F2_cons_r in P as (v & m & Ep & Q & P). unfold peek_unsigned32. rewrite (peek40 s v b m Q Ep). unfold sequence_ok. cbn [obind].
  destruct (number 5 b) as [n|]; [|cbn; discriminate].
  destruct (Z.ltb_spec n 0) as [E2|E2], (Z.leb_spec 0 n) as [E2'|E2']; try lia; cbn [andb omap]; [cbn; discriminate|].
  destruct K as (_ & _ & _ & _ & _ & _ & Fs & Fl & Fv). assert (S0 : 0 <= e_sequence e) by (unfold fits, imin in Fs; cbn in Fs; lia).
  rewrite !get_right_ok by (cbn; lia). unfold bit. rewrite !wrap32_bit by lia. rewrite !low16, wrap32_low.
  cbv zeta. rewrite !land_mask by assumption. set (q := e_sequence e) in *.
  assert (B1 : 0 <= n mod 2 ^ 16 < 2 ^ 16) by (apply Z.mod_pos_bound; reflexivity).
  assert (B2 : 0 <= q mod 2 ^ 16 < 2 ^ 16) by (apply Z.mod_pos_bound; reflexivity).
  set (a := n mod 2 ^ 16) in *. set (c := q mod 2 ^ 16) in *. change (2 ^ 16) with 65536 in *. change (2 ^ 22) with 4194304.
  destruct (Z.testbit n 31); cbn [orb]; [apply sim_ok, H|].
  destruct (Z.ltb_spec (e_txversion e) 2), (Z.leb_spec 2 (e_txversion e)); try lia; cbn [andb]; [cbn; discriminate|].
  destruct (Z.testbit q 31); cbn [negb andb]; [cbn; discriminate|].
  set (bn := Z.testbit n 22). set (bq := Z.testbit q 22).
  assert (E : ((((if bn then 4194304 else 0) + a <? 4194304) && ((if bq then 4194304 else 0) + c <? 4194304)
     || (4194304 <=? (if bn then 4194304 else 0) + a) && (4194304 <=? (if bq then 4194304 else 0) + c))
    && ((if bn then 4194304 else 0) + a <=? (if bq then 4194304 else 0) + c)) = Bool.eqb bn bq && negb (a >? c)).
  { clear - B1 B2. clearbody a c bn bq. destruct bn, bq; cbn [Bool.eqb andb negb]; lia. }
  rewrite E. destruct (Bool.eqb bn bq); cbn [negb andb]; [|apply sim_fail; discriminate].
  destruct (a >? c); cbn [negb]; [apply sim_fail; discriminate|apply sim_ok, H].
Qed.
End Sim2.
