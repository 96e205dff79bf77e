(** Simulation: signature operations. *)
From Verif Require Import Base Bytes MathModel MathSpec MathProofs NumberModel NumberSpec NumberProofs NumberProps OpModel OpSpec
  OpProofs OpProofs3 OpProps InterpEnv InterpModel InterpSpec InterpElem InterpSim InterpSim2 SubscriptProofs.

Section Sim3.
Variable e : env.
Hypothesis K : ctx_ok e.
Hypothesis W : Forall op_wf (escript e).
Notation R := (R e).
Notation sim := (sim e).

Lemma pop_chunk_cons s v b p : elem v b -> prim s = v :: p -> pop_chunk_ s = Some (b, set_prim p s).
Proof. intros Q E. unfold pop_chunk_, top, drop_. rewrite E. cbn [hd_error obind]. rewrite (elem_chunk _ _ Q). reflexivity. Qed.
Lemma elem_bytes_ok v b : elem v b -> bytes_ok b /\ len b <= 520.
Proof. intros [Q L]. split; [eapply element_ok, Q|exact L]. Qed.
Lemma F2_bytes l t : Forall2 elem l t -> Forall (fun d => bytes_ok d /\ len d <= 520) t.
Proof. induction 1; constructor; [eapply elem_bytes_ok; eassumption|assumption]. Qed.

(** The signature hash outside tapscript. *)
Lemma sighash_ecdsa s r sigs flags : R s r -> tapscript e = false -> Forall (fun d => bytes_ok d /\ len d <= 520) sigs ->
  signature_hash e (subscript e sigs s) flags = Some (ecdsa_sighash e sigs r flags).
Proof.
  intros H T Hs. unfold signature_hash, ecdsa_sighash.
  rewrite (subscript_bytes e sigs s W Hs). rewrite (R_code _ _ _ H).
  change (enabled e bip143_rule && match eversion e with segwit => true | _ => false end) with (witness_v0 e).
  change (enabled e bip342_rule) with (tapscript e). rewrite T. destruct (witness_v0 e); reflexivity.
Qed.
Lemma taproot_v0 : tapscript e = true -> witness_v0 e = false.
Proof. intros T. destruct K as (Hv & _). unfold witness_v0. rewrite (Hv T). apply andb_false_r. Qed.
Lemma sighash_taproot s r flags : R s r -> tapscript e = true ->
  signature_hash e (escript e, offset s) flags = sighash_v1 e (sep_pos r) flags.
Proof.
  intros H T. unfold signature_hash. rewrite (R_pos _ _ _ H).
  change (enabled e bip143_rule && match eversion e with segwit => true | _ => false end) with (witness_v0 e).
  rewrite (taproot_v0 T). change (enabled e bip342_rule) with (tapscript e). rewrite T. destruct K as (Hv & _). rewrite (Hv T). reflexivity.
Qed.
Lemma sigops_ok s w : budget s = w + 1 -> 0 <= w < 2 ^ 63 ->
  exists b, sigops_increment s = (0 <=? w - 50, set_budget b s) /\ (0 <= w - 50 -> b = w - 50 + 1).
Proof.
  intros E B. unfold sigops_increment. rewrite E, floored_subtract_clamps by (try reflexivity; unfold fits; cbn; lia).
  eexists. split; [f_equal|].
  - unfold clamp, imin, imax. cbn [sg u64 bits]. change (2 ^ 64) with 18446744073709551616. change (2 ^ 63) with 9223372036854775808 in B. lia.
  - intros C. unfold clamp, imin, imax. cbn [sg u64 bits]. change (2 ^ 64) with 18446744073709551616. change (2 ^ 63) with 9223372036854775808 in B. lia.
Qed.
Lemma R_charge s r p t b : R s r -> Forall2 elem p t -> 0 <= weight r - 50 -> tapscript e = true -> b = weight r - 50 + 1 ->
  R (set_budget b (set_prim p s)) (with_stk t (with_weight (weight r - 50) r)).
Proof.
  intros [A1 A2 A3 A4 A5 A6 A7 A8] H1 H2 T E. constructor; try assumption. intros _. cbn. specialize (A5 T). lia.
Qed.

(** Schnorr: what the split accepts and the hash it selects. *)
Lemma schnorr_flags t : is_schnorr_sighash t = (1 <=? t) && (t <=? 3) || (129 <=? t) && (t <=? 131).
Proof.
  unfold is_schnorr_sighash, one_of. cbn [existsb].
  repeat match goal with |- context [t =? ?x] => destruct (Z.eqb_spec t x); [subst; reflexivity|] end. cbn [orb]. lia.
Qed.
Definition schnorr_verified (key sig : list Z) (r : rst) : option (option (Z * list Z)) :=
  match schnorr_split sig with
  | None => None
  | Some (sg, f) => match sighash_v1 e (sep_pos r) f with
                    | None => None
                    | Some h => if verify_schnorr e key h sg then Some (Some (f, h)) else None end
  end.
Lemma schnorr_ok_split key sig r : schnorr_ok e key sig r = match schnorr_verified key sig r with Some _ => true | None => false end.
Proof.
  unfold schnorr_ok, schnorr_verified, schnorr_split. destruct (len sig =? 64).
  - destruct (sighash_v1 e (sep_pos r) 0); [|reflexivity]. destruct (verify_schnorr _ _ _ _); reflexivity.
  - destruct (len sig =? 65); [|reflexivity]. rewrite schnorr_flags. destruct (_ || _); [|reflexivity]. cbn [andb].
    destruct (sighash_v1 e (sep_pos r) (last sig 0)); [|reflexivity]. destruct (verify_schnorr _ _ _ _); reflexivity.
Qed.

(** check_sig_verify returns success exactly when the reference result is true;
    the codes that end the script are those where the reference fails. *)
Definition hard (c : ec) : bool :=
  match c with
  | e_cs_low_stack | e_cs_empty_key | e_cs_schnorr1 | e_cs_schnorr2 | e_cs_schnorr3 | e_cs_budget => true
  | e_cs_decode_signature => rule e bip66_rule
  | _ => false
  end.
Lemma check_sig_sim s r : R s r ->
  exists c s', op_check_sig_verify e s = Some (c, s') /\
  match check_sig e r with
  | None => hard c = true
  | Some (r', b) => hard c = false /\ succeeded c = b /\ R s' r'
  end.
Proof.
  intros H. pose proof (R_prim _ _ _ H) as P. unfold op_check_sig_verify, check_sig. rewrite size_lt2.
  destruct (stk r) as [|key [|sig t]] eqn:Es.
  { apply F2_nil_r in P. rewrite P. do 2 eexists. split; reflexivity. }
  { apply F2_cons_r in P as (v & m & Ep & Q & P). apply F2_nil_r in P. rewrite Ep, P. do 2 eexists. split; reflexivity. }
  apply F2_cons_r in P as (v & m & Ep & Q & P). apply F2_cons_r in P as (w & m' & -> & Q' & P). rewrite Ep.
  rewrite (pop_chunk_cons s v key _ Q Ep). cbn [obind].
  rewrite (pop_chunk_cons (set_prim (w :: m') s) w sig m' Q' eq_refl). cbn [obind].
  change (set_prim m' (set_prim (w :: m') s)) with (set_prim m' s).
  change (enabled e bip342_rule) with (tapscript e). rewrite !len0_nil.
  assert (R2 : R (set_prim m' s) (with_stk t r)) by (apply R_set_prim; assumption).
  destruct (tapscript e) eqn:T.
  - destruct (R_budget _ _ _ H T) as [Bb Bw]. unfold check_tapscript.
    destruct key as [|k1 key]. { do 2 eexists. split; [reflexivity|]. destruct (weight _ <? 0); reflexivity. }
    destruct sig as [|g1 sig].
    { do 2 eexists. split; [reflexivity|]. destruct (Z.ltb_spec (weight r) 0); [lia|]. (split; [reflexivity|split; [reflexivity|exact R2]]). }
    assert (CH : exists c s', (let (good, s3) := sigops_increment (set_prim m' s) in if good then ret op_success s3 else ret e_cs_budget s3) = Some (c, s') /\
       (if 0 <=? weight r - 50 then c = op_success /\ R s' (with_stk t (with_weight (weight r - 50) r)) else c = e_cs_budget)).
    { destruct (sigops_ok (set_prim m' s) (weight r) Bb Bw) as (b & -> & Eb). destruct (Z.leb_spec 0 (weight r - 50)) as [C|C].
      - do 2 eexists. split; [reflexivity|]. split; [reflexivity|]. apply R_charge; auto.
      - do 2 eexists. split; reflexivity. }
    cbn [weight with_weight].
    destruct (Z.eqb_spec (len (k1 :: key)) 32) as [L|L].
    + rewrite (sighash_taproot (set_prim m' s) _ _ R2 T) || idtac. rewrite schnorr_ok_split. unfold schnorr_verified.
      destruct (schnorr_split (g1 :: sig)) as [[sg f]|];
       [|do 2 eexists; split; [reflexivity|]; destruct (weight r - 50 <? 0); reflexivity].
      change (offset (set_prim m' s)) with (offset s). rewrite (sighash_taproot s r f H T).
      destruct (sighash_v1 e (sep_pos r) f) as [h|]; [|do 2 eexists; split; [reflexivity|]; destruct (weight r - 50 <? 0); reflexivity].
      destruct (verify_schnorr e (k1 :: key) h sg); cbn [negb andb];
       [|do 2 eexists; split; [reflexivity|]; destruct (weight r - 50 <? 0); reflexivity].
      destruct CH as (c & s' & -> & CH). do 2 eexists. split; [reflexivity|].
      destruct (Z.leb_spec 0 (weight r - 50)), (Z.ltb_spec (weight r - 50) 0); try lia.
      * destruct CH as [-> CH]. (split; [reflexivity|split; [reflexivity|exact CH]]).
      * subst c. reflexivity.
    + cbn [andb]. destruct CH as (c & s' & -> & CH). do 2 eexists. split; [reflexivity|].
      destruct (Z.leb_spec 0 (weight r - 50)), (Z.ltb_spec (weight r - 50) 0); try lia.
      * destruct CH as [-> CH]. (split; [reflexivity|split; [reflexivity|exact CH]]).
      * subst c. reflexivity.
  - destruct sig as [|g1 sig].
    { do 2 eexists. split; [reflexivity|]. (split; [reflexivity|split; [reflexivity|exact R2]]). }
    unfold ecdsa_split. set (sg := g1 :: sig) in *.
    assert (Ed : encoding_ok e sg = negb (rule e bip66_rule) || match decode_signature e (removelast sg) true with Some _ => true | None => false end) by reflexivity.
    assert (Eo : ecdsa_ok e key sg r [sg] = match decode_signature e (removelast sg) (rule e bip66_rule) with
        | Some x => verify_ecdsa e key (ecdsa_sighash e [sg] r (last sg 0)) x | None => false end) by reflexivity.
    rewrite Ed, Eo. clear Ed Eo. change (enabled e bip66_rule) with (rule e bip66_rule).
    assert (Hs : Forall (fun d => bytes_ok d /\ len d <= 520) [sg]) by (constructor; [eapply elem_bytes_ok; eassumption|constructor]).
    rewrite (sighash_ecdsa (set_prim m' s) (with_stk t r) [sg] (last sg 0) R2 T Hs).
    change (ecdsa_sighash e [sg] (with_stk t r) (last sg 0)) with (ecdsa_sighash e [sg] r (last sg 0)).
    destruct (rule e bip66_rule) eqn:B66; cbn [negb orb].
    + destruct (decode_signature e (removelast sg) true) as [x|]; cbn [negb].
      * do 2 eexists. split; [reflexivity|]. destruct (verify_ecdsa _ _ _ _); (split; [reflexivity|split; [reflexivity|exact R2]]).
      * do 2 eexists. split; [reflexivity|]. exact B66.
    + destruct (decode_signature e (removelast sg) false) as [x|].
      * do 2 eexists. split; [reflexivity|]. destruct (verify_ecdsa _ _ _ _); (split; [reflexivity|split; [reflexivity|exact R2]]).
      * do 2 eexists. split; [reflexivity|]. (split; [exact B66|split; [reflexivity|exact R2]]).
Qed.
Lemma sim_check_sig_verify s r : R s r -> sim (op_check_sig_verify e s) (verify_result (check_sig e r)).
Proof.
  intros H. destruct (check_sig_sim s r H) as (c & s' & -> & S). unfold verify_result.
  destruct (check_sig e r) as [[r' b]|].
  - destruct S as (_ & Eb & S). unfold sim, InterpSim.sim. destruct b.
    + split; [|exact S]. destruct c; try discriminate Eb; reflexivity.
    + destruct c; discriminate.
  - cbn. destruct c; discriminate.
Qed.
Lemma R_push_bool s r b : R s r -> R (push_bool b s) (with_stk (bool_bytes b :: stk r) r).
Proof. intros H. apply R_set_prim; [exact H|]. constructor; [apply elem_vbool|apply (R_prim _ _ _ H)]. Qed.
Lemma sim_check_sig s r : R s r -> sim (op_check_sig e s) (push_result (check_sig e r)).
Proof.
  intros H. destruct (check_sig_sim s r H) as (c & s' & E & S). unfold op_check_sig. rewrite E. cbn [obind]. unfold push_result.
  change (enabled e bip66_rule) with (rule e bip66_rule). change (enabled e bip342_rule) with (tapscript e).
  destruct (check_sig e r) as [[r' b]|] eqn:C.
  - destruct S as (Hh & Eb & S).
    assert (G : sim (ret op_success (push_bool (succeeded c) s')) (Some (with_stk (bool_bytes b :: stk r') r'))).
    { apply sim_ok. rewrite Eb. apply R_push_bool, S. }
    destruct c; try discriminate Hh; cbn [ec_eqb] in *; try (rewrite ?andb_false_r; exact G).
    change (rule e bip66_rule = false) in Hh. rewrite Hh. cbn [andb]. rewrite ?andb_false_r. exact G.
  - assert (T : tapscript e = false -> c = e_cs_low_stack \/ c = e_cs_decode_signature).
    { intros T. clear - E T S. unfold op_check_sig_verify in E. destruct (stack_size s <? 2); [inversion E; auto|].
      destruct (pop_chunk_ s) as [[a s1]|]; [|discriminate]. cbn [obind] in E. destruct (pop_chunk_ s1) as [[a' s2]|]; [|discriminate]. cbn [obind] in E.
      change (enabled e bip342_rule) with (tapscript e) in E. rewrite T in E.
      destruct (len a' =? 0); [inversion E; subst; discriminate|]. unfold ecdsa_split in E.
      destruct (decode_signature e _ _); [|inversion E; auto]. destruct (signature_hash _ _ _); [|inversion E; subst; discriminate].
      destruct (verify_ecdsa _ _ _ _); inversion E; subst; discriminate. }
    destruct (tapscript e) eqn:T'.
    + destruct c; try discriminate S; try (cbn; discriminate); try (rewrite andb_false_r; cbn; discriminate).
      change (rule e bip66_rule = true) in S. rewrite S. cbn. discriminate.
    + destruct (T eq_refl) as [->| ->]; [cbn; discriminate|]. change (rule e bip66_rule = true) in S. rewrite S. cbn. discriminate.
Qed.

(** CHECKSIGADD. *)
Lemma R_set_cache s r c : R s r -> (tapscript e = true -> forall f h, c = Some (f, h) -> sighash_v1 e (sep_pos r) f = Some h) -> R (set_cache c s) r.
Proof. intros [] H. constructor; assumption. Qed.
Lemma sim_check_sig_add s r : R s r -> sim (op_check_sig_add e s)
  (if tapscript e then
     match stk r with
     | key :: num :: sig :: t =>
       match number 4 num with
       | None => None
       | Some n => match check_tapscript e key sig r with
                   | Some (r', b) => Some (with_stk (script_num (if b then n + 1 else n) :: t) r')
                   | None => None
                   end
       end
     | _ => None
     end
   else None).
Proof.
  intros H. unfold op_check_sig_add. change (enabled e bip342_rule) with (tapscript e). destruct (tapscript e) eqn:T; cbn [negb]; [|cbn; discriminate].
  pose proof (R_prim _ _ _ H) as P. rewrite size_lt3.
  destruct (stk r) as [|key [|num [|sig t]]] eqn:Es.
  { apply F2_nil_r in P. rewrite P. cbn; discriminate. }
  { apply F2_cons_r in P as (v & m & Ep & Q & P). apply F2_nil_r in P. rewrite Ep, P. cbn; discriminate. }
  { apply F2_cons_r in P as (v & m & Ep & Q & P). apply F2_cons_r in P as (w & m' & -> & Q' & P). apply F2_nil_r in P. rewrite Ep, P. cbn; discriminate. }
  apply F2_cons_r in P as (v & m & Ep & Q & P). apply F2_cons_r in P as (w & m' & -> & Q' & P). apply F2_cons_r in P as (x & m & -> & Q'' & P). rewrite Ep.
  rewrite (pop_chunk_cons s v key _ Q Ep). cbn [obind]. rewrite len0_nil.
  destruct (R_budget _ _ _ H T) as [Bb Bw].
  destruct key as [|k1 key].
  { unfold check_tapscript. destruct (number 4 num); [destruct (_ <? 0)|]; cbn; discriminate. }
  erewrite (pop_signed32_cons _ w num (x :: m) Q'); [|reflexivity]. cbn [obind].
  destruct (number 4 num) as [n|] eqn:En; [|cbn; discriminate]. pose proof (elem_range _ _ _ Q' En) as Bn.
  erewrite (pop_chunk_cons _ x sig m Q''); [|reflexivity]. cbn [obind]. rewrite len0_nil.
  change (set_prim m (set_prim (x :: m) (set_prim (w :: x :: m) s))) with (set_prim m s).
  assert (R2 : R (set_prim m s) (with_stk t r)) by (apply R_set_prim; assumption).
  unfold check_tapscript. destruct sig as [|g1 sig].
  { destruct (Z.ltb_spec (weight r) 0); [lia|]. apply sim_ok. change (push_signed64 n (set_prim m s)) with (set_prim (VInt n :: m) s).
    apply R_set_prim; [exact H|]. constructor; [apply elem_small; lia|assumption]. }
  cbn [weight with_weight].
  assert (CH : forall c, (forall f h, c = Some (f, h) -> sighash_v1 e (sep_pos r) f = Some h) ->
     sim (let (good, s5) := sigops_increment (set_cache c (set_prim m s)) in
          if good then do q <- arith i64 (n + 1); ret op_success (push_signed64 q s5) else ret e_csa7 s5)
         (if weight r - 50 <? 0 then None else Some (with_stk (script_num (n + 1) :: t) (with_weight (weight r - 50) r)))).
  { intros c Hc. destruct (sigops_ok (set_cache c (set_prim m s)) (weight r) Bb Bw) as (b & -> & Eb).
    destruct (Z.leb_spec 0 (weight r - 50)) as [C|C], (Z.ltb_spec (weight r - 50) 0); try lia; [|cbn; discriminate].
    rewrite arith_ok by lia. cbn [obind]. apply sim_ok.
    pose proof (R_set_cache (set_prim (VInt (n + 1) :: m) s) (with_stk (script_num (n + 1) :: t) r) c) as G.
    assert (Q0 : Forall2 elem (VInt (n + 1) :: m) (script_num (n + 1) :: t)) by (constructor; [apply elem_small; lia|assumption]).
    specialize (G ltac:(apply R_set_prim; assumption) ltac:(intros _; exact Hc)).
    apply (R_charge _ _ (VInt (n + 1) :: m) (script_num (n + 1) :: t) b G Q0 C T (Eb C)). }
  destruct (Z.eqb_spec (len (k1 :: key)) 32) as [L|L].
  - rewrite schnorr_ok_split. unfold schnorr_verified. destruct (schnorr_split (g1 :: sig)) as [[sg f]|];
     [|destruct (weight r - 50 <? 0); cbn; discriminate].
    change (offset (set_prim m s)) with (offset s). rewrite (sighash_taproot s r f H T).
    change (cache (set_prim m s)) with (cache s).
    assert (M : forall hh c, sighash_v1 e (sep_pos r) f = Some hh -> (forall f' h', c = Some (f', h') -> sighash_v1 e (sep_pos r) f' = Some h') ->
      sim (if negb (verify_schnorr e (k1 :: key) hh sg) then ret e_csa6 (set_cache c (set_prim m s))
           else let (good, s5) := sigops_increment (set_cache c (set_prim m s)) in
                if good then do q <- arith i64 (n + 1); ret op_success (push_signed64 q s5) else ret e_csa7 s5)
          match (if weight r - 50 <? 0 then None
             else if true && negb match (match sighash_v1 e (sep_pos r) f with
                         | Some h => if verify_schnorr e (k1 :: key) h sg then Some (Some (f, h)) else None | None => None end) with
                       | Some _ => true | None => false end then None else Some (with_weight (weight r - 50) r, true)) with
          | Some (r', b) => Some (with_stk (script_num (if b : bool then n + 1 else n) :: t) r') | None => None end).
    { intros hh c Eh Hc. rewrite Eh. specialize (CH c Hc). destruct (verify_schnorr e (k1 :: key) hh sg); cbn [negb andb].
      - destruct (weight r - 50 <? 0); exact CH.
      - destruct (weight r - 50 <? 0); cbn; discriminate. }
    assert (MISS : sim (match sighash_v1 e (sep_pos r) f with
         | None => ret e_csa5 (set_cache None (set_prim m s))
         | Some hash => if negb (verify_schnorr e (k1 :: key) hash sg) then ret e_csa6 (set_cache (Some (f, hash)) (set_prim m s))
           else let (good, s5) := sigops_increment (set_cache (Some (f, hash)) (set_prim m s)) in
                if good then do q <- arith i64 (n + 1); ret op_success (push_signed64 q s5) else ret e_csa7 s5 end)
          match (if weight r - 50 <? 0 then None
             else if true && negb match (match sighash_v1 e (sep_pos r) f with
                         | Some h => if verify_schnorr e (k1 :: key) h sg then Some (Some (f, h)) else None | None => None end) with
                       | Some _ => true | None => false end then None else Some (with_weight (weight r - 50) r, true)) with
          | Some (r', b) => Some (with_stk (script_num (if b : bool then n + 1 else n) :: t) r') | None => None end).
    { destruct (sighash_v1 e (sep_pos r) f) as [hh|] eqn:Eh.
      - apply (M hh (Some (f, hh)) eq_refl). intros f' h' X. inversion X; subst. exact Eh.
      - destruct (weight r - 50 <? 0); cbn; discriminate. }
    destruct (cache s) as [[f0 h0]|] eqn:Ec; [|exact MISS].
    destruct (Z.eqb_spec f0 f) as [->|]; [|exact MISS].
    pose proof (R_cache _ _ _ H T f h0 Ec) as Eh.
    assert (X : set_prim m s = set_cache (Some (f, h0)) (set_prim m s)) by (destruct s; cbn in Ec |- *; rewrite Ec; reflexivity).
    rewrite X. apply (M h0 (Some (f, h0)) Eh). intros f' h' Y. inversion Y; subst. exact Eh.
  - cbn [andb]. assert (X : set_prim m s = set_cache (cache s) (set_prim m s)) by (destruct s; reflexivity). rewrite X.
    specialize (CH (cache s) (R_cache _ _ _ H T)). destruct (weight r - 50 <? 0); exact CH.
Qed.

(** ** CHECKMULTISIG. *)
Lemma stuck_sig keys sig sigs ok : rule e bip66_rule = false -> (forall key, ok key sig = false) ->
  multi_ok e false keys (sig :: sigs) ok = Some false.
Proof.
  intros B Hk. induction keys as [|key keys IH]; [reflexivity|]. cbn [multi_ok andb].
  assert (encoding_ok e sig = true) as -> by (unfold encoding_ok; rewrite B; destruct sig; reflexivity). cbn [negb]. rewrite Hk. exact IH.
Qed.
Lemma multisig_loop_sim sub (H : Z -> list Z) keys : (forall f, signature_hash e sub f = Some (H f)) ->
  forall sigs c ok, (forall f h, c = Some (f, h) -> h = H f) ->
  (forall key sig, ok key sig = match sig with [] => false | _ =>
      match decode_signature e (removelast sig) (rule e bip66_rule) with Some x => verify_ecdsa e key (H (last sig 0)) x | None => false end end) ->
  match fst (multisig_loop e sub keys sigs c), multi_ok e false keys sigs ok with
  | None, None => rule e bip66_rule = true
  | None, Some b => rule e bip66_rule = false /\ b = false
  | Some [], Some b => b = true
  | Some (_ :: _), Some b => b = false
  | Some _, None => False
  end.
Proof.
  intros Hh. induction keys as [|key keys IH]; intros sigs c ok Hc Hok; cbn [multisig_loop].
  { destruct sigs; reflexivity. }
  destruct sigs as [|sig sigs]; [reflexivity|]. cbn [multi_ok andb].
  destruct sig as [|g1 g].
  - cbn [encoding_ok negb]. rewrite Hok. apply IH; assumption.
  - set (sig := g1 :: g) in *. unfold ecdsa_split. change (enabled e bip66_rule) with (rule e bip66_rule).
    destruct (decode_signature e (removelast sig) (rule e bip66_rule)) as [x|] eqn:D.
    + assert (encoding_ok e sig = true) as ->.
      { unfold encoding_ok. destruct (rule e bip66_rule); [|reflexivity]. unfold sig. fold sig. unfold der_of. rewrite D. reflexivity. }
      cbn [negb]. rewrite Hok. unfold sig at 1. fold sig. rewrite D.
      assert (CH : cached_hash e sub (last sig 0) c = (H (last sig 0), Some (last sig 0, H (last sig 0)))).
      { unfold cached_hash. rewrite Hh. destruct c as [[f h]|]; [|reflexivity]. destruct (Z.eqb_spec f (last sig 0)) as [->|]; [|reflexivity].
        rewrite (Hc _ _ eq_refl). reflexivity. }
      rewrite CH. assert (Hc' : forall f h, Some (last sig 0, H (last sig 0)) = Some (f, h) -> h = H f) by (intros f h E; inversion E; reflexivity).
      destruct (verify_ecdsa e key (H (last sig 0)) x); apply IH; assumption.
    + cbn [fst]. assert (Ed : encoding_ok e sig = negb (rule e bip66_rule)).
      { unfold encoding_ok, sig. fold sig. unfold der_of. destruct (rule e bip66_rule); [rewrite D|]; reflexivity. }
      rewrite Ed. assert (Z0 : forall key, ok key sig = false) by (intros k'; rewrite Hok; unfold sig at 1; fold sig; rewrite D; reflexivity).
      destruct (rule e bip66_rule) eqn:B; cbn [negb]; [reflexivity|]. rewrite Z0, (stuck_sig keys sig sigs ok B Z0). auto.
Qed.
Lemma pop_n_ok n : forall s t, Forall2 elem (prim s) t -> (n <= length t)%nat ->
  exists p, pop_n n s = Some (firstn n t, set_prim p s) /\ Forall2 elem p (skipn n t).
Proof.
  induction n as [|n IH]; intros s t P L; cbn [pop_n firstn skipn].
  - exists (prim s). split; [destruct s; reflexivity|exact P].
  - destruct t as [|b t]; [cbn in L; lia|]. apply F2_cons_r in P as (v & m & Ep & Q & P).
    rewrite (pop_chunk_cons s v b m Q Ep). cbn [obind]. destruct (IH (set_prim m s) t P ltac:(cbn in L; lia)) as (p & -> & P').
    cbn [obind]. exists p. split; [reflexivity|exact P'].
Qed.
Lemma pop_chunks_ok n s t : Forall2 elem (prim s) t -> 0 <= n ->
  if len t <? n then pop_chunks n s = Some (None, s)
  else exists p, pop_chunks n s = Some (Some (firstn (Z.to_nat n) t), set_prim p s) /\ Forall2 elem p (skipn (Z.to_nat n) t).
Proof.
  intros P Hn. unfold pop_chunks, stack_size. rewrite (F2_len _ _ P). destruct (Z.ltb_spec (len t) n) as [C|C]; [reflexivity|].
  destruct (pop_n_ok (Z.to_nat n) s t P) as (p & -> & P'); [unfold len in C; lia|]. exists p. split; [reflexivity|exact P'].
Qed.
Lemma pop_index_ok s v b p t : elem v b -> prim s = v :: p -> Forall2 elem p t ->
  pop_index32 s = Some (match number 4 b with Some n => if (0 <=? n) && (n <? len t) then Some n else None | None => None end, set_prim p s).
Proof.
  intros Q E P. unfold pop_index32, pop_signed32, is_stack_empty. rewrite E. rewrite (pop_signed32_cons s v b p Q E). cbn [obind].
  unfold stack_size. cbn [set_prim prim]. rewrite (F2_len _ _ P). destruct (number 4 b) as [n|]; [|reflexivity].
  destruct (Z.ltb_spec n 0), (Z.leb_spec 0 n); try lia; reflexivity.
Qed.
Definition ms_hard (c : ec) : bool :=
  match c with
  | e_cms_verify1 | e_cms_verify2 | e_cms_verify3 | e_cms_verify4 | e_cms_verify5 | e_cms_verify6 | e_cms_verify7 | e_cms_verify8 | e_cms_verify9 => true
  | e_cms_decode_signature => rule e bip66_rule
  | _ => false
  end.
Definition ms_code (c : ec) : bool :=
  match c with
  | e_cms_verify1 | e_cms_verify2 | e_cms_verify3 | e_cms_verify4 | e_cms_verify5 | e_cms_verify6 | e_cms_verify7 | e_cms_verify8 | e_cms_verify9
  | e_cms_decode_signature | e_cms_mismatch | op_success => true
  | _ => false
  end.
Lemma check_multisig_sim s r : R s r -> tapscript e = false ->
  exists c s', op_check_multisig_verify e s = Some (c, s') /\ ms_code c = true /\
  match check_multisig e false r with
  | None => ms_hard c = true
  | Some (r', b) => ms_hard c = false /\ succeeded c = b /\ R s' r'
  end.
Proof.
  intros H T. pose proof (R_prim _ _ _ H) as P. unfold op_check_multisig_verify, check_multisig.
  change (enabled e bip342_rule) with (tapscript e). rewrite T.
  destruct (stk r) as [|a s1] eqn:Es.
  { apply F2_nil_r in P. unfold pop_index32, pop_signed32, is_stack_empty. rewrite P. do 2 eexists. split; [reflexivity|]. split; reflexivity. }
  apply F2_cons_r in P as (v & m & Ep & Q & P). rewrite (pop_index_ok s v a m s1 Q Ep P). cbn [obind].
  destruct (number 4 a) as [n|] eqn:En; [|do 2 eexists; split; [reflexivity|]; split; reflexivity].
  destruct (Z.leb_spec 0 n) as [N0|N0]; cbn [andb negb]; [|do 2 eexists; split; [reflexivity|]; split; reflexivity].
  destruct (Z.ltb_spec n (len s1)) as [N1|N1].
  2:{ do 2 eexists. split; [reflexivity|]. split; [reflexivity|]. destruct (Z.leb_spec n 20); [|reflexivity]. cbn [negb].
      destruct (nops r + n >? 201); [reflexivity|]. destruct (Z.ltb_spec (len s1) n); [reflexivity|].
      rewrite skipn_all2; [reflexivity|unfold len in *; lia]. }
  destruct (Z.gtb_spec n 20), (Z.leb_spec n 20); try lia; cbn [negb]; [do 2 eexists; split; [reflexivity|]; split; reflexivity|].
  unfold ops_increment_keys. change (enabled e bip342_rule) with (tapscript e). rewrite T. cbn [operations set_prim]. rewrite (R_ops _ _ _ H).
  destruct (nops r + n >? 201); cbn [negb]; [do 2 eexists; split; [reflexivity|]; split; reflexivity|].
  set (s2 := set_operations (nops r + n) (set_prim m s)).
  assert (P2 : Forall2 elem (prim s2) s1) by exact P. pose proof (pop_chunks_ok n s2 s1 P2 N0) as PC.
  destruct (Z.ltb_spec (len s1) n) as [N2|N2]; [lia|]. destruct PC as (p & -> & P3). cbn [obind]. clear P2.
  destruct (skipn (Z.to_nat n) s1) as [|b t2] eqn:Sk.
  { exfalso. apply (f_equal (@length _)) in Sk. rewrite skipn_length in Sk. cbn in Sk. unfold len in N1. lia. }
  apply F2_cons_r in P3 as (v' & m' & -> & Q' & P3). rewrite (pop_index_ok (set_prim (v' :: m') s2) v' b m' t2 Q' eq_refl P3). cbn [obind].
  destruct (number 4 b) as [k|] eqn:Ek; [|do 2 eexists; split; [reflexivity|]; split; reflexivity].
  destruct (Z.leb_spec 0 k) as [K0|K0]; cbn [andb negb]; [|do 2 eexists; split; [reflexivity|]; split; reflexivity].
  assert (Lk : len (firstn (Z.to_nat n) s1) = n) by (unfold len in *; rewrite firstn_length; lia).
  destruct (Z.ltb_spec k (len t2)) as [K1|K1].
  2:{ do 2 eexists. split; [reflexivity|]. split; [reflexivity|]. destruct (Z.leb_spec k n); [|reflexivity]. cbn [negb].
      destruct (Z.ltb_spec (len t2) k); [reflexivity|]. rewrite skipn_all2; [reflexivity|unfold len in *; lia]. }
  rewrite Lk. destruct (Z.gtb_spec k n), (Z.leb_spec k n); try lia; cbn [negb]; [do 2 eexists; split; [reflexivity|]; split; reflexivity|].
  change (set_prim m' (set_prim (v' :: m') s2)) with (set_prim m' s2).
  assert (P4 : Forall2 elem (prim (set_prim m' s2)) t2) by exact P3. pose proof (pop_chunks_ok k _ t2 P4 K0) as PC.
  destruct (Z.ltb_spec (len t2) k) as [K2|K2]; [lia|]. destruct PC as (p & -> & P5). cbn [obind].
  pose proof (F2_bytes _ _ P3) as Hall.
  destruct (skipn (Z.to_nat k) t2) as [|dummy s3] eqn:Sk'.
  { exfalso. apply (f_equal (@length _)) in Sk'. rewrite skipn_length in Sk'. cbn in Sk'. unfold len in K1. lia. }
  apply F2_cons_r in P5 as (v'' & m'' & -> & Q'' & P5).
  unfold is_stack_empty at 1. cbn [prim set_prim].
  unfold pop_strict_bool_, top, drop_. cbn [prim set_prim hd_error obind]. rewrite (elem_strict _ _ (proj1 Q'')).
  change (set_prim m'' (set_prim (v'' :: m'') (set_prim m' s2))) with (set_prim m'' s2).
  change (enabled e bip147_rule) with (rule e bip147_rule). set (keys := firstn (Z.to_nat n) s1) in *. set (sigs := firstn (Z.to_nat k) t2) in *.
  assert (Hsigs : Forall (fun d => bytes_ok d /\ len d <= 520) sigs).
  { unfold sigs. rewrite <- (firstn_skipn (Z.to_nat k) t2) in Hall. apply Forall_app in Hall. tauto. }
  rewrite (andb_comm (rule e bip147_rule)). destruct (negb (len dummy =? 0) && rule e bip147_rule) eqn:Dm.
  { do 2 eexists. split; [reflexivity|]. split; [reflexivity|]. destruct (multi_ok _ _ _ _ _); reflexivity. }
  set (s6 := set_prim m'' s2).
  assert (R6 : R s6 (with_stk s3 (with_nops (nops r + n) r))).
  { destruct H. constructor; try assumption. reflexivity. }
  pose proof (multisig_loop_sim (subscript e sigs s6) (ecdsa_sighash e sigs (with_stk s3 (with_nops (nops r + n) r))) keys
     (fun f => sighash_ecdsa s6 _ sigs f R6 T Hsigs) sigs None (fun key sig => ecdsa_ok e key sig r sigs)) as ML.
  specialize (ML ltac:(discriminate)).
  specialize (ML ltac:(intros key sig; reflexivity)).
  assert (RC : forall c, R (set_cache c s6) (with_stk s3 (with_nops (nops r + n) r))).
  { intros c. apply R_set_cache; [exact R6|congruence]. }
  destruct (multisig_loop e (subscript e sigs s6) keys sigs None) as [[rem|] c]; cbn [fst] in ML;
   destruct (multi_ok e false keys sigs _) as [b0|].
  - destruct rem as [|x rem]; subst b0; do 2 eexists; (split; [reflexivity|]); (split; [reflexivity|]); (split; [reflexivity|split; [reflexivity|apply RC]]).
  - destruct rem; contradiction.
  - destruct ML as [B66 ->]. do 2 eexists. split; [reflexivity|]. split; [reflexivity|]. (split; [exact B66|split; [reflexivity|apply RC]]).
  - do 2 eexists. split; [reflexivity|]. split; [reflexivity|]. exact ML.
Qed.
Lemma sim_check_multisig_verify s r : R s r ->
  sim (op_check_multisig_verify e s) (if tapscript e then None else verify_result (check_multisig e false r)).
Proof.
  intros H. destruct (tapscript e) eqn:T.
  { unfold op_check_multisig_verify. change (enabled e bip342_rule) with (tapscript e). rewrite T. cbn. discriminate. }
  destruct (check_multisig_sim s r H T) as (c & s' & -> & _ & S). unfold verify_result.
  destruct (check_multisig e false r) as [[r' b]|].
  - destruct S as (_ & Eb & S). unfold sim, InterpSim.sim. destruct b.
    + split; [|exact S]. destruct c; try discriminate Eb; reflexivity.
    + destruct c; discriminate.
  - cbn. destruct c; discriminate.
Qed.
Lemma sim_check_multisig s r : R s r ->
  sim (op_check_multisig e s) (if tapscript e then None else push_result (check_multisig e false r)).
Proof.
  intros H. unfold op_check_multisig. change (enabled e bip342_rule) with (tapscript e). destruct (tapscript e) eqn:T; [cbn; discriminate|].
  destruct (check_multisig_sim s r H T) as (c & s' & -> & Mc & S). cbn [obind]. unfold push_result.
  change (enabled e bip66_rule) with (rule e bip66_rule).
  destruct (check_multisig e false r) as [[r' b]|].
  - destruct S as (Hh & Eb & S).
    assert (G : sim (ret op_success (push_bool (succeeded c) s')) (Some (with_stk (bool_bytes b :: stk r') r'))).
    { apply sim_ok. rewrite Eb. apply R_push_bool, S. }
    destruct c; try discriminate Hh; try discriminate Mc; try (rewrite ?andb_false_r; exact G).
    change (rule e bip66_rule = false) in Hh. rewrite Hh. exact G.
  - destruct c; try discriminate S; try (cbn; discriminate). change (rule e bip66_rule = true) in S. rewrite S. cbn. discriminate.
Qed.
End Sim3.
