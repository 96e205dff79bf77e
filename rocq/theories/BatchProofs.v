(** Lockstep of the interpreter with a capture and the interpreter without. *)
From Verif Require Import Base Bytes MathModel ShaModel AccModel KdfModel SigopSpec StreamModel NumberModel StateModel OpModel ChainModel BlockModel ValidModel PatternModel InterpEnv InterpModel InterpTrace SighashModel ConnectSpec ConnectModel BatchModel.

Section Lockstep.
Variable e : env.
Variables (on spends : bool).
Variable compress : list Z -> option (list Z).
Notation ve := (verify_ecdsa (ectx e)).
Notation vs := (verify_schnorr (ectx e)).
Hypothesis compress_ok : forall k k' h g, compress k = Some k' -> ve k' h g = ve k h g.

Definition all_valid (G : list group) (R : list row) : bool := forallb (verify_group ve) G && forallb (verify_row vs) R.
Lemma all_valid_app G R G' R' : all_valid (G ++ G') (R ++ R') = all_valid G R && all_valid G' R'.
Proof. unfold all_valid. rewrite !forallb_app. destruct (forallb _ G), (forallb _ G'), (forallb _ R), (forallb _ R'); reflexivity. Qed.
Definition ext (l : log) (G : list group) (R : list row) (l' : log) : Prop := l_groups l' = l_groups l ++ G /\ l_rows l' = l_rows l ++ R.
Lemma ext_nil l : ext l [] [] l.
Proof. split; rewrite app_nil_r; reflexivity. Qed.
Lemma ext_trans l G R l' G' R' l'' : ext l G R l' -> ext l' G' R' l'' -> ext l (G ++ G') (R ++ R') l''.
Proof. intros [A B] [C D]. split; [rewrite C, A|rewrite D, B]; rewrite app_assoc; reflexivity. Qed.

(** Runs *)
Definition failed (r : option (sc * st)) : Prop :=
  match r with
  | Some (script_success, s) => forall clean, is_true clean s = false
  | Some (prevalid_script, _) => False
  | Some _ => True
  | None => False
  end.
Definition same (r : option (sc * st)) (c : sc) (s : st) : Prop :=
  exists s', r = Some (c, s') /\ prim s' = prim s.
Definition LS (rc : option (sc * st * log)) (l : log) (r : option (sc * st)) : Prop :=
  match rc with
  | Some (c, s, l') => exists G R, ext l G R l' /\ if all_valid G R then same r c s else failed r
  | None => r = None \/ failed r
  end.
Definition sigop (c : Z) : bool := one_of c [172; 173; 174; 175; 186].
Definition quiet (o : op) : Prop := forall position s l,
  run_op_c e on spends compress position o s l = do (c, s') <- run_op e position o s; retc c s' l.
Lemma sigop_quiet o : sigop (code o) = false -> quiet o.
Proof.
  unfold quiet, sigop, run_op_c. cbn [one_of existsb]. intros H. rewrite !Bool.orb_false_iff in H. destruct H as (-> & -> & -> & -> & -> & _). reflexivity.
Qed.
Notation loopc := (run_loop_c e on spends compress).
Lemma LS_quiet init tail : Forall quiet init -> (forall position s l, LS (loopc position tail s l) l (run_loop e position tail s)) ->
  forall position s l, LS (loopc position (init ++ tail) s l) l (run_loop e position (init ++ tail) s).
Proof.
  intros Q T. induction Q as [|o init Ho _ IH]; [exact T|]. intros position s l. cbn [app run_loop_c run_loop].
  destruct (is_oversized_op o); [exists [], []; split; [apply ext_nil|exists s; auto]|].
  destruct (ops_increment_op e o s) as [counted s1]. destruct (negb counted); [exists [], []; split; [apply ext_nil|exists s1; auto]|].
  destruct (_ || _); [|apply IH]. rewrite Ho. destruct (run_op e position o s1) as [[c s2]|]; [|left; reflexivity].
  cbn [obind retc]. destruct c; try (exists [], []; split; [apply ext_nil|exists s2; auto]).
  destruct (is_stack_overflow s2); [exists [], []; split; [apply ext_nil|exists s2; auto]|apply IH].
Qed.

(** Operations *)
Definition op_failed (r : outcome) : Prop := match r with Some (op_success, _) => False | Some _ => True | None => False end.
Definition LO (rc : outcome_c) (l : log) (r : outcome) : Prop :=
  match rc with
  | Some (c, s, l') => exists R, ext l [] R l' /\ if all_valid [] R then r = Some (c, s) else op_failed r
  | None => r = None \/ op_failed r
  end.
Lemma LO_same c s l : LO (Some (c, s, l)) l (Some (c, s)).
Proof. exists []. split; [apply ext_nil|reflexivity]. Qed.
Lemma run_op_sig position o s : run_op e position o s =
  if code o =? 172 then op_check_sig e s else if code o =? 173 then op_check_sig_verify e s
  else if code o =? 174 then op_check_multisig e s else if code o =? 175 then op_check_multisig_verify e s
  else if code o =? 186 then op_check_sig_add e s else run_op e position o s.
Proof.
  destruct (Z.eqb_spec (code o) 172) as [E|N1]; [unfold run_op; rewrite E; reflexivity|].
  destruct (Z.eqb_spec (code o) 173) as [E|N2]; [unfold run_op; rewrite E; reflexivity|].
  destruct (Z.eqb_spec (code o) 174) as [E|N3]; [unfold run_op; rewrite E; reflexivity|].
  destruct (Z.eqb_spec (code o) 175) as [E|N4]; [unfold run_op; rewrite E; reflexivity|].
  destruct (Z.eqb_spec (code o) 186) as [E|N5]; [unfold run_op; rewrite E; reflexivity|]. reflexivity.
Qed.

(** *** Tapscript *)
Lemma capture_schnorr_ok key hash sig s l v l' : capture_schnorr e on spends key hash sig s l = (v, l') ->
  (v = true /\ ext l [] [(hash, key, sig)] l') \/ (v = vs key hash sig /\ ext l [] [] l').
Proof.
  unfold capture_schnorr. destruct on; [|intros [= <- <-]; right; split; [reflexivity|apply ext_nil]].
  unfold is_threshold_batchable. destruct spends.
  - unfold is_schnorr_batchable. cbn [negb andb]. intros [= <- <-]; right; split; [reflexivity|apply ext_nil].
  - destruct (l_sink l) as [[a b]|] eqn:K.
    + intros [= <- <-]. left. split; [reflexivity|]. split; cbn; rewrite ?app_nil_r; reflexivity.
    + destruct (is_satisfied _ _).
      * intros [= <- <-]. left. split; [reflexivity|]. split; cbn; rewrite ?app_nil_r; reflexivity.
      * destruct (is_schnorr_batchable e false); intros [= <- <-]; [left|right]; (split; [reflexivity|]); [|apply ext_nil].
        split; cbn; rewrite ?app_nil_r; reflexivity.
Qed.
Lemma all_valid_row h k g : all_valid [] [(h, k, g)] = vs k h g.
Proof. unfold all_valid. cbn. rewrite Bool.andb_true_r. reflexivity. Qed.

Section Tapscript.
Hypothesis tap : enabled e bip342_rule = true.
Lemma LO_csv s l : LO (op_check_sig_verify_c e on spends compress s l) l (op_check_sig_verify e s).
Proof.
  unfold op_check_sig_verify_c, op_check_sig_verify. rewrite tap. destruct (_ <? _); [apply LO_same|].
  destruct (pop_chunk_ s) as [[key s1]|]; [|left; reflexivity]. cbn [obind].
  destruct (pop_chunk_ s1) as [[en s2]|]; [|left; reflexivity]. cbn [obind].
  destruct (len key =? 0); [apply LO_same|]. destruct (len en =? 0); [apply LO_same|].
  destruct (len key =? 32); [|destruct (sigops_increment s2) as [[] s3]; apply LO_same].
  destruct (schnorr_split en) as [[g f]|]; [|apply LO_same]. destruct (signature_hash e _ f) as [h|]; [|apply LO_same].
  destruct (capture_schnorr _ _ _ _ _ _ _ _) as [v l'] eqn:C. destruct (capture_schnorr_ok _ _ _ _ _ _ _ C) as [[-> X]|[-> X]].
  - cbn [negb]. destruct (sigops_increment s2) as [good s3].
    enough (H : forall c, LO (retc c s3 l') l (if negb (vs key h g) then ret e_cs_schnorr3 s2 else ret c s3)) by (destruct good; apply H).
    intros c. exists [(h, key, g)]. split; [exact X|]. rewrite all_valid_row. destruct (vs key h g); [reflexivity|exact I].
  - destruct (negb _); [|destruct (sigops_increment s2) as [[] s3]]; (exists []; split; [exact X|reflexivity]).
Qed.
Lemma LO_cs s l : LO (op_check_sig_c e on spends compress s l) l (op_check_sig e s).
Proof.
  unfold op_check_sig_c, op_check_sig. unfold op_check_sig_verify_c, op_check_sig_verify. rewrite tap. destruct (_ <? _); [apply LO_same|].
  destruct (pop_chunk_ s) as [[key s1]|]; [|left; reflexivity]. cbn [obind].
  destruct (pop_chunk_ s1) as [[en s2]|]; [|left; reflexivity]. cbn [obind]. destruct (enabled e bip66_rule).
  all: destruct (len key =? 0); [apply LO_same|]; destruct (len en =? 0); [apply LO_same|].
  all: destruct (len key =? 32); [|destruct (sigops_increment s2) as [[] s3]; apply LO_same].
  all: destruct (schnorr_split en) as [[g f]|]; [|apply LO_same].
  all: destruct (signature_hash e _ f) as [h|]; [|apply LO_same].
  all: destruct (capture_schnorr _ _ _ _ _ _ _ _) as [v l'] eqn:C; destruct (capture_schnorr_ok _ _ _ _ _ _ _ C) as [[-> X]|[-> X]].
  all: cbn [negb]; destruct (sigops_increment s2) as [[] s3].
  all: try (exists [(h, key, g)]; split; [exact X|]; rewrite all_valid_row; destruct (vs key h g); [reflexivity|exact I]).
  all: destruct (negb _); (exists []; split; [exact X|reflexivity]).
Qed.
Lemma LO_csa s l : LO (op_check_sig_add_c e on spends s l) l (op_check_sig_add e s).
Proof.
  unfold op_check_sig_add_c, op_check_sig_add. rewrite tap. cbn [negb]. destruct (_ <? _); [apply LO_same|].
  destruct (pop_chunk_ s) as [[key s1]|]; [|left; reflexivity]. cbn [obind]. destruct (len key =? 0); [apply LO_same|].
  destruct (pop_signed32_ s1) as [[[n|] s2]|]; [|apply LO_same|left; reflexivity]. cbn [obind].
  destruct (pop_chunk_ s2) as [[en s3]|]; [|left; reflexivity]. cbn [obind].
  destruct (len en =? 0); [apply LO_same|].
  destruct (len key =? 32).
  2: { destruct (sigops_increment s3) as [[] s4]; [|apply LO_same]. destruct (arith i64 (n + 1)); [apply LO_same|left; reflexivity]. }
  destruct (schnorr_split en) as [[g f]|]; [|apply LO_same].
  assert (V : forall h s4, LO (let (verified, l0) := capture_schnorr e on spends key h g s4 l in
                if negb verified then retc e_csa6 s4 l0 else
                (let (good, s5) := sigops_increment s4 in
                 if good : bool then do r <- arith i64 (n + 1); retc op_success (push_signed64 r s5) l0 else retc e_csa7 s5 l0)) l
             (if negb (vs key h g) then ret e_csa6 s4 else
                (let (good, s5) := sigops_increment s4 in
                 if good : bool then do r <- arith i64 (n + 1); ret op_success (push_signed64 r s5) else ret e_csa7 s5))).
  { intros h s4. destruct (capture_schnorr _ _ _ _ _ _ _ _) as [v l'] eqn:C. destruct (capture_schnorr_ok _ _ _ _ _ _ _ C) as [[-> X]|[-> X]].
    - cbn [negb]. destruct (sigops_increment s4) as [good s5]. destruct good.
      + destruct (arith i64 (n + 1)) as [r|].
        * exists [(h, key, g)]. split; [exact X|]. rewrite all_valid_row. destruct (vs key h g); [reflexivity|exact I].
        * destruct (vs key h g); [left; reflexivity|right; exact I].
      + exists [(h, key, g)]. split; [exact X|]. rewrite all_valid_row. destruct (vs key h g); [reflexivity|exact I].
    - destruct (negb _); [exists []; split; [exact X|reflexivity]|]. destruct (sigops_increment s4) as [[] s5]; [|exists []; split; [exact X|reflexivity]].
      destruct (arith i64 (n + 1)) as [r|]; [exists []; split; [exact X|reflexivity]|left; reflexivity]. }
  destruct (cache s3) as [[f' h']|].
  - destruct (f' =? f); [apply V|]. destruct (signature_hash e _ f); [apply V|apply LO_same].
  - destruct (signature_hash e _ f); [apply V|apply LO_same].
Qed.
Lemma LO_op position o s l : LO (run_op_c e on spends compress position o s l) l (run_op e position o s).
Proof.
  rewrite run_op_sig. unfold run_op_c. destruct (code o =? 172); [apply LO_cs|]. destruct (code o =? 173); [apply LO_csv|].
  destruct (code o =? 174); [unfold op_check_multisig_c, op_check_multisig; rewrite tap; apply LO_same|].
  destruct (code o =? 175); [unfold op_check_multisig_verify_c, op_check_multisig_verify; rewrite tap; apply LO_same|].
  destruct (code o =? 186); [apply LO_csa|]. destruct (run_op e position o s) as [[c s']|]; [apply LO_same|left; reflexivity].
Qed.
Lemma LS_tapscript ops : forall position s l, LS (loopc position ops s l) l (run_loop e position ops s).
Proof.
  induction ops as [|o ops IH]; intros position s l; cbn [run_loop_c run_loop].
  - exists [], []. split; [apply ext_nil|exists s; auto].
  - destruct (is_oversized_op o); [exists [], []; split; [apply ext_nil|exists s; auto]|].
    destruct (ops_increment_op e o s) as [counted s1]. destruct (negb counted); [exists [], []; split; [apply ext_nil|exists s1; auto]|].
    destruct (_ || _); [|apply IH]. pose proof (LO_op position o s1 l) as L. destruct (run_op_c _ _ _ _ _ _ _ _) as [[[c s2] l']|]; cbn [obind].
    2: { destruct L as [->|L]; [left; reflexivity|right]. destruct (run_op e position o s1) as [[[] s2]|]; solve [destruct L|exact I]. }
    destruct L as (R & X & V).
    assert (F : all_valid [] R = false -> failed (do (code, s3) <- run_op e position o s1;
       match code with op_success => if is_stack_overflow s3 then Some (invalid_stack_size, s3) else run_loop e (S position) ops s3 | _ => Some (op_failure code, s3) end)).
    { intros A. rewrite A in V. destruct (run_op e position o s1) as [[[] s3]|]; solve [destruct V|exact I]. }
    destruct (all_valid [] R) eqn:A.
    + rewrite V. cbn [obind]. destruct c; try (exists [], R; split; [exact X|rewrite A; exists s2; auto]).
      destruct (is_stack_overflow s2); [exists [], R; split; [exact X|rewrite A; exists s2; auto]|].
      specialize (IH (S position) s2 l'). destruct (loopc _ _ _ _) as [[[c s3] l3]|]; [|exact IH].
      destruct IH as (G' & R' & X' & V'). exists ([] ++ G'), (R ++ R'). split; [eapply ext_trans; eassumption|]. rewrite all_valid_app, A. exact V'.
    + specialize (F eq_refl). destruct c; try (exists [], R; split; [exact X|rewrite A; exact F]).
      destruct (is_stack_overflow s2); [exists [], R; split; [exact X|rewrite A; exact F]|].
      specialize (IH (S position) s2 l'). destruct (loopc _ _ _ _) as [[[c s3] l3]|]; [|right; exact F].
      destruct IH as (G' & R' & X' & V'). exists ([] ++ G'), (R ++ R'). split; [eapply ext_trans; eassumption|]. rewrite all_valid_app, A. exact F.
Qed.
End Tapscript.

(** *** ECDSA *)
Section Ecdsa.
Hypothesis legacy : enabled e bip342_rule = false.
Lemma csv_plain s l : on && is_ecdsa_batchable e spends = false ->
  op_check_sig_verify_c e on spends compress s l = do (c, s') <- op_check_sig_verify e s; retc c s' l.
Proof.
  intros P. unfold op_check_sig_verify_c, op_check_sig_verify, capture_ecdsa. rewrite legacy, P. destruct (_ <? _); [reflexivity|].
  destruct (pop_chunk_ s) as [[key s1]|]; [|reflexivity]. cbn [obind]. destruct (pop_chunk_ s1) as [[en s2]|]; [|reflexivity]. cbn [obind].
  destruct (len en =? 0); [reflexivity|]. unfold ecdsa_split. destruct (decode_signature _ _ _); [|reflexivity]. destruct (signature_hash e _ _); reflexivity.
Qed.
Lemma cs_plain s l : on && is_ecdsa_batchable e spends = false ->
  op_check_sig_c e on spends compress s l = do (c, s') <- op_check_sig e s; retc c s' l.
Proof.
  intros P. unfold op_check_sig_c, op_check_sig. rewrite (csv_plain _ _ P), legacy. destruct (op_check_sig_verify e s) as [[c s']|]; [|reflexivity]. cbn [obind retc].
  destruct (enabled e bip66_rule), c; reflexivity.
Qed.
Lemma cmsv_plain s l : on && is_multisig_batchable e spends = false ->
  op_check_multisig_verify_c e on spends compress s l = do (c, s') <- op_check_multisig_verify e s; retc c s' l.
Proof.
  intros P. unfold op_check_multisig_verify_c, op_check_multisig_verify. rewrite legacy.
  destruct (pop_index32 s) as [[[n|] s1]|]; try reflexivity. cbn [obind]. destruct (n >? 20); [reflexivity|].
  destruct (ops_increment_keys e n s1) as [[] s2]; [|reflexivity]. cbn [negb].
  destruct (pop_chunks n s2) as [[[keys|] s3]|]; try reflexivity. cbn [obind].
  destruct (pop_index32 s3) as [[[m|] s4]|]; try reflexivity. cbn [obind]. destruct (m >? len keys); [reflexivity|].
  destruct (pop_chunks m s4) as [[[ens|] s5]|]; try reflexivity. cbn [obind]. destruct (is_stack_empty s5); [reflexivity|].
  destruct (pop_strict_bool_ s5) as [[dummy s6]|]; [|reflexivity]. cbn [obind]. destruct (dummy && _); [reflexivity|].
  assert (C : capture_multisig e on spends compress keys ens s6 l = Some (false, l)).
  { unfold capture_multisig. destruct on; [|reflexivity]. cbn [andb negb] in *. rewrite P. reflexivity. }
  rewrite C. cbn [obind]. destruct (multisig_loop _ _ _ _ _) as [[[|]|] c]; reflexivity.
Qed.
Lemma cms_plain s l : on && is_multisig_batchable e spends = false ->
  op_check_multisig_c e on spends compress s l = do (c, s') <- op_check_multisig e s; retc c s' l.
Proof.
  intros P. unfold op_check_multisig_c, op_check_multisig. rewrite (cmsv_plain _ _ P), legacy. destruct (op_check_multisig_verify e s) as [[c s']|]; [|reflexivity]. cbn [obind retc].
  destruct (enabled e bip66_rule), c; reflexivity.
Qed.
Lemma csa_plain s l : op_check_sig_add_c e on spends s l = do (c, s') <- op_check_sig_add e s; retc c s' l.
Proof. unfold op_check_sig_add_c, op_check_sig_add. rewrite legacy. reflexivity. Qed.
Lemma plain_quiet o : on && is_ecdsa_batchable e spends = false -> on && is_multisig_batchable e spends = false -> quiet o.
Proof.
  intros P Q position s l. rewrite run_op_sig. unfold run_op_c. destruct (code o =? 172); [apply cs_plain, P|]. destruct (code o =? 173); [apply csv_plain, P|].
  destruct (code o =? 174); [apply cms_plain, Q|]. destruct (code o =? 175); [apply cmsv_plain, Q|]. destruct (code o =? 186); [apply csa_plain|reflexivity].
Qed.

(** The last operation of a script *)
Definition LL (rc : outcome_c) (l : log) (r : outcome) : Prop :=
  match rc with
  | Some (c, s, l') => exists G R, ext l G R l' /\
      if all_valid G R then exists s', r = Some (c, s') /\ prim s' = prim s /\ alt s' = alt s /\ cond s' = cond s
      else op_failed r \/ exists s' p, r = Some (op_success, s') /\ prim s' = VBool false :: p
  | None => r = None
  end.
Lemma LL_same c s l : LL (Some (c, s, l)) l (Some (c, s)).
Proof. exists [], []. split; [apply ext_nil|]. exists s. auto. Qed.
Lemma LS_last o position s l : (forall counted s1, ops_increment_op e o s = (counted, s1) -> LL (run_op_c e on spends compress position o s1 l) l (run_op e position o s1)) ->
  LS (loopc position [o] s l) l (run_loop e position [o] s).
Proof.
  intros L. cbn [run_loop_c run_loop].
  destruct (is_oversized_op o); [exists [], []; split; [apply ext_nil|exists s; auto]|].
  destruct (ops_increment_op e o s) as [counted s1]. destruct (negb counted); [exists [], []; split; [apply ext_nil|exists s1; auto]|].
  destruct (_ || _); [|exists [], []; split; [apply ext_nil|exists s1; auto]].
  specialize (L _ _ eq_refl). destruct (run_op_c _ _ _ _ _ _ _ _) as [[[c s2] l']|]; cbn [obind]; [|left; rewrite L; reflexivity].
  destruct L as (G & R & X & V).
  assert (W : LS (Some (match c with op_success => if is_stack_overflow s2 then invalid_stack_size else if is_balanced s2 then script_success else invalid_stack_scope
                        | _ => op_failure c end, s2, l')) l
    (do (code, s3) <- run_op e position o s1;
     match code with op_success => if is_stack_overflow s3 then Some (invalid_stack_size, s3) else Some (if is_balanced s3 then script_success else invalid_stack_scope, s3)
     | _ => Some (op_failure code, s3) end)).
  2: { destruct c; try exact W. destruct (is_stack_overflow s2); exact W. }
  exists G, R. split; [exact X|]. destruct (all_valid G R).
  - destruct V as (s' & -> & Ep & Ea & Ec). cbn [obind]. unfold is_stack_overflow, stack_size, is_balanced. rewrite Ep, Ea, Ec.
    destruct c; try (exists s'; auto; fail). destruct (_ >? _); exists s'; auto.
  - destruct V as [F|(s' & p & -> & Ep)].
    + destruct (run_op e position o s1) as [[[] s3]|]; solve [destruct F|exact I].
    + cbn [obind]. destruct (is_stack_overflow s'); [exact I|]. destruct (is_balanced s'); [|exact I].
      intros clean. unfold is_true, top. rewrite Ep. cbn [hd_error variant_bool]. rewrite Bool.andb_false_r. reflexivity.
Qed.
Lemma capture_ecdsa_ok key hash sig l : exists v l' G, capture_ecdsa e on spends compress key hash sig l = Some (v, l') /\ ext l G [] l' /\
  ((G = [] /\ v = ve key hash sig) \/ (v = true /\ all_valid G [] = ve key hash sig)).
Proof.
  unfold capture_ecdsa. assert (N : exists v l' G, Some (ve key hash sig, l) = Some (v, l') /\ ext l G [] l' /\ ((G = [] /\ v = ve key hash sig) \/ (v = true /\ all_valid G [] = ve key hash sig))).
  { exists (ve key hash sig), l, []. split; [reflexivity|]. split; [apply ext_nil|left; auto]. }
  destruct (on && _); [|exact N]. unfold to_compressed.
  assert (K : forall k, ve k hash sig = ve key hash sig -> exists v l' G, (do (taken, l) <- put_group hash [k] [sig] l;
      if taken : bool then Some (true, l) else Some (ve key hash sig, l)) = Some (v, l') /\ ext l G [] l' /\
      ((G = [] /\ v = ve key hash sig) \/ (v = true /\ all_valid G [] = ve key hash sig))).
  { intros k E. unfold put_group. change (multisig_check (len [sig]) (len [k])) with true. cbn [negb]. destruct (_ >? _); [exact N|].
    cbn [obind]. eexists true, _, [(hash, [k], [sig])]. split; [reflexivity|]. split; [split; cbn; rewrite ?app_nil_r; reflexivity|]. right. split; [reflexivity|].
    unfold all_valid. cbn. rewrite E. destruct (ve key hash sig); reflexivity. }
  destruct (len key =? 33); [apply K; reflexivity|]. destruct (len key =? 65); [|exact N].
  destruct (compress key) as [k|] eqn:E; [|exact N]. apply K, compress_ok, E.
Qed.
Lemma LL_cs position o s l : code o = 172 -> LL (run_op_c e on spends compress position o s l) l (run_op e position o s).
Proof.
  intros E. rewrite run_op_sig. unfold run_op_c. rewrite E. cbn [Z.eqb Pos.eqb]. unfold op_check_sig_c, op_check_sig, op_check_sig_verify_c, op_check_sig_verify. rewrite legacy.
  destruct (_ <? _); [apply LL_same|]. destruct (pop_chunk_ s) as [[key s1]|]; [|reflexivity]. cbn [obind]. destruct (pop_chunk_ s1) as [[en s2]|]; [|reflexivity]. cbn [obind].
  destruct (enabled e bip66_rule).
  all: destruct (len en =? 0); [apply LL_same|]; unfold ecdsa_split; destruct (decode_signature _ _ _) as [sig|]; [|apply LL_same].
  all: destruct (signature_hash e _ _) as [h|]; [|apply LL_same].
  all: destruct (capture_ecdsa_ok key h sig l) as (v & l' & G & -> & X & [[-> ->]|[-> V]]); cbn [obind].
  all: try (destruct (ve key h sig); (exists [], []; split; [exact X|]; eexists; split; [reflexivity|auto]); fail).
  all: exists G, []; split; [exact X|]; rewrite V; destruct (ve key h sig); [eexists; split; [reflexivity|auto]|right; eexists _, (prim s2); split; reflexivity].
Qed.

(** Multisig *)
Definition parsed (f : Z) (en sig : list Z) : Prop := en <> [] /\ last en 0 = f /\ decode_signature (ectx e) (removelast en) (enabled e bip66_rule) = Some sig.
Lemma parse_ok ens : forall byte f sigs, parse_signatures e byte ens = Some (Some f, sigs) -> (byte = None \/ byte = Some f) /\ Forall2 (parsed f) ens sigs.
Proof.
  induction ens as [|en ens IH]; intros byte f sigs.
  - intros [= -> <-]. split; [right; reflexivity|constructor].
  - cbn [parse_signatures]. destruct (Z.eqb_spec (len en) 0) as [|N]; [discriminate|]. unfold ecdsa_split.
    destruct (match byte with Some b => negb (b =? last en 0) | None => false end) eqn:B; [discriminate|].
    destruct (decode_signature _ _ _) as [sig|] eqn:D; [|discriminate]. cbn [obind].
    destruct (parse_signatures e (Some (last en 0)) ens) as [[b sigs']|] eqn:P; [|discriminate]. cbn [obind]. intros [= -> <-].
    destruct (IH _ _ _ P) as [[?|K] F]; [discriminate|]. injection K as K. split.
    + destruct byte as [b|]; [right|left; reflexivity]. apply Bool.negb_false_iff, Z.eqb_eq in B. congruence.
    + constructor; [|exact F]. split; [intros ->; apply N; reflexivity|]. auto.
Qed.
Fixpoint ploop (hash : list Z) (keys sigs : list (list Z)) : list (list Z) :=
  match keys with
  | [] => sigs
  | key :: rest => match sigs with [] => [] | sig :: more => ploop hash rest (if ve key hash sig then more else sigs) end
  end.
Lemma ploop_len hash keys : forall sigs, len sigs <= len keys + len (ploop hash keys sigs).
Proof.
  induction keys as [|k keys IH]; intros sigs; cbn [ploop]; [change (len (@nil (list Z))) with 0; lia|].
  pose proof (len_nonneg keys). destruct sigs as [|g sigs]; [rewrite len_cons; change (len (@nil (list Z))) with 0; lia|].
  destruct (ve k hash g); [specialize (IH sigs)|specialize (IH (g :: sigs))]; rewrite !len_cons in *; lia.
Qed.
Lemma group_ploop hash keys : forall sigs, group_loop ve hash keys sigs = [] <-> ploop hash keys sigs = [].
Proof.
  induction keys as [|k keys IH]; intros sigs; cbn [group_loop ploop]; [reflexivity|].
  destruct sigs as [|g sigs]; [reflexivity|].
  destruct (len (k :: keys) >=? len (g :: sigs)) eqn:C; [apply IH|]. rewrite Z.geb_leb in C. apply Z.leb_gt in C. split; [discriminate|]. intros F.
  pose proof (ploop_len hash (k :: keys) (g :: sigs)) as L. cbn [ploop] in L. rewrite F in L. change (len (@nil (list Z))) with 0 in L. lia.
Qed.
Lemma loop_ploop sub hash f : signature_hash e sub f = Some hash -> forall keys ens sigs c, (c = None \/ c = Some (f, hash)) -> Forall2 (parsed f) ens sigs ->
  exists ens' c', multisig_loop e sub keys ens c = (Some ens', c') /\ (ens' = [] <-> ploop hash keys sigs = []).
Proof.
  intros Hh. induction keys as [|k keys IH]; intros ens sigs c Hc F.
  - cbn [multisig_loop ploop]. exists ens, c. split; [reflexivity|]. destruct F; split; congruence.
  - destruct F as [|en sig ens sigs (N & L & D) F].
    + exists [], c. split; [reflexivity|reflexivity].
    + cbn [multisig_loop ploop]. destruct en as [|b en]; [congruence|]. unfold ecdsa_split. rewrite D, L.
      assert (K : cached_hash e sub f c = (hash, Some (f, hash))).
      { unfold cached_hash. rewrite Hh. destruct Hc as [->| ->]; [reflexivity|]. rewrite Z.eqb_refl. reflexivity. }
      rewrite K. apply IH; [right; reflexivity|]. destruct (ve k hash sig); [exact F|]. constructor; [|exact F]. split; auto.
Qed.
Lemma compress_F2 keys : forall ks, compress_keys compress keys = Some ks -> len ks = len keys /\ forall h sigs, ploop h ks sigs = ploop h keys sigs.
Proof.
  induction keys as [|k keys IH]; intros ks; cbn [compress_keys]; [intros [= <-]; auto|].
  destruct (to_compressed compress k) as [k'|] eqn:C; [|discriminate]. cbn [obind]. destruct (compress_keys compress keys) as [ks'|]; [|discriminate].
  cbn [obind]. intros [= <-]. destruct (IH _ eq_refl) as [L P]. split; [rewrite !len_cons, L; reflexivity|]. intros h sigs. cbn [ploop].
  destruct sigs as [|g sigs]; [reflexivity|]. rewrite P. f_equal.
  assert (X : ve k' h g = ve k h g).
  { unfold to_compressed in C. destruct (len k =? 33); [injection C as ->; reflexivity|]. destruct (len k =? 65); [|discriminate]. apply compress_ok, C. }
  rewrite X. reflexivity.
Qed.
Lemma F2_len {A B} (P : A -> B -> Prop) l m : Forall2 P l m -> len l = len m.
Proof. induction 1; [reflexivity|]. rewrite !len_cons. lia. Qed.
Lemma capture_multisig_ok keys ens s l : len keys <= 16 -> len ens <= len keys ->
  exists v l', capture_multisig e on spends compress keys ens s l = Some (v, l') /\
  ((v = false /\ l' = l) \/
   (v = true /\ exists G ens' c, ext l G [] l' /\ multisig_loop e (subscript e ens s) keys ens None = (Some ens', c) /\ all_valid G [] = match ens' with [] => true | _ => false end)).
Proof.
  intros Hk He. unfold capture_multisig. assert (N : exists v l', Some (false, l) = Some (v, l') /\
    ((v = false /\ l' = l) \/ (v = true /\ exists G ens' c, ext l G [] l' /\ multisig_loop e (subscript e ens s) keys ens None = (Some ens', c) /\ all_valid G [] = match ens' with [] => true | _ => false end))).
  { exists false, l. auto. }
  destruct (negb on); [exact N|]. destruct (negb _); [exact N|].
  destruct (Z.gtb_spec (len ens) 16); [lia|]. destruct (Z.gtb_spec (len keys) 16); [lia|]. cbn [orb].
  unfold parse_multisig. destruct (parse_signatures e None ens) as [[byte sigs]|] eqn:P; [|exact N]. cbn [obind].
  destruct byte as [f|]; [|exact N]. cbn [obind]. destruct (compress_keys compress keys) as [ks|] eqn:C; [|exact N]. cbn [obind].
  destruct (signature_hash e (subscript e ens s) f) as [hash|] eqn:Hh; [|exact N]. cbn [obind].
  destruct (parse_ok _ _ _ _ P) as [_ F]. destruct (compress_F2 _ _ C) as [L PL].
  unfold put_group. assert (M : multisig_check (len sigs) (len ks) = true).
  { rewrite <- (F2_len _ _ _ F), L. destruct ens as [|en ens]; [discriminate|]. rewrite len_cons in *. pose proof (len_nonneg ens). unfold multisig_check.
    destruct (Z.eqb_spec (1 + len ens) 0); [lia|]. destruct (Z.eqb_spec (len keys) 0); [lia|]. destruct (Z.gtb_spec (len keys) 16); [lia|].
    destruct (Z.gtb_spec (1 + len ens) (len keys)); [lia|reflexivity]. }
  rewrite M. cbn [negb]. destruct (_ >? 65535); [exact N|]. eexists true, _. split; [reflexivity|]. right. split; [reflexivity|].
  destruct (loop_ploop _ _ _ Hh keys ens sigs None (or_introl eq_refl) F) as (ens' & c & E & Q).
  exists [(hash, ks, sigs)], ens', c. split; [split; cbn; rewrite ?app_nil_r; reflexivity|]. split; [exact E|].
  unfold all_valid. cbn [forallb verify_group]. rewrite !Bool.andb_true_r. pose proof (group_ploop hash ks sigs) as GP. rewrite PL in GP.
  destruct (group_loop ve hash ks sigs), ens' as [|x ens']; try reflexivity.
  - assert (A : x :: ens' = []) by (apply Q, GP; reflexivity). discriminate.
  - assert (A : l0 :: l1 = []) by (apply GP, Q; reflexivity). discriminate.
Qed.
Lemma pop_n_len n : forall s l s', pop_n n s = Some (l, s') -> length l = n.
Proof.
  induction n as [|n IH]; intros s l s'; cbn [pop_n]; [intros [= <- _]; reflexivity|].
  destruct (pop_chunk_ s) as [[c s1]|]; [|discriminate]. cbn [obind]. destruct (pop_n n s1) as [[l' s2]|] eqn:P; [|discriminate]. intros [= <- _].
  cbn [length]. f_equal. eapply IH, P.
Qed.
Lemma pop_chunks_len n s l s' : 0 <= n -> pop_chunks n s = Some (Some l, s') -> len l = n.
Proof.
  intros Hn. unfold pop_chunks. destruct (_ <? _); [discriminate|]. destruct (pop_n _ s) as [[l' s2]|] eqn:P; [|discriminate]. intros [= <- _].
  apply pop_n_len in P. unfold len. lia.
Qed.
Lemma pop_index_nonneg s n s' : pop_index32 s = Some (Some n, s') -> 0 <= n.
Proof.
  unfold pop_index32. destruct (pop_signed32 s) as [[[v|] s1]|]; try discriminate. cbn [obind]. intros [= E _]. destruct (Z.ltb_spec v 0); [discriminate|].
  destruct (v <? _); [injection E as <-; assumption|discriminate].
Qed.
Lemma LL_cms position o s l : code o = 174 -> (forall n s', pop_index32 s = Some (Some n, s') -> n <= 16) ->
  LL (run_op_c e on spends compress position o s l) l (run_op e position o s).
Proof.
  intros E B. rewrite run_op_sig. unfold run_op_c. rewrite E. cbn [Z.eqb Pos.eqb]. unfold op_check_multisig_c, op_check_multisig, op_check_multisig_verify_c, op_check_multisig_verify. rewrite legacy.
  destruct (pop_index32 s) as [[[n|] s1]|] eqn:Pn; [| |reflexivity]; cbn [obind]; [|apply LL_same].
  destruct (enabled e bip66_rule).
  all: destruct (n >? 20); [apply LL_same|]; destruct (ops_increment_keys e n s1) as [[] s2]; [|apply LL_same]; cbn [negb].
  all: destruct (pop_chunks n s2) as [[[keys|] s3]|] eqn:Pk; [| |reflexivity]; cbn [obind]; [|apply LL_same].
  all: destruct (pop_index32 s3) as [[[m|] s4]|] eqn:Pm; [| |reflexivity]; cbn [obind]; [|apply LL_same].
  all: destruct (Z.gtb_spec m (len keys)) as [|Hm]; [apply LL_same|].
  all: destruct (pop_chunks m s4) as [[[ens|] s5]|] eqn:Pe; [| |reflexivity]; cbn [obind]; [|apply LL_same].
  all: destruct (is_stack_empty s5); [apply LL_same|]; destruct (pop_strict_bool_ s5) as [[dummy s6]|]; [|reflexivity]; cbn [obind].
  all: destruct (dummy && _); [apply LL_same|].
  all: pose proof (pop_index_nonneg _ _ _ Pn) as Hn0; pose proof (pop_index_nonneg _ _ _ Pm) as Hm0; pose proof (B _ _ eq_refl) as Hn;
       pose proof (pop_chunks_len _ _ _ _ Hn0 Pk) as Lk; pose proof (pop_chunks_len _ _ _ _ Hm0 Pe) as Le.
  all: destruct (capture_multisig_ok keys ens s6 l) as (v & l' & -> & [[-> ->]|(-> & G & ens' & c & X & -> & V)]); [lia|lia| |]; cbn [obind].
  1, 3: destruct (multisig_loop _ _ _ _ _) as [[[|]|] c]; apply LL_same.
  all: exists G, []; split; [exact X|]; rewrite V; destruct ens'; [eexists; split; [reflexivity|auto]|right; eexists _, (prim s6); split; reflexivity].
Qed.
Lemma LS_multi n o : is_positive_op (code n) = true -> code o = 174 -> forall position s l, LS (loopc position [n; o] s l) l (run_loop e position [n; o] s).
Proof.
  intros Hn Ho position s l.
  assert (Rn : 81 <= code n <= 96).
  { revert Hn. unfold is_positive_op. intros Hn. lia. }
  assert (Q : quiet n). { apply sigop_quiet. unfold sigop. cbn [one_of existsb]. clear - Rn. lia. }
  assert (Cn : is_conditional (code n) = false). { clear - Rn. unfold is_conditional. cbn. lia. }
  assert (Co : is_conditional (code o) = false) by (rewrite Ho; reflexivity).
  change (loopc position [n; o] s l) with (
    if is_oversized_op n then Some (invalid_push_data_size, s, l)
    else
      let (counted, s1) := ops_increment_op e n s in
      if negb counted then Some (invalid_operation_count, s1, l)
      else if is_conditional (code n) || is_success s1 then
        do (r, l) <- run_op_c e on spends compress position n s1 l;
        let (code, s2) := (r : ec * st) in
        match code with
        | op_success => if is_stack_overflow s2 then Some (invalid_stack_size, s2, l) else loopc (S position) [o] s2 l
        | _ => Some (op_failure code, s2, l)
        end
      else loopc (S position) [o] s1 l).
  change (run_loop e position [n; o] s) with (
    if is_oversized_op n then Some (invalid_push_data_size, s)
    else
      let (counted, s1) := ops_increment_op e n s in
      if negb counted then Some (invalid_operation_count, s1)
      else if is_conditional (code n) || is_success s1 then
        do (code, s2) <- run_op e position n s1;
        match code with
        | op_success => if is_stack_overflow s2 then Some (invalid_stack_size, s2) else run_loop e (S position) [o] s2
        | _ => Some (op_failure code, s2)
        end
      else run_loop e (S position) [o] s1).
  destruct (is_oversized_op n); [exists [], []; split; [apply ext_nil|exists s; auto]|].
  destruct (ops_increment_op e n s) as [counted s1]. destruct (negb counted); [exists [], []; split; [apply ext_nil|exists s1; auto]|].
  rewrite Cn. cbn [orb]. destruct (is_success s1) eqn:Su.
  - rewrite Q. assert (En : run_op e position n s1 = Some (op_success, push_signed64 (code n - 80) s1)).
    { unfold run_op. destruct (Z.eqb_spec (code n) 0); [lia|]. destruct (Z.leb_spec 1 (code n)); [|lia]. destruct (Z.leb_spec (code n) 75); [lia|]. cbn [andb].
      destruct (Z.eqb_spec (code n) 76); [lia|]. destruct (Z.eqb_spec (code n) 77); [lia|]. destruct (Z.eqb_spec (code n) 78); [lia|]. destruct (Z.eqb_spec (code n) 79); [lia|].
      destruct (Z.leb_spec 81 (code n)); [|lia]. destruct (Z.leb_spec (code n) 96); [|lia]. reflexivity. }
    rewrite En. cbn [obind retc]. destruct (is_stack_overflow _); [exists [], []; split; [apply ext_nil|eexists; split; reflexivity]|].
    apply LS_last. intros counted' s3 I3. apply LL_cms; [exact Ho|].
    assert (P3 : prim s3 = VInt (code n - 80) :: prim s1).
    { revert I3. unfold ops_increment_op. rewrite legacy. intros [= _ <-]. destruct (is_counted (code o)); reflexivity. }
    intros k s'. unfold pop_index32, pop_signed32, is_stack_empty, pop_signed32_, top, drop_. rewrite P3. cbn [hd_error obind variant_signed].
    assert (K : snd (integer_from_integer 4 (code n - 80)) <= 16). { unfold integer_from_integer. cbn [snd]. change (signed_type 4) with i32. rewrite wrap_fits; [lia|reflexivity|]. unfold fits, imin, imax. cbn. lia. }
    destruct (integer_from_integer 4 (code n - 80)) as [[] v]; cbn [snd] in K; cbn [obind]; [|discriminate].
    intros [= E _]. destruct (v <? 0); [discriminate|]. destruct (v <? _); [injection E as <-; exact K|discriminate].
  - cbn [run_loop_c run_loop]. destruct (is_oversized_op o); [exists [], []; split; [apply ext_nil|exists s1; auto]|].
    destruct (ops_increment_op e o s1) as [counted' s3] eqn:I3.
    destruct (negb counted'); [exists [], []; split; [apply ext_nil|exists s3; auto]|].
    assert (P3 : is_success s3 = false).
    { revert I3. unfold ops_increment_op. rewrite legacy. intros [= _ <-]. destruct (is_counted (code o)); exact Su. }
    rewrite Co, P3. exists [], []; split; [apply ext_nil|exists s3; auto].
Qed.
End Ecdsa.

(** ** Scripts *)
Definition pushes_ok (s : list op) : Prop := Forall (fun o => data o <> [] -> code o <= 78 \/ code o = 101) s.
Lemma data_quiet o : (data o <> [] -> code o <= 78 \/ code o = 101) -> data o <> [] -> sigop (code o) = false.
Proof. intros H D. destruct (H D) as [L|L]; unfold sigop; cbn [one_of existsb]; lia. Qed.
Lemma key_nonempty d : is_public_key d = true -> d <> [].
Proof. intros H ->. revert H. vm_compute. discriminate. Qed.
Lemma standard_shape s : is_multisig_standard_pattern s = true ->
  exists m keys n o, s = m :: keys ++ [n; o] /\ is_positive_op (code m) = true /\ is_positive_op (code n) = true /\
    forallb (fun o => is_public_key (data o)) keys = true /\ code o = 174.
Proof.
  intros B. unfold is_multisig_standard_pattern in B. destruct (Z.ltb_spec (len s) 4) as [|L]; [discriminate|]. cbn [orb] in B.
  destruct s as [|m r]; [change (len (@nil op)) with 0 in L; lia|]. rewrite len_cons in L.
  destruct (exists_last (l := r)) as (r' & o & ->). { intros ->. change (len (@nil op)) with 0 in L. lia. }
  rewrite len_app in L. change (len [o]) with 1 in L.
  destruct (exists_last (l := r')) as (keys & n & ->). { intros ->. change (len (@nil op)) with 0 in L. lia. }
  clear L. rewrite <- app_assoc in B |- *. cbn [app] in B |- *. exists m, keys, n, o. split; [reflexivity|].
  assert (El : last (m :: keys ++ [n; o]) (mkop 0 [] false) = o).
  { change (m :: keys ++ [n; o]) with ((m :: keys) ++ [n] ++ [o]). rewrite app_assoc. apply last_last. }
  rewrite El in B.
  assert (Len : length (m :: keys ++ [n; o]) = (length keys + 3)%nat) by (cbn [length]; rewrite app_length; cbn [length]; lia).
  rewrite Len in B.
  replace (length keys + 3 - 2)%nat with (S (length keys)) in B by lia. replace (length keys + 3 - 3)%nat with (length keys) in B by lia.
  assert (En : nth_op (S (length keys)) (m :: keys ++ [n; o]) = n).
  { unfold nth_op. cbn [nth]. rewrite app_nth2 by lia. rewrite Nat.sub_diag. reflexivity. }
  rewrite En in B. change (nth_op 0 (m :: keys ++ [n; o])) with m in B.
  change (skipn 1 (m :: keys ++ [n; o])) with (keys ++ [n; o]) in B. rewrite firstn_app, Nat.sub_diag, firstn_all, firstn_O, app_nil_r in B.
  destruct (Z.eqb_spec (code o) 174); [|discriminate]. cbn [negb] in B. destruct (is_positive_op (code m)); [|discriminate]. destruct (is_positive_op (code n)); [|discriminate].
  cbn [negb orb] in B. destruct (_ || _); [discriminate|]. auto.
Qed.
Lemma LS_script s l : pushes_ok (escript e) -> LS (loopc 0%nat (escript e) s l) l (run_loop e 0 (escript e) s).
Proof.
  intros W. destruct (enabled e bip342_rule) eqn:T; [apply LS_tapscript, T|].
  destruct (on && is_ecdsa_batchable e spends) eqn:A.
  - apply Bool.andb_true_iff in A. destruct A as [_ A]. unfold is_ecdsa_batchable in A. apply Bool.andb_true_iff in A. destruct A as [_ A]. apply Bool.orb_true_iff in A.
    assert (K : exists init o, escript e = init ++ [o] /\ Forall quiet init /\ code o = 172).
    { destruct A as [A|A].
      - unfold is_pay_public_key_pattern in A. destruct (escript e) as [|a [|b [|? ?]]]; try discriminate. apply Bool.andb_true_iff in A. destruct A as [A B]. apply Z.eqb_eq in B.
        exists [a], b. split; [reflexivity|]. split; [|exact B]. constructor; [|constructor]. apply sigop_quiet, data_quiet; [inversion W; assumption|]. apply key_nonempty, A.
      - unfold is_pay_key_hash_pattern in A. destruct (escript e) as [|a [|b [|c [|d [|f [|? ?]]]]]]; try discriminate.
        rewrite !Bool.andb_true_iff in A. destruct A as ((((A1 & A2) & A3) & A4) & A5). apply Z.eqb_eq in A1, A2, A4, A5.
        exists [a; b; c; d], f. split; [reflexivity|]. split; [|exact A5].
        constructor; [apply sigop_quiet; rewrite A1; reflexivity|]. constructor; [apply sigop_quiet; rewrite A2; reflexivity|].
        constructor; [|constructor; [apply sigop_quiet; rewrite A4; reflexivity|constructor]]. apply sigop_quiet, data_quiet; [inversion W as [|? ? ? W1]; subst; inversion W1 as [|? ? ? W2]; subst; inversion W2; assumption|].
        intros K. rewrite K in A3. discriminate A3. }
    destruct K as (init & o & -> & Q & Ho). apply LS_quiet; [exact Q|]. intros position s' l'. apply LS_last. intros. apply LL_cs; assumption.
  - destruct (on && is_multisig_batchable e spends) eqn:B.
    + apply Bool.andb_true_iff in B. destruct B as [_ B]. unfold is_multisig_batchable in B. apply Bool.andb_true_iff in B. destruct B as [_ B].
      assert (K : exists init n o, escript e = init ++ [n; o] /\ Forall quiet init /\ is_positive_op (code n) = true /\ code o = 174).
      { destruct (standard_shape _ B) as (m & keys & n & o & E & Hm & Hn & Hk & Ho). exists (m :: keys), n, o. rewrite E in W |- *. split; [reflexivity|]. split; [|auto].
        inversion W as [|? ? _ W']; subst. apply Forall_app in W'. destruct W' as [W' _]. constructor.
        - apply sigop_quiet. unfold is_positive_op in Hm. unfold sigop. cbn [one_of existsb]. clear - Hm. lia.
        - rewrite Forall_forall in *. intros x Hx. apply sigop_quiet, data_quiet; [apply W', Hx|]. apply key_nonempty. rewrite forallb_forall in Hk. apply Hk, Hx. }
      destruct K as (init & n & o & -> & Q & Hn & Ho). apply LS_quiet; [exact Q|]. intros position s' l'. apply LS_multi; assumption.
    + rewrite <- (app_nil_r (escript e)). apply LS_quiet; [|intros; exists [], []; split; [apply ext_nil|exists s0; auto]].
      apply Forall_forall. intros o _. apply plain_quiet; assumption.
Qed.
End Lockstep.
