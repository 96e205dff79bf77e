(** Lockstep of connect with a capture and connect without. *)
From Verif Require Import Base Bytes MathModel ShaModel AccModel KdfModel SigopSpec StreamModel NumberModel StateModel OpModel ChainModel BlockModel ValidModel PatternModel InterpEnv InterpModel InterpTrace SighashModel ConnectSpec ConnectModel BatchModel BatchProofs.

(** Parsed scripts *)
Definition data_ok (o : op) : Prop := data o <> [] -> code o <= 78 \/ code o = 101.
Lemma op_data_ok s : data_ok (fst (op_from_data s)).
Proof.
  unfold op_from_data. destruct (negb (good s)); [intros _; right; reflexivity|]. destruct (read_byte s) as [c s1]. cbv zeta.
  unfold read_data_size. change push_one_size with 76. change push_two_size with 77. change push_four_size with 78. change push_size_75 with 75.
  destruct (Z.leb_spec c 78) as [L|L].
  - match goal with |- context[let (_, _) := ?r in _] => destruct r as [size s2] end.
    match goal with |- context[let (_, _) := ?r in _] => destruct r as [u s4] end.
    destruct (negb (good s4)); [|intros _; left; exact L]. match goal with |- context[let (_, _) := ?r in _] => destruct r as [all s5] end. intros _. right. reflexivity.
  - destruct (Z.eqb_spec c 76); [lia|]. destruct (Z.eqb_spec c 77); [lia|]. destruct (Z.eqb_spec c 78); [lia|]. destruct (Z.leb_spec c 75); [lia|].
    change (0 >? max_bytes) with false. cbv iota. destruct (good s1) eqn:G; cbn [read_bytes Z.eqb].
    + rewrite G. cbn [negb]. intros C. destruct (C eq_refl).
    + rewrite G. cbn [negb]. match goal with |- context[let (_, _) := ?r in _] => destruct r as [all s5] end. intros _. right. reflexivity.
Qed.
Lemma parsed_pushes d : pushes_ok (to_script d).
Proof.
  unfold to_script, script_from_data. cbv zeta. generalize (op_count (fresh d)). intros s. generalize (S (length (rest s))). intros fuel.
  assert (R : forall s, pushes_ok (fst (read_ops fuel s))).
  { induction fuel as [|fuel IH]; intros s'; [constructor|]. cbn [read_ops]. destruct (exhausted s'); [constructor|].
    pose proof (op_data_ok s') as O. destruct (op_from_data s') as [o s1]. specialize (IH s1). destruct (read_ops fuel s1) as [os s2]. constructor; [exact O|exact IH]. }
  specialize (R s). destruct (read_ops fuel s) as [ops s3]. exact R.
Qed.

Section Connect.
Variables (checked s8 : bool) (widths : list nat) (on : bool).
Variable compress : list Z -> option (list Z).
Variable sp : spender.
Notation ve := (verify_ecdsa (base sp)).
Notation vs := (verify_schnorr (base sp)).
Hypothesis compress_ok : forall k k' h g, compress k = Some k' -> ve k' h g = ve k h g.
Definition entries_valid (G : list group) (R : list row) : bool := forallb (verify_group ve) G && forallb (verify_row vs) R.
Lemma entries_valid_app G R G' R' : entries_valid (G ++ G') (R ++ R') = entries_valid G R && entries_valid G' R'.
Proof. unfold entries_valid. rewrite !forallb_app. destruct (forallb _ G), (forallb _ G'), (forallb _ R), (forallb _ R'); reflexivity. Qed.
Definition refused (r : option connect_code) : Prop := exists c, r = Some c /\ c <> c_success.
Definition LC (rc : option (connect_code * log)) (l : log) (r : option connect_code) : Prop :=
  match rc with
  | Some (c, l') => exists G R, ext l G R l' /\ if entries_valid G R then r = Some c else refused r
  | None => r = None \/ refused r
  end.
Lemma LC_same c l : LC (Some (c, l)) l (Some c).
Proof. exists [], []. split; [apply ext_nil|reflexivity]. Qed.
Lemma LC_run e (rc : option (sc * st * log)) l r (kc : sc * st -> log -> option (connect_code * log)) (k : sc -> st -> option connect_code) :
  verify_ecdsa (ectx e) = ve -> verify_schnorr (ectx e) = vs -> LS e rc l r ->
  (forall c s s' l1, prim s' = prim s -> LC (kc (c, s) l1) l1 (k c s')) ->
  (forall c s, failed (Some (c, s)) -> refused (k c s)) ->
  LC (do (p, l1) <- rc; kc p l1) l (do (c, s) <- r; k c s).
Proof.
  intros E1 E2 L K F. unfold LS, all_valid in L. rewrite E1, E2 in L. destruct rc as [[[c s] l1]|]; cbn [obind].
  - destruct L as (G & R & X & V). change (forallb (verify_group ve) G && forallb (verify_row vs) R) with (entries_valid G R) in V.
    destruct (entries_valid G R) eqn:A.
    + destruct V as (s' & -> & P). cbn [obind]. specialize (K c s s' l1 P). unfold LC in *. destruct (kc (c, s) l1) as [[c' l2]|]; [|exact K].
      destruct K as (G' & R' & X' & V'). exists (G ++ G'), (R ++ R'). split; [eapply ext_trans; eassumption|]. rewrite entries_valid_app, A. exact V'.
    + destruct r as [[c' s']|]; [|destruct V]. cbn [obind]. specialize (F c' s' V). unfold LC. specialize (K c s s l1 eq_refl). unfold LC in K. destruct (kc (c, s) l1) as [[c2 l2]|]; [|right; exact F].
      destruct K as (G' & R' & X' & V'). exists (G ++ G'), (R ++ R'). split; [eapply ext_trans; eassumption|]. rewrite entries_valid_app, A. exact F.
  - unfold LC. destruct L as [->|L]; [left; reflexivity|]. destruct r as [[c' s']|]; [|destruct L]. right. apply F, L.
Qed.
Lemma LS_run e s l : (forall k k' h g, compress k = Some k' -> verify_ecdsa (ectx e) k' h g = verify_ecdsa (ectx e) k h g) -> pushes_ok (escript e) ->
  LS e (run_c e on false compress s l) l (run e s).
Proof.
  intros C W. unfold run_c, run. destruct (initialize e s) as [c|]; [exists [], []; split; [split; cbn; rewrite app_nil_r; reflexivity|exists s; auto]|].
  pose proof (LS_script e on false compress C s (mklog (l_groups l) (l_rows l) None) W) as L. unfold LS in *.
  destruct (run_loop_c _ _ _ _ _ _ _ _) as [[[c s'] l']|]; exact L.
Qed.
(** The input script's signatures are never captured. *)
Lemma masked_tapscript f : Z.testbit (masked f) 16 = false.
Proof. unfold masked. rewrite Z.land_spec, Z.lxor_spec. apply Bool.andb_false_iff. right. reflexivity. Qed.
Lemma run_c_spends e s l : enabled e bip342_rule = false -> exists l', ext l [] [] l' /\
  run_c e on true compress s l = match run e s with Some (c, s') => Some (c, s', l') | None => None end.
Proof.
  intros T. unfold run_c, run. exists (mklog (l_groups l) (l_rows l) None). split; [split; cbn; rewrite app_nil_r; reflexivity|]. destruct (initialize e s); [reflexivity|]. generalize (mklog (l_groups l) (l_rows l) None) as l0. intros l0.
  generalize 0%nat as position. revert s. generalize (escript e) as ops. intros ops.
  assert (Q : forall o, quiet e on true compress o).
  { intros o. apply plain_quiet; [exact T| |]; unfold is_ecdsa_batchable, is_multisig_batchable; cbn [negb andb]; apply Bool.andb_false_r. }
  induction ops as [|o ops IH]; intros s position; cbn [run_loop_c run_loop]; [reflexivity|].
  destruct (is_oversized_op o); [reflexivity|]. destruct (ops_increment_op e o s) as [[] s1]; [|reflexivity]. cbn [negb].
  destruct (_ || _); [|apply IH]. rewrite Q. destruct (run_op e position o s1) as [[c s2]|]; [|reflexivity]. cbn [obind retc].
  destruct c; try reflexivity. destruct (is_stack_overflow s2); [reflexivity|apply IH].
Qed.
Lemma is_true_prim clean s s' : prim s' = prim s -> is_true clean s' = is_true clean s.
Proof. intros E. unfold is_true, stack_size, is_stack_empty, top. rewrite E. reflexivity. Qed.
Lemma key_hash_pushes h : len h = 20 -> pushes_ok (to_pay_key_hash h).
Proof.
  intros L. unfold to_pay_key_hash, pushes_ok, opc. do 2 (apply Forall_cons; [intros C; destruct (C eq_refl)|]).
  apply Forall_cons; [|do 2 (apply Forall_cons; [intros C; destruct (C eq_refl)|]); constructor]. intros _. left. unfold push, from_push_data, nominal_opcode_from_data. cbn [code]. rewrite L. cbn. lia.
Qed.
Lemma LC_witness w p embedded l : LC (connect_witness_c checked s8 widths on compress sp w p embedded l) l (connect_witness checked s8 widths sp w p embedded).
Proof.
  unfold connect_witness_c, connect_witness. destruct (ValidModel.script_version p); try apply LC_same.
  - assert (K : forall s stack, extract_segwit checked s8 widths w p = inr (s, stack) -> pushes_ok s).
    { intros s stack. unfold extract_segwit. destruct (len (witness_program p) =? 20) eqn:L20.
      - destruct (len w =? 2); [|discriminate]. intros [= <- _]. apply key_hash_pushes, Z.eqb_eq, L20.
      - destruct (_ =? 32); [|discriminate]. destruct w as [|x w]; [discriminate|]. destruct (bytes_eqb _ _); [|discriminate]. intros E. injection E as E _. rewrite <- E. apply parsed_pushes. }
    destruct (extract_segwit checked s8 widths w p) as [c|[s stack]]; [apply LC_same|]. specialize (K _ _ eq_refl).
    refine (LC_run (segwit_program sp s stack) _ _ _ (fun r l => Some (match fst r with script_success => if is_true true (snd r) then c_success else c_stack_false | c => c_script c end, l)) _ eq_refl eq_refl (LS_run (segwit_program sp s stack) _ _ compress_ok K) _ _).
    + intros c f f' l1 P. cbn [fst snd]. rewrite (is_true_prim _ _ _ P). destruct c; apply LC_same.
    + intros c f F. destruct c; try (eexists; split; [reflexivity|discriminate]). rewrite (F true). eexists; split; [reflexivity|discriminate].
  - destruct (_ || _); [apply LC_same|].
    assert (K : forall leaf s stack, extract_taproot checked s8 widths sp w p = inr (leaf, s, stack) -> pushes_ok s).
    { intros leaf s stack. unfold extract_taproot, success_script. cbv zeta. destruct (_ =? 32).
      - generalize (if is_annex_pattern w then removelast w else w). intros u. destruct (_ >? 1).
        + destruct (negb _); [discriminate|]. destruct (negb _); [discriminate|].
          destruct (_ =? 192); intros E; injection E as _ E _; rewrite <- E; [apply parsed_pushes|]. constructor; [intros C; destruct (C eq_refl)|constructor].
        + destruct (_ =? 1); [|discriminate]. intros E; injection E as _ E _; rewrite <- E. constructor; [intros C; destruct (C eq_refl)|constructor].
      - intros E; injection E as _ E _; rewrite <- E. constructor; [intros C; destruct (C eq_refl)|constructor]. }
    destruct (extract_taproot checked s8 widths sp w p) as [c|[[leaf s] stack]]; [apply LC_same|]. specialize (K _ _ _ eq_refl).
    refine (LC_run (taproot_program sp leaf s stack) _ _ _ (fun r l => Some (match fst r with script_success => if is_true true (snd r) then c_success else c_stack_false | prevalid_script => c_success | c => c_script c end, l)) _ eq_refl eq_refl (LS_run (taproot_program sp leaf s stack) _ _ compress_ok K) _ _).
    + intros c f f' l1 P. cbn [fst snd]. rewrite (is_true_prim _ _ _ P). destruct c; apply LC_same.
    + intros c f F. destruct c; try (eexists; split; [reflexivity|discriminate]); [|destruct F]. rewrite (F true). eexists; split; [reflexivity|discriminate].
Qed.
Lemma LC_embedded s w final l : LC (connect_embedded_c checked s8 widths on compress sp s w final l) l (connect_embedded checked s8 widths sp s w final).
Proof.
  unfold connect_embedded_c, connect_embedded. destruct (negb _); [apply LC_same|]. destruct (pop_chunk_ final) as [[d rest]|]; [|left; reflexivity]. cbn [obind]. cbv zeta.
  refine (LC_run (legacy_program sp (to_script d)) _ _ _ (fun r l => match fst r with script_success => if negb (is_true false (snd r)) then Some (c_stack_false, l)
      else if is_pay_to_witness sp (to_script d) then if negb (is_nominal_push_pattern s) then Some (c_dirty_embed, l) else connect_witness_c checked s8 widths on compress sp w (to_script d) true l
      else if negb (len w =? 0) then Some (c_unexpected_witness, l) else Some (c_success, l) | c => Some (c_script c, l) end) _ eq_refl eq_refl (LS_run (legacy_program sp (to_script d)) _ _ compress_ok (parsed_pushes d)) _ _).
  - intros c f f' l1 P. cbn [fst snd]. rewrite (is_true_prim _ _ _ P). destruct c; try apply LC_same.
    destruct (negb _); [apply LC_same|]. destruct (is_pay_to_witness _ _); [destruct (negb _); [apply LC_same|apply LC_witness]|]. destruct (negb _); apply LC_same.
  - intros c f F. destruct c; try (eexists; split; [reflexivity|discriminate]). rewrite (F false). eexists; split; [reflexivity|discriminate].
Qed.
Lemma LC_connect s w d l : LC (connect_c checked s8 widths on compress sp s w (Some (to_script d)) l) l (connect checked s8 widths sp s w (Some (to_script d))).
Proof.
  unfold connect_c, connect. destruct (run_c_spends (legacy_program sp s) (initial [] 0) l) as (l1 & X & E); [apply masked_tapscript|]. rewrite E.
  destruct (run (legacy_program sp s) (initial [] 0)) as [[c f]|]; [|left; reflexivity]. cbn [obind fst snd].
  assert (X1 : forall rc r, LC rc l1 r -> LC rc l r).
  { intros rc r H. destruct rc as [[c' l2]|]; [|exact H]. destruct H as (G & R & X' & V). exists ([] ++ G), ([] ++ R). split; [eapply ext_trans; eassumption|exact V]. }
  apply X1. destruct c; try apply LC_same.
  refine (LC_run (legacy_program sp (to_script d)) _ _ _ (fun r2 l => match fst r2 with script_success =>
        if negb (is_true false (snd r2)) then Some (c_stack_false, l)
        else if is_pay_to_script_hash sp (to_script d) then connect_embedded_c checked s8 widths on compress sp s w f l
        else if is_pay_to_witness sp (to_script d) then
          if negb (len s =? 0) then Some (c_dirty_witness, l)
          else connect_witness_c checked s8 widths on compress sp w (to_script d) false l
        else if negb (len w =? 0) then Some (c_unexpected_witness, l)
        else Some (c_success, l)
      | c => Some (c_script c, l) end) _ eq_refl eq_refl (LS_run (legacy_program sp (to_script d)) _ _ compress_ok (parsed_pushes d)) _ _).
  - intros c f2 f' l2 P. cbn [fst snd]. rewrite (is_true_prim _ _ _ P). destruct c; try apply LC_same.
    destruct (negb _); [apply LC_same|]. destruct (is_pay_to_script_hash _ _); [apply LC_embedded|].
    destruct (is_pay_to_witness _ _); [destruct (negb _); [apply LC_same|apply LC_witness]|]. destruct (negb _); apply LC_same.
  - intros c f2 F. destruct c; try (eexists; split; [reflexivity|discriminate]). rewrite (F false). eexists; split; [reflexivity|discriminate].
Qed.
End Connect.
