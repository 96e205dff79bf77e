From Verif Require Import Base Bytes MathModel StreamModel StateModel OpModel ChainModel ChainSpec ChainProofs4 BlockModel BlockSpec BlockProofs3 BlockProps ValidModel ValidSpec ValidProofs.

Lemma errc_success (e : errc) : {e = success} + {e <> success}.
Proof. destruct e; (left; reflexivity) || (right; discriminate). Qed.
Lemma point_eq_true p q : point_eq p q = true <-> p = q.
Proof.
  destruct p as [a x], q as [b y]. unfold point_eq. cbn [fst snd]. rewrite andb_true_iff, bytes_eq_true, Z.eqb_eq. split; [intros [-> ->]; reflexivity|intros E; injection E as -> ->; auto].
Qed.
Lemma spent_test p l : existsb (point_eq p) l = true <-> In p l.
Proof.
  rewrite existsb_exists. split; [intros (q & Hq & E); apply point_eq_true in E; subst; exact Hq|].
  intros H. exists p. split; [exact H|]. apply point_eq_true. reflexivity.
Qed.
(** ** Sums over ledgers. *)
Lemma worth_app a b : worth (a ++ b) = worth a + worth b.
Proof. unfold worth. rewrite map_app. apply total_app. Qed.
Lemma worth_split f U : worth U = worth (filter f U) + worth (filter (fun e => negb (f e)) U).
Proof.
  induction U as [|e U IH]; [reflexivity|]. change (worth (e :: U)) with (out_value (snd e) + worth U). cbn [filter].
  destruct (f e); cbn [negb]; [change (worth (e :: filter f U)) with (out_value (snd e) + worth (filter f U))|change (worth (e :: filter (fun e0 => negb (f e0)) U)) with (out_value (snd e) + worth (filter (fun e0 => negb (f e0)) U))]; lia.
Qed.
Definition ledger_ok (U : ledger) : Prop := Forall (fun e => 0 <= out_value (snd e) < 2 ^ 64) U.
Lemma worth_nonneg U : ledger_ok U -> 0 <= worth U.
Proof. intros H. apply total_nonneg, Forall_map. eapply Forall_impl; [|exact H]. intros e He. cbv beta in He. lia. Qed.
Lemma ledger_ok_app a b : ledger_ok (a ++ b) <-> ledger_ok a /\ ledger_ok b.
Proof. apply Forall_app. Qed.
Lemma incl_worth ins : forall U, ledger_ok U -> NoDup ins -> (forall e, In e ins -> In e U) -> worth ins <= worth U.
Proof.
  induction ins as [|e ins IH]; intros U Ok ND H; [apply worth_nonneg in Ok; exact Ok|].
  inversion ND as [|? ? N1 N2]; subst. destruct (in_split e U (H e (or_introl eq_refl))) as (u & v & ->).
  apply ledger_ok_app in Ok as [Oku Okv]. inversion Okv as [|? ? _ Okv']; subst.
  assert (I : worth ins <= worth (u ++ v)).
  { apply IH; [apply ledger_ok_app; auto|exact N2|]. intros x Hx. assert (X := H x (or_intror Hx)). apply in_app_or in X as [X|[X|X]]; [apply in_or_app; auto|subst; contradiction|apply in_or_app; auto]. }
  rewrite worth_app in *. change (worth (e :: ins)) with (out_value (snd e) + worth ins). change (worth (e :: v)) with (out_value (snd e) + worth v). lia.
Qed.
Lemma NoDup_map_inv' {A B} (f : A -> B) l : NoDup (map f l) -> NoDup l.
Proof. apply NoDup_map_inv. Qed.
Lemma index_created hash outs : forall k, Z.of_nat k + len outs <= 2 ^ 32 ->
  index_outputs hash (Z.of_nat k) outs = combine (map (fun n => (hash, Z.of_nat n)) (seq k (length outs))) outs.
Proof.
  induction outs as [|o outs IH]; intros k H; [reflexivity|]. rewrite len_cons in H. pose proof (len_nonneg outs). cbn [index_outputs length seq map combine]. f_equal.
  destruct outs as [|o2 outs]; [reflexivity|]. rewrite len_cons in *. pose proof (len_nonneg outs).
  replace (wrap u32 (Z.of_nat k + 1)) with (Z.of_nat (S k)); [apply IH; lia|]. rewrite wrap_fits; [lia|reflexivity|unfold fits; cbn [imin imax u32 sg bits]; lia].
Qed.
Lemma created_values D t : map snd (created D t) = tx_outputs t.
Proof.
  unfold created. generalize 0%nat. induction (tx_outputs t) as [|o l IH]; intros k; [reflexivity|]. cbn [length seq map combine snd]. f_equal. apply IH.
Qed.
Lemma worth_created D t : worth (created D t) = sum_outputs (tx_outputs t).
Proof. unfold worth, sum_outputs. rewrite <- (created_values D t), map_map. reflexivity. Qed.
Lemma created_ok D t : amounts (tx_outputs t) -> ledger_ok (created D t).
Proof.
  intros H. unfold ledger_ok. apply Forall_forall. intros e He. assert (X : In (snd e) (tx_outputs t)) by (rewrite <- (created_values D t); apply in_map, He).
  unfold amounts in H. rewrite Forall_forall in H. apply H, X.
Qed.
Lemma created_hash D t e : In e (created D t) -> fst (fst e) = D (tx_to_data false t).
Proof. unfold created. destruct e as [p o]. intros H. apply in_combine_l in H. apply in_map_iff in H as (n & <- & _). reflexivity. Qed.
Lemma tx_points_created D t : tx_ok t -> tx_points D t = created D t.
Proof.
  intros (_ & _ & _ & _ & L & _). unfold tx_points, created. rewrite (index_created _ _ 0) by (change (Z.of_nat 0) with 0; lia).
  rewrite (txid_data D t). reflexivity.
Qed.
Lemma tx_ok_amounts t : tx_ok t -> amounts (tx_outputs t).
Proof. intros (_ & _ & _ & _ & _ & O & _). eapply Forall_impl; [|exact O]. intros o [V _]. unfold u64_ok in V. lia. Qed.

(** ** Population. *)
Lemma find_point_some p l o : find_point p l = Some o -> In (p, o) l.
Proof.
  induction l as [|[q x] l IH]; cbn [find_point]; [discriminate|]. destruct (point_eq p q) eqn:E; [|intros H; right; apply IH, H].
  apply point_eq_true in E as ->. intros H. injection H as ->. left. reflexivity.
Qed.
Definition populated self points (i : input) (m m' : meta) : Prop :=
  (find_point (point_of i) points = None /\ m' = m) \/
  (exists o, find_point (point_of i) points = Some o /\ in_hash i <> self /\ prevout m' = Some o).
Lemma populate_inputs_spec self points bip68 t l ms : populate_inputs self points bip68 t l = (success, ms) ->
  length ms = length l /\ forall i m m', In ((i, m), m') (combine l ms) -> populated self points i m m'.
Proof.
  revert ms. induction l as [|[i m] l IH]; intros ms; cbn [populate_inputs].
  - intros E. injection E as <-. split; [reflexivity|]. intros i m m' [].
  - destruct (find_point (point_of i) points) as [o|] eqn:F.
    + destruct (bytes_eq (in_hash i) self) eqn:B; [discriminate|]. destruct (bip68 && is_internally_locked t (i, m)); [discriminate|].
      destruct (populate_inputs self points bip68 t l) as [ec ms'] eqn:P. intros E. injection E as -> <-. destruct (IH ms' eq_refl) as [L H].
      split; [cbn; lia|]. intros i' m0 m' [X|X]; [|apply (H i' m0 m' X)]. injection X as <- <- <-. right. exists o. split; [exact F|]. split; [|reflexivity].
      apply bytes_eq_false in B. exact B.
    + destruct (populate_inputs self points bip68 t l) as [ec ms'] eqn:P. intros E. injection E as -> <-. destruct (IH ms' eq_refl) as [L H].
      split; [cbn; lia|]. intros i' m0 m' [X|X]; [|apply (H i' m0 m' X)]. injection X as <- <- <-. left. auto.
Qed.
Lemma pins_inputs t : map fst (pins t) = tx_inputs (p_tx t).
Proof. unfold pins. generalize (p_meta t). induction (tx_inputs (p_tx t)) as [|i l IH]; intros [|m ms]; cbn; [reflexivity|reflexivity|f_equal; apply IH|f_equal; apply IH]. Qed.
Lemma pair_meta_combine ins ms : length ms = length ins -> pair_meta ins ms = combine ins ms.
Proof. revert ms. induction ins as [|i l IH]; intros [|m ms] H; cbn in *; try lia; [reflexivity|f_equal; apply IH; lia]. Qed.
Definition repopulated self points (t t' : ptx) : Prop :=
  p_tx t' = p_tx t /\ forall i m', In (i, m') (pins t') -> exists m, In (i, m) (pins t) /\ populated self points i m m'.
Lemma combine_map_l {A B C} (f : A -> B) (l : list A) (l' : list C) x y :
  In (x, y) (combine (map f l) l') -> exists a, f a = x /\ In (a, y) (combine l l').
Proof.
  revert l'. induction l as [|a l IH]; intros [|c l'] H; cbn in *; try contradiction. destruct H as [E|H].
  - injection E as <- <-. exists a. auto.
  - destruct (IH l' H) as (b & E & I). exists b. auto.
Qed.
Lemma populate_txs_spec self points bip68 l ts : populate_txs self points bip68 l = (success, ts) -> Forall2 (repopulated self points) l ts.
Proof.
  revert ts. induction l as [|t l IH]; intros ts; cbn [populate_txs]; [intros E; injection E as <-; constructor|].
  destruct (populate_inputs self points bip68 (p_tx t) (pins t)) as [ec ms] eqn:P. destruct (errc_success ec) as [->|N].
  - destruct (populate_txs self points bip68 l) as [ec' ts'] eqn:Q. intros E. injection E as -> <-. constructor; [|apply IH; reflexivity].
    destruct (populate_inputs_spec _ _ _ _ _ _ P) as [L H]. split; [reflexivity|]. intros i m' Hi. unfold pins in Hi. cbn [p_tx p_meta] in Hi.
    assert (LL : length ms = length (tx_inputs (p_tx t))) by (rewrite L, <- (pins_inputs t), map_length; reflexivity).
    rewrite (pair_meta_combine _ _ LL), <- (pins_inputs t) in Hi. apply combine_map_l in Hi as ([i0 m] & <- & Hi). exists m. split; [apply in_combine_l in Hi; exact Hi|]. apply (H _ _ _ Hi).
  - intros E. exfalso. apply N. destruct ec; try reflexivity; discriminate.
Qed.

(** ** One transaction. *)
Section Step.
Variable D : list Z -> list Z.
Lemma apply_tx_ok U t : ledger_ok U -> amounts (tx_outputs t) -> ledger_ok (apply_tx D U t).
Proof.
  intros H A. apply ledger_ok_app. split; [|apply created_ok, A]. unfold ledger_ok in *. rewrite Forall_forall in *. intros e He. apply filter_In in He as [He _]. apply H, He.
Qed.
Lemma apply_tx_worth U t ins : ledger_ok U -> NoDup (points_spent t) -> map fst ins = points_spent t -> (forall e, In e ins -> In e U) ->
  worth (apply_tx D U t) + worth ins <= worth U + sum_outputs (tx_outputs t).
Proof.
  intros Ok ND E H. unfold apply_tx. rewrite worth_app, worth_created.
  pose proof (worth_split (fun e => existsb (point_eq (fst e)) (points_spent t)) U) as S. cbv beta in S.
  assert (W : worth ins <= worth (filter (fun e => existsb (point_eq (fst e)) (points_spent t)) U)).
  { apply incl_worth.
    - unfold ledger_ok in *. rewrite Forall_forall in *. intros e He. apply filter_In in He as [He _]. apply Ok, He.
    - apply (NoDup_map_inv fst). rewrite E. exact ND.
    - intros e He. apply filter_In. split; [apply H, He|]. apply spent_test. rewrite <- E. apply in_map, He. }
  lia.
Qed.
(** An entry not spent by a prefix is still there. *)
Lemma entry_kept pre : forall U e, ~ In (fst e) (concat (map points_spent pre)) ->
  (In e U \/ exists t, In t pre /\ In e (created D t)) -> In e (fold_left (apply_tx D) pre U).
Proof.
  induction pre as [|t pre IH]; intros U e N H; cbn [fold_left].
  - destruct H as [H|(t & [] & _)]. exact H.
  - cbn [map concat] in N. apply IH; [intros X; apply N, in_or_app; right; exact X|].
    assert (N1 : ~ In (fst e) (points_spent t)) by (intros X; apply N, in_or_app; left; exact X).
    destruct H as [H|(u & [<-|Hu] & He)].
    + left. apply in_or_app. left. apply filter_In. split; [exact H|]. apply negb_true_iff. destruct (existsb _ _) eqn:X; [|reflexivity]. apply spent_test in X. contradiction.
    + left. apply in_or_app. right. exact He.
    + right. exists u. auto.
Qed.
End Step.
Lemma spent_points_eq l : spent_points l = concat (map points_spent l).
Proof. reflexivity. Qed.

(** ** A block's transactions. *)
Section Run.
Variable D : list Z -> list Z.
Variables (U : ledger) (cb : tx) (others : list tx).
Hypothesis (HU : ledger_ok U) (HM : worth U < 2 ^ 64 - 1).
Hypothesis (HND : NoDup (spent_points others)) (HL : ~ spends_later D others).
Hypothesis (HT : Forall (fun t => tx_ok t /\ acyclic D t) others).
(** A populated input names an entry of the ledger or of an earlier transaction. *)
Definition sourced (t : ptx) : Prop := forall i m o, In (i, m) (pins t) -> prevout m = Some o ->
  In ((in_hash i, in_index i), o) U \/ exists u, In u others /\ In ((in_hash i, in_index i), o) (created D u).
Lemma ins_exist t : sourced t -> forall l, (forall p, In p l -> In p (pins t)) -> forall os, map (fun p => prevout (snd p)) l = map Some os ->
  exists ins : ledger, map fst ins = map (fun i => (in_hash i, in_index i)) (map fst l) /\ map snd ins = os /\
    forall e, In e ins -> (In e U \/ exists u, In u others /\ In e (created D u)) /\ exists i, In i (map fst l) /\ fst e = (in_hash i, in_index i).
Proof.
  intros S. induction l as [|[i m] l IH]; intros Hl [|o os] E; try discriminate.
  - exists []. repeat split; try reflexivity; contradiction.
  - injection E as E1 E2. destruct (IH (fun p Hp => Hl p (or_intror Hp)) os E2) as (ins & A & B & C).
    exists (((in_hash i, in_index i), o) :: ins). cbn [map fst snd]. rewrite A, B. repeat split; try reflexivity.
    + destruct H as [<-|H]; [apply (S i m o (Hl _ (or_introl eq_refl)) E1)|apply C, H].
    + destruct H as [<-|H]; [exists i; split; [left; reflexivity|reflexivity]|destruct (C e H) as [_ (j & Hj & Ej)]; exists j; split; [right; exact Hj|exact Ej]].
Qed.
Lemma run_txs : forall l pre ts, others = pre ++ l -> Forall2 (fun t t' => p_tx t' = t /\ sourced t' /\ tx_accept t' = success) l ts ->
  Forall (fun t => is_coinbase t = false) l ->
  ledger_ok (fold_left (apply_tx D) pre U) -> worth (fold_left (apply_tx D) pre U) <= worth U ->
  exists f, runs D (fold_left (apply_tx D) pre U) l f /\ total (map fee ts) = f /\ Forall (fun t => 0 <= fee t < 2 ^ 64) ts /\ 0 <= f /\
    worth (fold_left (apply_tx D) l (fold_left (apply_tx D) pre U)) + f <= worth (fold_left (apply_tx D) pre U).
Proof.
  induction l as [|t l IH]; intros pre ts Eo F2 Cb Ok W.
  - inversion F2; subst. exists 0. split; [apply runs_nil|]. split; [reflexivity|]. split; [apply Forall_nil|]. cbn [fold_left]. lia.
  - inversion F2 as [|? t' ? ts' (Et & So & Ac) F2']; subst. inversion Cb as [|? ? Ct Cl]; subst. set (V := fold_left (apply_tx D) pre U) in *.
    unfold tx_accept in Ac. rewrite Ct in Ac. destruct (is_missing_prevouts t') eqn:Mi; [discriminate|]. destruct (is_overspent t') eqn:Ov; [discriminate|]. clear Ac.
    apply missing_spec in Mi as (os & Pv). destruct (ins_exist t' So (pins t') (fun p Hp => Hp) os Pv) as (ins & I1 & I2 & I3). rewrite pins_inputs in I1, I3.
    change (map (fun i => (in_hash i, in_index i)) (tx_inputs (p_tx t'))) with (points_spent (p_tx t')) in I1. set (t := p_tx t') in *.
    assert (Tt : tx_ok t /\ acyclic D t). { rewrite Forall_forall in HT. apply HT. rewrite Eo. apply in_or_app. right. left. reflexivity. } destruct Tt as [Tok Tac].
    pose proof (tx_ok_amounts t Tok) as Am.
    (* the spent points of the prefix, of t and of the rest are distinct *)
    assert (ND := HND). rewrite Eo, spent_points_eq, map_app, concat_app in ND. cbn [map concat] in ND.
    assert (NDt : NoDup (points_spent t)). { apply nodup_app_r in ND. apply nodup_app_l in ND. exact ND. }
    assert (Sep : forall p, In p (points_spent t) -> ~ In p (concat (map points_spent pre))).
    { intros p Hp Hq. clear - ND Hp Hq. induction (concat (map points_spent pre)) as [|q l0 IHl]; [destruct Hq|]. cbn in ND. inversion ND as [|? ? N1 N2]; subst.
      destruct Hq as [->|Hq]; [apply N1, in_or_app; right; apply in_or_app; left; exact Hp|apply IHl; assumption]. }
    assert (InV : forall e, In e ins -> In e V).
    { intros e He. destruct (I3 e He) as [Src (i & Hi & Ee)]. apply entry_kept.
      - apply Sep. rewrite Ee. unfold points_spent. apply in_map_iff. exists i. auto.
      - destruct Src as [X|(u & Hu & Hc)]; [left; exact X|right]. exists u. split; [|exact Hc].
        assert (Eh : in_hash i = D (tx_to_data false u)) by (apply created_hash in Hc; rewrite Ee in Hc; exact Hc).
        rewrite Eo in Hu. apply in_app_or in Hu as [Hu|[Hu|Hu]]; [exact Hu|exfalso; subst u; apply (Tac i Hi Eh)|].
        exfalso. apply HL. apply in_split in Hu as (m1 & m2 & ->). exists pre, t, m1, u, m2, i. auto. }
    assert (Vi : worth ins <= worth V) by (apply incl_worth; [exact Ok|apply (NoDup_map_inv fst); rewrite I1; exact NDt|exact InV]).
    assert (Ei : total (map in_value (pins t')) = worth ins) by (rewrite (prev_values t' os Pv), <- I2, map_map; reflexivity).
    assert (Io : ins_ok t'). { apply (prev_ins t' os Pv). rewrite <- I2. unfold amounts. apply Forall_map. apply Forall_forall. intros e He. unfold ledger_ok in Ok. rewrite Forall_forall in Ok. apply Ok, InV, He. }
    assert (P0 : 0 <= worth ins). { apply worth_nonneg. apply Forall_forall. intros e He. unfold ledger_ok in Ok. rewrite Forall_forall in Ok. apply Ok, InV, He. }
    assert (Am' : amounts (poutputs t')) by exact Am. pose proof (sum_nonneg _ Am) as S0.
    assert (Sp : sum_outputs (tx_outputs t) <= worth ins).
    { unfold is_overspent in Ov. rewrite (spend_min t' Am'), (value_min t' Io), Ei in Ov. change (poutputs t') with (tx_outputs t) in Ov. destruct (Z.gtb_spec (Z.min (2 ^ 64 - 1) (sum_outputs (tx_outputs t))) (Z.min (2 ^ 64 - 1) (worth ins))); [discriminate|]. lia. }
    assert (Ef : fee t' = worth ins - sum_outputs (tx_outputs t)).
    { unfold fee. rewrite (spend_min t' Am'), (value_min t' Io), Ei. change (poutputs t') with (tx_outputs t). rewrite fsub_exact by lia. lia. }
    pose proof (apply_tx_worth D V t ins Ok NDt I1 InV) as Aw.
    destruct (IH (pre ++ [t]) ts') as (f & R & Tf & Ff & F0 & Wf).
    + rewrite <- app_assoc. exact Eo.
    + exact F2'.
    + exact Cl.
    + rewrite fold_left_app. apply apply_tx_ok; assumption.
    + rewrite fold_left_app. change (fold_left (apply_tx D) [t] (fold_left (apply_tx D) pre U)) with (apply_tx D V t). lia.
    + rewrite fold_left_app in R, Wf. change (fold_left (apply_tx D) [t] (fold_left (apply_tx D) pre U)) with (apply_tx D V t) in R, Wf.
      exists (worth ins - sum_outputs (tx_outputs t) + f). split; [apply runs_cons; assumption|]. cbn [map fold_left].
      split; [change (total (fee t' :: map fee ts')) with (fee t' + total (map fee ts')); lia|]. split; [constructor; [lia|exact Ff]|]. lia.
Qed.
End Run.
