(** C24, C25: rule activation. *)
From Verif Require Import Base Bytes MathModel ChainModel CompactModel CompactSpec CompactProofs CompactProps StateModel StateSpec StateProofs StateProofs2 StateProofs3 StateProps.

Lemma flag_bit l p : 0 <= p -> Forall (fun q : bool * Z => 0 <= snd q) l ->
  Z.testbit (flags_of l) p = existsb (fun q : bool * Z => fst q && (snd q =? p)) l.
Proof.
  intros Hp. induction 1 as [|[b k] l Hk _ IH]; cbn [flags_of fold_right existsb fst snd]; [apply Z.testbit_0_l|].
  fold (flags_of l). rewrite Z.lor_spec, IH. f_equal. destruct b; cbn [andb]; [|apply Z.testbit_0_l].
  cbn [snd] in Hk. rewrite Z.pow2_bits_eqb by exact Hk. reflexivity.
Qed.
Lemma orb_f_r b : (b || false) = b. Proof. destruct b; reflexivity. Qed.
Ltac flag := unfold activation; cbv zeta; cbn [a_flags]; rewrite flag_bit; [|discriminate|repeat (constructor; [cbn; discriminate|]); constructor];
  cbn [existsb fst snd]; rewrite ?andb_false_r, ?andb_true_r, ?orb_false_l, ?orb_f_r, ?orb_false_r.
Lemma listeqb_spec a b : listeqb a b = true <-> a = b.
Proof. unfold listeqb. destruct (list_eq_dec Z.eq_dec a b); split; congruence. Qed.
Lemma flag_bit0 d f s : forall p, In p [fl_bip68; fl_bip112; fl_bip113] -> Z.testbit (a_flags (activation d f s)) p = listeqb (d_bit0 d) (cp_hash (s_cp0 s)).
Proof. intros p [<-|[<-|[<-|[]]]]; flag; cbn; rewrite ?andb_false_r, ?andb_true_r, ?orb_f_r; reflexivity. Qed.
Lemma flag_bit1 d f s : forall p, In p [fl_bip141; fl_bip143; fl_bip147] -> Z.testbit (a_flags (activation d f s)) p = listeqb (d_bit1 d) (cp_hash (s_cp1 s)).
Proof. intros p [<-|[<-|[<-|[]]]]; flag; cbn; rewrite ?andb_false_r, ?andb_true_r, ?orb_f_r; reflexivity. Qed.
Lemma flag_bit2 d f s : forall p, In p [fl_bip341; fl_bip342] -> Z.testbit (a_flags (activation d f s)) p = listeqb (d_bit2 d) (cp_hash (s_cp2 s)).
Proof. intros p [<-|[<-|[]]]; flag; cbn; rewrite ?andb_false_r, ?andb_true_r, ?orb_f_r; reflexivity. Qed.

(** ** C24 *)
(** The three BIP9 deployments: the rules (flag bits) and the activation block. *)
Definition deployment (s : settings) (rules : list Z) (c : checkpoint) : Prop :=
  (rules = [fl_bip68; fl_bip112; fl_bip113] /\ c = s_cp0 s) \/
  (rules = [fl_bip141; fl_bip143; fl_bip147] /\ c = s_cp1 s) \/
  (rules = [fl_bip341; fl_bip342] /\ c = s_cp2 s).
Definition active (d : data) (s : settings) (rule : Z) : bool := Z.testbit (a_flags (activation d (s_forks s) s)) rule.
Lemma roll_height hash s rest : forall d, 0 <= d_height d -> d_height d + len rest < 2 ^ 64 -> d_height (roll hash s d rest) = d_height d + len rest.
Proof.
  induction rest as [|h rest IH]; intros d H0 H; [cbn [roll fold_left]; change (len (@nil header)) with 0; lia|]. rewrite len_cons in *.
  cbn [roll fold_left]. fold (roll hash s (to_header hash d (s_forks s) h s) rest).
  assert (E : d_height (to_header hash d (s_forks s) h s) = d_height d + 1).
  { unfold to_header, set_header, to_pool. cbn [d_height]. pose proof (len_nonneg rest). apply wrap_u64_small. lia. }
  rewrite IH; rewrite ?E; pose proof (len_nonneg rest); lia.
Qed.
Lemma roll_keeps hash s (get : data -> list Z) c rest :
  (forall d h, get (to_header hash d (s_forks s) h s) = at_checkpoint (wrap u64 (d_height d + 1)) c (hash h) (get d)) ->
  forall d, 0 <= d_height d -> cp_height c <= d_height d -> d_height d + len rest < 2 ^ 64 -> get (roll hash s d rest) = get d.
Proof.
  intros G. induction rest as [|h rest IH]; intros d H0 Hc H; [reflexivity|]. rewrite len_cons in H. pose proof (len_nonneg rest).
  cbn [roll fold_left]. fold (roll hash s (to_header hash d (s_forks s) h s) rest).
  assert (E : d_height (to_header hash d (s_forks s) h s) = d_height d + 1).
  { unfold to_header, set_header, to_pool. cbn [d_height]. apply wrap_u64_small. lia. }
  rewrite IH by (rewrite ?E; lia). rewrite G. rewrite wrap_u64_small by lia. unfold at_checkpoint. destruct (Z.eqb_spec (d_height d + 1) (cp_height c)); [lia|reflexivity].
Qed.
(** Once the header at the activation height with the activation hash is
    connected (from any state), its rules are active for it and for every block
    of every chain of headers connected above it. *)
Theorem C24_persists hash s rules c rule d h rest : deployment s rules c -> In rule rules ->
  0 <= d_height d -> d_height d + 1 = cp_height c -> d_height d + 1 + len rest < 2 ^ 64 -> hash h = cp_hash c ->
  active (roll hash s d (h :: rest)) s rule = true.
Proof.
  intros D R H0 Hc Hl Hh. cbn [roll fold_left]. fold (roll hash s (to_header hash d (s_forks s) h s) rest). set (d1 := to_header hash d (s_forks s) h s).
  pose proof (len_nonneg rest) as LN.
  assert (E : d_height d1 = d_height d + 1) by (unfold d1, to_header, set_header, to_pool; cbn [d_height]; apply wrap_u64_small; lia).
  assert (A : at_checkpoint (wrap u64 (d_height d + 1)) c (hash h) = fun _ => cp_hash c).
  { unfold at_checkpoint. rewrite wrap_u64_small by lia. rewrite Hc, Z.eqb_refl, Hh. reflexivity. }
  unfold active. destruct D as [[-> ->]|[[-> ->]|[-> ->]]]; [rewrite flag_bit0 by exact R|rewrite flag_bit1 by exact R|rewrite flag_bit2 by exact R]; apply listeqb_spec.
  - rewrite (roll_keeps hash s d_bit0 (s_cp0 s)); try lia; try (intros; reflexivity). change (d_bit0 d1) with (at_checkpoint (wrap u64 (d_height d + 1)) (s_cp0 s) (hash h) (d_bit0 d)). rewrite A. reflexivity.
  - rewrite (roll_keeps hash s d_bit1 (s_cp1 s)); try lia; try (intros; reflexivity). change (d_bit1 d1) with (at_checkpoint (wrap u64 (d_height d + 1)) (s_cp1 s) (hash h) (d_bit1 d)). rewrite A. reflexivity.
  - rewrite (roll_keeps hash s d_bit2 (s_cp2 s)); try lia; try (intros; reflexivity). change (d_bit2 d1) with (at_checkpoint (wrap u64 (d_height d + 1)) (s_cp2 s) (hash h) (d_bit2 d)). rewrite A. reflexivity.
Qed.
Print Assumptions C24_persists.
(** And a different block at the activation height keeps them inactive. *)
Theorem C24_other_branch hash s rules c rule d h rest : deployment s rules c -> In rule rules ->
  0 <= d_height d -> d_height d + 1 = cp_height c -> d_height d + 1 + len rest < 2 ^ 64 -> hash h <> cp_hash c ->
  active (roll hash s d (h :: rest)) s rule = false.
Proof.
  intros D R H0 Hc Hl Hh. cbn [roll fold_left]. fold (roll hash s (to_header hash d (s_forks s) h s) rest). set (d1 := to_header hash d (s_forks s) h s).
  pose proof (len_nonneg rest) as LN.
  assert (E : d_height d1 = d_height d + 1) by (unfold d1, to_header, set_header, to_pool; cbn [d_height]; apply wrap_u64_small; lia).
  assert (A : at_checkpoint (wrap u64 (d_height d + 1)) c (hash h) = fun _ => hash h).
  { unfold at_checkpoint. rewrite wrap_u64_small by lia. rewrite Hc, Z.eqb_refl. reflexivity. }
  assert (F : forall x y, x <> y -> listeqb x y = false) by (intros x y X; unfold listeqb; destruct (list_eq_dec Z.eq_dec x y); congruence).
  unfold active. destruct D as [[-> ->]|[[-> ->]|[-> ->]]]; [rewrite flag_bit0 by exact R|rewrite flag_bit1 by exact R|rewrite flag_bit2 by exact R]; apply F.
  - rewrite (roll_keeps hash s d_bit0 (s_cp0 s)); try lia; try (intros; reflexivity). change (d_bit0 d1) with (at_checkpoint (wrap u64 (d_height d + 1)) (s_cp0 s) (hash h) (d_bit0 d)). rewrite A. exact Hh.
  - rewrite (roll_keeps hash s d_bit1 (s_cp1 s)); try lia; try (intros; reflexivity). change (d_bit1 d1) with (at_checkpoint (wrap u64 (d_height d + 1)) (s_cp1 s) (hash h) (d_bit1 d)). rewrite A. exact Hh.
  - rewrite (roll_keeps hash s d_bit2 (s_cp2 s)); try lia; try (intros; reflexivity). change (d_bit2 d1) with (at_checkpoint (wrap u64 (d_height d + 1)) (s_cp2 s) (hash h) (d_bit2 d)). rewrite A. exact Hh.
Qed.
Print Assumptions C24_other_branch.
(** Along a chain, from any state built from the store, the rules are active at
    height b exactly if the block at the activation height (at or below b) is
    the configured one. *)
Theorem C24_active_iff hash hs s a b rules c rule : sane s -> len hs < 2 ^ 63 -> Forall header_fields_ok hs -> 0 <= a <= b /\ b < len hs -> same_groups s a ->
  deployment s rules c -> In rule rules -> cp_hash c <> null_hash ->
  (active (roll hash s (from_history hash hs a s) (between hs a b)) s rule = true <-> cp_height c <= b /\ hash (at_height hs (cp_height c)) = cp_hash c).
Proof.
  intros Hs Hl Hh Hab G D R NN. set (d := roll hash s (from_history hash hs a s) (between hs a b)).
  assert (H1 : HInv hash hs s b d /\ d_height d = b).
  { apply (roll_ind hash hs s (fun b d => HInv hash hs s b d /\ d_height d = b) a); [lia| | |lia].
    - split; [apply hinv_history; [lia|exact G]|reflexivity].
    - intros c' d' Hc Hc1 (X & Y). split; [apply hinv_step; try assumption; lia|]. unfold to_header, set_header, to_pool. cbn [d_height]. rewrite Y. apply wrap_u64_small. lia. }
  destruct H1 as [[A1 A2 A3 A4] _]. unfold active.
  assert (X : activated_by hash hs b c = cp_hash c <-> cp_height c <= b /\ hash (at_height hs (cp_height c)) = cp_hash c).
  { unfold activated_by. destruct (Z.leb_spec (cp_height c) b); split; intros; try tauto; try lia. congruence. }
  destruct D as [[-> ->]|[[-> ->]|[-> ->]]]; [rewrite flag_bit0 by exact R|rewrite flag_bit1 by exact R|rewrite flag_bit2 by exact R]; rewrite listeqb_spec, ?A2, ?A3, ?A4; exact X.
Qed.
Print Assumptions C24_active_iff.

(** Block-state construction (to_block of the pool state) agrees with
    header-state construction except for the block's own hash. *)
Lemma set_header_same hash d f h s : to_header hash d f h s = set_header (hash h) h (proof0 (h_bits h)) (to_pool d f s) s. Proof. reflexivity. Qed.
Theorem C24_block_agrees_partial hash d f h s limit : 0 <= d_height d < 2 ^ 64 - 1 ->
  Forall (fun c => d_height d + 1 <> cp_height c) [s_cp30 s; s_cp0 s; s_cp1 s; s_cp2 s] ->
  d_height d + 1 <> 91842 -> d_height d + 1 <> 91880 ->
  to_context limit (to_block (to_pool d f s) h s) f s = to_context limit (to_header hash d f h s) f s.
Proof.
  intros Hd HF N1 N2. inversion HF as [|? ? F1 HF1]; subst. inversion HF1 as [|? ? F2 HF2]; subst. inversion HF2 as [|? ? F3 HF3]; subst. inversion HF3 as [|? ? F4 _]; subst.
  assert (HH : d_height (to_pool d f s) = d_height d + 1) by (unfold to_pool; cbn [d_height]; apply wrap_u64_small; lia).
  unfold to_context. rewrite set_header_same. unfold to_block. set (p := to_pool d f s) in *.
  assert (AC : forall c x y, d_height d + 1 <> cp_height c -> at_checkpoint (d_height p) c x y = y).
  { intros c x y N. unfold at_checkpoint. rewrite HH. destruct (Z.eqb_spec (d_height d + 1) (cp_height c)); [contradiction|reflexivity]. }
  assert (W : forall x, work_required limit (set_header x h (proof0 (h_bits h)) p s) f s = work_required limit (set_header null_hash h (proof0 (h_bits h)) p s) f s) by reflexivity.
  rewrite (W (hash h)). destruct (work_required _ _ _ _); cbn [obind]; [|reflexivity]. 
  assert (A : activation (set_header null_hash h (proof0 (h_bits h)) p s) f s = activation (set_header (hash h) h (proof0 (h_bits h)) p s) f s).
  { unfold activation, set_header. cbn [d_height d_version d_versions d_time d_bip30 d_bit0 d_bit1 d_bit2 d_hash]. rewrite !AC by assumption.
    assert (EX : forall x, is_bip30_exception x (d_height p) = false).
    { intros x. unfold is_bip30_exception. rewrite HH. destruct (Z.eqb_spec (d_height d + 1) 91842), (Z.eqb_spec (d_height d + 1) 91880); try contradiction. rewrite !andb_false_r. reflexivity. }
    rewrite !EX. reflexivity. }
  rewrite A. reflexivity.
Qed.
Print Assumptions C24_block_agrees_partial.
(** At an activation height the block-state path stores a null hash, so the
    rules the header path activates stay inactive in every later block state. *)
Definition all_bip9 : forks := mkforks false false false false false false false false false true true true true true true true true false true false false false false false.
Definition cp_set (f : forks) (cp : checkpoint) : settings := mksettings f 4 20 10 0x1d00ffff 1 2 3 4 1 2 4 536870912 0 3 4 5 0 0 0 0 cp cp cp cp.
Theorem C24_block_state_refuted : let s := cp_set all_bip9 (mkcheckpoint [110] 1) in
  let hs := chain_of [(100, 0x1c123456); (110, 0x1c123456); (120, 0x1c123456)] in
  let d0 := from_history hash1 hs 0 s in let h1 := at_height hs 1 in let h2 := at_height hs 2 in
  hash1 h1 = cp_hash (s_cp0 s) /\ d_height d0 + 1 = cp_height (s_cp0 s) /\
  active (to_header hash1 d0 (s_forks s) h1 s) s fl_bip68 = true /\
  active (to_block (to_pool d0 (s_forks s) s) h1 s) s fl_bip68 = false /\
  active (to_block (to_pool (to_block (to_pool d0 (s_forks s) s) h1 s) (s_forks s) s) h2 s) s fl_bip68 = false.
Proof. vm_compute. repeat split. Qed.
Print Assumptions C24_block_state_refuted.
(** If the activation block is the genesis block (the regtest configuration),
    a state rolled from genesis never activates, a state built from the store at
    any later height does. *)
Theorem C24_genesis_checkpoint_refuted : let s := cp_set all_bip9 (mkcheckpoint [100] 0) in
  let hs := chain_of [(100, 0x1c123456); (110, 0x1c123456); (120, 0x1c123456)] in
  hash1 (at_height hs 0) = cp_hash (s_cp0 s) /\
  active (roll hash1 s (from_history hash1 hs 0 s) (between hs 0 2)) s fl_bip68 = false /\ active (from_history hash1 hs 2 s) s fl_bip68 = true.
Proof. vm_compute. repeat split. Qed.
Print Assumptions C24_genesis_checkpoint_refuted.
(** A deployment group that is not configured is activated by rolling over its
    activation block, though not by construction from the store above it. *)
Theorem C24_unconfigured_refuted : let s := cp_set no_forks (mkcheckpoint [110] 1) in
  let hs := chain_of [(100, 0x1c123456); (110, 0x1c123456); (120, 0x1c123456)] in
  f_bip68 (s_forks s) = false /\ f_bip112 (s_forks s) = false /\ f_bip113 (s_forks s) = false /\
  active (roll hash1 s (from_history hash1 hs 0 s) (between hs 0 2)) s fl_bip68 = true /\ active (from_history hash1 hs 2 s) s fl_bip68 = false.
Proof. vm_compute. repeat split. Qed.
Print Assumptions C24_unconfigured_refuted.
Example C24_sat : let s := cp_set all_bip9 (mkcheckpoint [110] 1) in deployment s [fl_bip68; fl_bip112; fl_bip113] (s_cp0 s) /\
  let hs := chain_of [(100, 0x1c123456); (110, 0x1c123456); (120, 0x1c123456)] in
  active (roll hash1 s (from_history hash1 hs 0 s) [at_height hs 1; at_height hs 2]) s fl_bip112 = true.
Proof. split; [left; split; reflexivity|vm_compute; reflexivity]. Qed.

(** ** C25 *)
Lemma wrap_i32_signed v : 0 <= v < 2 ^ 32 -> wrap i32 v = signed32 v.
Proof.
  intros H. unfold signed32. destruct (Z.ltb_spec v (2 ^ 31)).
  - apply wrap_fits; [reflexivity|]. unfold fits, imin, imax; cbn [sg bits i32]. lia.
  - apply (wrap_unique i32 v (v - 2 ^ 32) (-1)); [reflexivity| |cbn [bits i32]; lia]. unfold fits, imin, imax; cbn [sg bits i32]. lia.
Qed.
Lemma count_signalling version sample : 0 <= version < 2 ^ 32 -> Forall (fun v => 0 <= v < 2 ^ 32) sample -> count_ge version sample = signalling version sample.
Proof.
  intros Hv. unfold count_ge, signalling. induction 1 as [|v l H _ IH]; [reflexivity|]. cbn [filter]. unfold ge_signed at 1. rewrite !wrap_i32_signed by assumption.
  destruct (_ <=? _); rewrite ?len_cons, IH; reflexivity.
Qed.
(** A majority soft fork: its flag bit, block version and (bip90) frozen height. *)
Definition soft_fork (s : settings) (flag version frozen : Z) : Prop :=
  (flag = fl_bip34 /\ version = s_bip34_version s /\ frozen = s_bip90_bip34 s) \/
  (flag = fl_bip66 /\ version = s_bip66_version s /\ frozen = s_bip90_bip66 s) \/
  (flag = fl_bip65 /\ version = s_bip65_version s /\ frozen = s_bip90_bip65 s).
(** The rule is active exactly if frozen by height, or at least [activation] of
    the sampled blocks signal (signed) and the block's own version, compared
    unsigned, is at least the fork's. *)
Theorem C25_activation d s flag version frozen : soft_fork s flag version frozen -> 0 <= version < 2 ^ 32 -> Forall (fun v => 0 <= v < 2 ^ 32) (d_versions d) ->
  (active d s flag = true <->
    (f_bip90 (s_forks s) = true /\ frozen <= d_height d) \/ (s_activation s <= signalling version (d_versions d) /\ version <= d_version d)).
Proof.
  intros SF Hv HV. rewrite <- (count_signalling version (d_versions d) Hv HV). unfold active.
  assert (E : Z.testbit (a_flags (activation d (s_forks s) s)) flag =
    (f_bip90 (s_forks s) && (frozen <=? d_height d)) || ((s_activation s <=? count_ge version (d_versions d)) && (version <=? d_version d))).
  { destruct SF as [(-> & -> & ->)|[(-> & -> & ->)|(-> & -> & ->)]]; flag; cbn -[count_ge Z.leb]; rewrite ?andb_false_r, ?andb_true_r, ?orb_f_r; reflexivity. }
  rewrite E, orb_true_iff, !andb_true_iff, !Z.leb_le. tauto.
Qed.
Print Assumptions C25_activation.
(** Frozen heights: with bip90 (and no sampling) the rule is active exactly from its height on. *)
Theorem C25_bip90_freezes hash hs s a b flag version frozen : sane s -> len hs < 2 ^ 63 -> Forall header_fields_ok hs -> 0 <= a <= b /\ b < len hs ->
  soft_fork s flag version frozen -> 0 <= version < 2 ^ 32 -> f_bip90 (s_forks s) = true -> 0 < s_activation s ->
  (active (roll hash s (from_history hash hs a s) (between hs a b)) s flag = true <-> frozen <= b).
Proof.
  intros Hs Hl Hh Hab SF Hv B90 SA.
  assert (I : Inv hash hs s b (roll hash s (from_history hash hs a s) (between hs a b))).
  { apply (roll_ind hash hs s (Inv hash hs s) a); [lia|apply inv_history; try assumption; lia| |lia]. intros c d Hc Hc1. apply inv_step; try assumption; lia. }
  set (d := roll hash s (from_history hash hs a s) (between hs a b)) in *.
  assert (V : d_versions d = []). { rewrite (i_versions _ _ _ _ _ I). unfold version_count. rewrite B90. cbn [orb]. apply last_n_0. lia. }
  rewrite (C25_activation d s flag version frozen SF Hv) by (rewrite V; constructor). rewrite (i_height _ _ _ _ _ I), V. cbn [signalling filter]. change (signalling version []) with 0.
  split; [intros [[_ X]|[X _]]; lia|intros X; left; split; [exact B90|exact X]].
Qed.
Print Assumptions C25_bip90_freezes.
(** Enforcement: once [enforcement] of the sample signal (or frozen), a header
    with a lower (signed) version is rejected; the strictest enforced version
    applies; with none enforced no minimum applies. *)
Definition enforced (d : data) (s : settings) (version frozen : Z) : Prop :=
  (f_bip90 (s_forks s) = true /\ frozen <= d_height d) \/ s_enforcement s <= signalling version (d_versions d).
Theorem C25_minimum d s : 0 <= s_bip34_version s < 2 ^ 32 -> 0 <= s_bip66_version s < 2 ^ 32 -> 0 <= s_bip65_version s < 2 ^ 32 ->
  Forall (fun v => 0 <= v < 2 ^ 32) (d_versions d) ->
  let m := a_minimum (activation d (s_forks s) s) in
  (enforced d s (s_bip65_version s) (s_bip90_bip65 s) -> m = s_bip65_version s) /\
  (~ enforced d s (s_bip65_version s) (s_bip90_bip65 s) -> enforced d s (s_bip66_version s) (s_bip90_bip66 s) -> m = s_bip66_version s) /\
  (~ enforced d s (s_bip65_version s) (s_bip90_bip65 s) -> ~ enforced d s (s_bip66_version s) (s_bip90_bip66 s) ->
     enforced d s (s_bip34_version s) (s_bip90_bip34 s) -> m = s_bip34_version s) /\
  (~ enforced d s (s_bip65_version s) (s_bip90_bip65 s) -> ~ enforced d s (s_bip66_version s) (s_bip90_bip66 s) ->
     ~ enforced d s (s_bip34_version s) (s_bip90_bip34 s) -> m = 0).
Proof.
  intros H34 H66 H65 HV m. subst m. unfold enforced, activation. cbv zeta. cbn [a_minimum]. rewrite !count_signalling by assumption.
  destruct (f_bip90 (s_forks s)); cbn [andb orb];
  destruct (Z.leb_spec (s_bip90_bip65 s) (d_height d)), (Z.leb_spec (s_bip90_bip66 s) (d_height d)), (Z.leb_spec (s_bip90_bip34 s) (d_height d)); cbn [andb orb];
  destruct (Z.leb_spec (s_enforcement s) (signalling (s_bip65_version s) (d_versions d))), (Z.leb_spec (s_enforcement s) (signalling (s_bip66_version s) (d_versions d))),
    (Z.leb_spec (s_enforcement s) (signalling (s_bip34_version s) (d_versions d))); cbn [andb orb];
  (split; [intros; try reflexivity; exfalso; intuition (try discriminate; lia)|]);
  (split; [intros; try reflexivity; exfalso; intuition (try discriminate; lia)|]);
  (split; [intros; try reflexivity; exfalso; intuition (try discriminate; lia)|]);
  (intros; try reflexivity; exfalso; intuition (try discriminate; lia)).
Qed.
Print Assumptions C25_minimum.
Theorem C25_header_version limit d s c interval h : to_context limit d (s_forks s) s = Some c -> header_accept c interval h = ASuccess ->
  0 <= s_bip65_version s < 2 ^ 32 -> s_bip65_version s <> 0 -> Forall (fun v => 0 <= v < 2 ^ 32) (d_versions d) -> 0 <= h_version h < 2 ^ 32 ->
  enforced d s (s_bip65_version s) (s_bip90_bip65 s) -> signed32 (s_bip65_version s) <= signed32 (h_version h).
Proof.
  intros C A Hv Hn HV Hh En. apply C21_accept in A. destruct A as (A & _). unfold to_context in C. destruct (work_required _ _ _ _); cbn [obind] in C; [|discriminate].
  assert (CM : c_minimum c = a_minimum (activation d (s_forks s) s)) by (injection C as <-; reflexivity). rewrite CM in A.
  assert (M : a_minimum (activation d (s_forks s) s) = s_bip65_version s).
  { unfold activation. cbv zeta. cbn [a_minimum]. rewrite (count_signalling (s_bip65_version s)) by assumption. destruct En as [[E1 E2]|E].
    - rewrite E1. destruct (Z.leb_spec (s_bip90_bip65 s) (d_height d)); [reflexivity|lia].
    - destruct (Z.leb_spec (s_enforcement s) (signalling (s_bip65_version s) (d_versions d))); [|lia]. rewrite orb_true_r. reflexivity. }
  rewrite M in A. destruct A as [A|A]; [contradiction|]. rewrite !wrap_i32_signed in A by assumption. exact A.
Qed.
Print Assumptions C25_header_version.
(** The block's own version is compared unsigned: a negative version (which
    never counts as signalling) activates the rules once the majority is there. *)
Theorem C25_negative_version_refuted : let s := set_of no_forks 0x1d00ffff in
  let d := mkdata 6 [] [] [] [] [] 0 0 [] (2 ^ 32 - 1) [2; 2; 2; 2; 2] 0 0 [] in
  signed32 (d_version d) < signed32 (s_bip34_version s) /\ signalling (s_bip34_version s) [d_version d] = 0 /\ active d s fl_bip34 = true.
Proof. vm_compute. repeat split. Qed.
Print Assumptions C25_negative_version_refuted.
Example C25_sat : let s := set_of no_forks 0x1d00ffff in
  let d := mkdata 6 [] [] [] [] [] 0 0 [] 2 [2; 1; 2; 2; 4294967295] 0 0 [] in
  signalling 2 (d_versions d) = 3 /\ active d s fl_bip34 = true /\ active d s fl_bip66 = false /\ a_minimum (activation d (s_forks s) s) = 0.
Proof. vm_compute. repeat split. Qed.
