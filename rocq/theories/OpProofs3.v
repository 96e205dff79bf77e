From Verif Require Import Base Bytes MathModel MathSpec MathProofs StreamModel StreamSpec StreamProofs StreamProofs2 LineProofs OpModel OpSpec OpProofs OpProofs2 LCalc.

(** ** Scripts as pure functions of the visible bytes. *)
Definition parse_script (l : list Z) : list op := split_ops (S (length l)) l.
Lemma split_ops_fuel f : forall g l, bytes_ok l -> (length l < f)%nat -> (length l < g)%nat -> split_ops f l = split_ops g l.
Proof.
  induction f as [|f IH]; intros g l Hok Hf Hg; [lia|]. destruct g as [|g]; [lia|]. cbn [split_ops]. destruct l as [|c t]; [reflexivity|].
  destruct (split_op (c :: t)) as [[o r]|] eqn:E; [|reflexivity]. destruct (split_op_sound _ _ _ Hok E) as (W & Hr & El).
  pose proof (op_to_data_pos o W) as P. assert (L : length (c :: t) = length (op_to_data o ++ r)) by (rewrite <- El; reflexivity).
  rewrite app_length in L. unfold len in P. f_equal. apply IH; [exact Hr|lia|lia].
Qed.
Lemma parse_script_data l : bytes_ok l -> ops_to_data (parse_script l) = l.
Proof. intros H. apply split_ops_data; [exact H|lia]. Qed.

(** An operation list that a parse can yield. *)
Definition tail_op (o : op) : Prop :=
  underflow o = true /\ code o = any_invalid /\ bytes_ok (data o) /\ data o <> [] /\ split_op (data o) = None.
Inductive script_wf : list op -> Prop :=
| wf_nil : script_wf []
| wf_tail o : tail_op o -> script_wf [o]
| wf_cons o os : op_wf o -> script_wf os -> script_wf (o :: os).

Lemma op_to_data_ok o : op_wf o -> bytes_ok (op_to_data o).
Proof.
  intros H. rewrite op_to_data_eq by assumption. destruct H as (_ & Hc & Hd & _). apply bytes_ok_cons. split; [exact Hc|].
  apply bytes_ok_app. split; [apply le_bytes_ok|exact Hd].
Qed.
Lemma script_wf_ok ops : script_wf ops -> bytes_ok (ops_to_data ops).
Proof.
  induction 1 as [|o (U & C & B & _)|o os W _ IH]; unfold ops_to_data in *; cbn [map concat]; [constructor| |].
  - rewrite app_nil_r. unfold op_to_data. rewrite U. exact B.
  - apply bytes_ok_app. split; [apply op_to_data_ok; exact W|exact IH].
Qed.
Lemma split_ops_wf f : forall l, bytes_ok l -> script_wf (split_ops f l).
Proof.
  induction f as [|f IH]; intros l Hok; [constructor|]. cbn [split_ops]. destruct l as [|c t]; [constructor|].
  destruct (split_op (c :: t)) as [[o r]|] eqn:E.
  - destruct (split_op_sound _ _ _ Hok E) as (W & Hr & El). constructor 3; auto.
  - constructor 2. repeat split; auto. discriminate.
Qed.
Lemma parse_script_wf l : bytes_ok l -> script_wf (parse_script l).
Proof. apply split_ops_wf. Qed.
Lemma parse_of_data ops : script_wf ops -> parse_script (ops_to_data ops) = ops.
Proof.
  intros W. unfold parse_script. remember (S (length (ops_to_data ops))) as f. assert (Hf : (length (ops_to_data ops) < f)%nat) by lia. clear Heqf.
  revert f Hf. induction W as [|o (U & C & B & Ne & S0)|o os W W' IH]; intros f Hf; (destruct f as [|f]; [lia|]); cbn [split_ops].
  - reflexivity.
  - unfold ops_to_data in *. cbn [map concat] in *. rewrite app_nil_r in *. unfold op_to_data in *. rewrite U in *.
    destruct (data o) as [|c t] eqn:D; [congruence|]. rewrite S0. destruct o; cbn in *. subst. reflexivity.
  - unfold ops_to_data in *. cbn [map concat] in *. rewrite split_op_complete by exact W.
    pose proof (op_to_data_pos o W) as P. rewrite app_length in Hf. unfold len in P. rewrite IH by lia.
    destruct (op_to_data o ++ concat (map op_to_data os)) eqn:E; [|reflexivity].
    apply app_eq_nil in E. destruct E as [E _]. rewrite E in P. cbn in P. lia.
Qed.

(** ** The stream functions. *)
Lemma script_plain s l : good s = true -> rest s = l -> bytes_ok l -> len l + 2 ^ 32 <= lim s <= 2 ^ 64 - 1 ->
  exists L, script_from_data false s = (parse_script l, mkrd (rev l ++ past s) [] true L).
Proof.
  intros Hg Hr Hok Hl. pose proof (len_nonneg l).
  assert (Hs : sees s l []). { unfold sees. rewrite app_nil_r. repeat split; auto; try lia. right; split; [reflexivity|lia]. }
  unfold script_from_data. destruct (op_count_sees s l [] Hs Hok) as (l' & tl' & S' & P & Ea & _ & _ & _ & Big).
  destruct Big as [-> _]; [lia|]. rewrite app_nil_r in Ea. assert (tl' = []). { apply (app_inv_head l). rewrite Ea, app_nil_r. reflexivity. } subst tl'.
  assert (Er : rest (op_count s) = l) by (destruct S' as (_ & R & _); rewrite R, app_nil_r; reflexivity). rewrite Er.
  destruct (read_ops_sees (S (length l)) (op_count s) l [] S' Hok) as (s3 & E & Hp & Hr3 & G3 & _); [lia|]. rewrite E.
  exists (lim s3). f_equal. rewrite P in Hp. destruct s3 as [p3 r3 g3 L3]; cbn [past rest good lim] in *. subst. reflexivity.
Qed.

Lemma script_limited s l tl : good s = true -> rest s = l ++ tl -> bytes_ok l -> lim s = len l -> len l <= 2 ^ 64 - 1 ->
  op_count s = s /\ read_ops (S (length (rest s))) s = (parse_script l, mkrd (rev l ++ past s) tl true 0).
Proof.
  intros Hg Hr Hok Hl Hm.
  assert (Hs : sees s l tl). { unfold sees. repeat split; auto; lia. }
  destruct (op_count_sees s l tl Hs Hok) as (l' & tl' & _ & _ & _ & _ & _ & Lim & _). destruct (Lim Hl) as [-> _].
  split; [reflexivity|]. assert (Q : (length l < S (length (rest s)))%nat) by (rewrite Hr, app_length; lia).
  destruct (read_ops_sees (S (length (rest s))) s l tl Hs Hok Q) as (s3 & E & Hp & Hr3 & G3 & _ & L0). rewrite E.
  f_equal; [apply split_ops_fuel; [exact Hok|exact Q|lia]|]. specialize (L0 Hl).
  destruct s3 as [p3 r3 g3 L3]; cbn [past rest good lim] in *. subst. reflexivity.
Qed.

Lemma op_size_len o : op_size o = len (op_to_data o).
Proof.
  unfold op_size, op_to_data. destruct (underflow o); [reflexivity|]. rewrite len_cons, len_app. unfold write_le.
  destruct (code o =? push_one_size); [rewrite len_le_bytes; lia|]. destruct (code o =? push_two_size); [rewrite len_le_bytes; lia|].
  destruct (code o =? push_four_size); [rewrite len_le_bytes; lia|]. change (len (@nil Z)) with 0. lia.
Qed.
Lemma ops_size_len ops : ops_size ops = len (ops_to_data ops).
Proof.
  unfold ops_size. assert (H : forall os n, fold_left (fun n o => n + op_size o) os n = n + len (ops_to_data os)).
  { induction os as [|o os IH]; intros n; cbn [fold_left]; unfold ops_to_data in *; cbn [map concat]; [change (len (@nil Z)) with 0; lia|].
    rewrite IH, len_app, op_size_len. lia. }
  rewrite H. lia.
Qed.

Definition script_fits (ops : list op) : Prop := len (ops_to_data ops) < 2 ^ 64.
Lemma script_parsesL ops : script_wf ops -> parsesL (script_from_data true) (script_to_data true ops) ops.
Proof.
  intros W s t Hg Hr Hl. unfold script_to_data, script_size in *. rewrite ops_size_len in *. set (l := ops_to_data ops) in *.
  pose proof (len_nonneg l). pose proof (len_nonneg t). pose proof (len_nonneg (write_variable (len l))). rewrite len_app in Hl.
  rewrite <- app_assoc in Hr.
  assert (Hb : bytes_ok l) by (apply script_wf_ok; exact W).
  unfold script_from_data. assert (RS : read_size max_size_t s = (len l, eat (write_variable (len l)) (l ++ t) s)).
  { apply read_size_parses; try assumption; unfold max_size_t; lia. }
  rewrite RS. set (s1 := set_limit (len l) (eat (write_variable (len l)) (l ++ t) s)).
  destruct (script_limited s1 l t eq_refl eq_refl Hb eq_refl) as [E1 E2]; [lia|]. rewrite E1, E2.
  unfold position. cbn [past]. rewrite len_app, len_rev. replace (len l + len (past s1) - len (past s1)) with (len l) by lia.
  rewrite wrap_fits; [|reflexivity|unfold fits; cbn; lia]. rewrite Z.eqb_refl. cbn [negb]. exists max_size_t.
  split; [|unfold max_size_t; lia]. unfold set_limit, set_lim, s1, eat. cbn [past rest good lim]. rewrite rev_app_distr, <- app_assoc.
  f_equal. apply parse_of_data. exact W.
Qed.

Lemma op_count_bad s : good s = false -> op_count s = s.
Proof. intros H. unfold op_count. rewrite H. reflexivity. Qed.
Lemma read_ops_bad f s : good s = false -> read_ops f s = ([], s).
Proof. intros H. destruct f; [reflexivity|]. cbn [read_ops]. unfold exhausted. rewrite H. cbn [negb]. destruct (lim s =? 0); reflexivity. Qed.
Lemma script_sticky : sticky (script_from_data true).
Proof.
  intros s H. unfold script_from_data. pose proof (read_size_sticky max_size_t s H) as Q. destruct (read_size max_size_t s) as [e s']. cbn [snd] in Q.
  rewrite op_count_bad by exact Q. rewrite read_ops_bad by exact Q. cbv zeta iota beta.
  match goal with |- context[if ?b then _ else _] => destruct b end; [reflexivity|exact Q].
Qed.

Lemma script_exactL : exactL (script_from_data true) (script_to_data true) (fun ops => script_wf ops /\ script_fits ops).
Proof.
  intros s ops s' Hb HL E G. unfold script_from_data in E.
  destruct (read_size max_size_t s) as [e s0] eqn:RS.
  destruct (good s0) eqn:G0.
  2:{ exfalso. assert (Gb : good (set_limit e s0) = false) by exact G0. rewrite op_count_bad, read_ops_bad in E by exact Gb.
      injection E as _ E. subst s'. destruct (negb _) in G; cbn in G; congruence. }
  destruct (read_size_exact max_size_t s e s0 Hb RS G0) as (Hg & [He1 He2] & t & Hr & Hl & ->).
  assert (Ht : bytes_ok t) by (rewrite Hr in Hb; apply bytes_ok_app in Hb; apply Hb).
  set (s1 := set_limit e (eat (write_variable e) t s)) in *.
  destruct (Z_le_gt_dec e (len t)) as [C|C].
  - destruct (list_split_len t e) as [Sp Le]; [lia|]. set (l := firstn (Z.to_nat e) t) in *. set (tl := skipn (Z.to_nat e) t) in *.
    assert (Hlok : bytes_ok l) by (rewrite Sp in Ht; apply bytes_ok_app in Ht; apply Ht).
    destruct (script_limited s1 l tl eq_refl Sp Hlok (eq_sym Le)) as [E1 E2]; [lia|]. rewrite E1, E2 in E.
    unfold position in E. cbn [past] in E. rewrite len_app, len_rev in E. replace (len l + len (past s1) - len (past s1)) with e in E by lia.
    rewrite wrap_fits in E; [|reflexivity|unfold fits; cbn; lia]. rewrite Z.eqb_refl in E. cbn [negb] in E. injection E as <- <-.
    split; [exact Hg|]. assert (Pd : ops_to_data (parse_script l) = l) by (apply parse_script_data; exact Hlok).
    split; [split; [apply parse_script_wf; exact Hlok|unfold script_fits; rewrite Pd; lia]|].
    exists tl. unfold script_to_data, script_size. rewrite ops_size_len, Pd, Le. cbn [rest past lim set_limit set_lim].
    repeat split; try (unfold max_size_t; lia).
    + rewrite Hr, <- app_assoc. f_equal. exact Sp.
    + unfold s1, eat, set_limit, set_lim. cbn [past]. rewrite rev_app_distr, <- app_assoc. reflexivity.
  - exfalso. pose proof (len_nonneg t).
    assert (Hs : sees s1 t []). { unfold sees. rewrite app_nil_r. cbn [s1 good rest lim set_limit set_lim eat]. repeat split; try lia. right; split; [reflexivity|lia]. }
    destruct (op_count_sees s1 t [] Hs Ht) as (l' & tl' & S' & P & Ea & Ll & _).
    assert (Hl' : bytes_ok l') by (rewrite app_nil_r in Ea; rewrite <- Ea in Ht; apply bytes_ok_app in Ht; apply Ht).
    assert (Q : (length l' < S (length (rest (op_count s1))))%nat) by (destruct S' as (_ & R & _); rewrite R, app_length; lia).
    destruct (read_ops_sees _ _ l' tl' S' Hl' Q) as (s3 & E3 & Hp & _ & _). rewrite E3 in E.
    unfold position in E. rewrite Hp, len_app, len_rev in E. replace (len l' + len (past (op_count s1)) - len (past (op_count s1))) with (len l') in E by lia.
    pose proof (len_nonneg l'). rewrite wrap_fits in E; [|reflexivity|unfold fits; cbn; lia].
    destruct (Z.eqb_spec (len l') e) as [X|X]; [lia|]. cbn [negb] in E. injection E as _ <-. discriminate G.
Qed.

(** ** Agreement with the reference scan. *)
Definition op_pair (o : op) : Z * list Z := (code o, data o).
Lemma split_ops_scan f : forall l, bytes_ok l -> len l <= max_bytes ->
  split_ops f l = (let (ops, tail) := scan f l in
     map (fun p => mkop (fst p) (snd p) false) ops ++ (if (length l <? f)%nat then match tail with [] => [] | _ => [mkop any_invalid tail true] end else [])) \/ (f <= length l)%nat.
Proof.
  induction f as [|f IH]; intros l Hok Hl; [right; lia|]. destruct (Nat.ltb_spec (length l) (S f)) as [C|C]; [left|right; lia].
  cbn [split_ops scan]. destruct l as [|c t]; [reflexivity|]. unfold split_op.
  destruct (next_op (c :: t)) as [[[c' d] r]|] eqn:E; [|reflexivity].
  destruct (next_op_sound _ _ _ _ Hok E) as (_ & _ & Hr & El & _).
  assert (Ll : len (c :: t) = 1 + len (prefix_of c' (len d)) + len d + len r) by (rewrite El, len_cons, !len_app; lia).
  pose proof (len_nonneg (prefix_of c' (len d))). pose proof (len_nonneg d). pose proof (len_nonneg r).
  destruct (Z.gtb_spec (len d) max_bytes); [lia|].
  assert (Lr : (length r < f)%nat) by (unfold len in *; lia).
  destruct (IH r Hr) as [I|I]; [lia| |lia]. rewrite I. destruct (scan f r) as [ops tail].
  destruct (Nat.ltb_spec (length r) f); [|lia]. reflexivity.
Qed.
Lemma next_op_shorter l c d r : bytes_ok l -> next_op l = Some (c, d, r) -> (length r < length l)%nat.
Proof.
  intros Hok E. destruct (next_op_sound _ _ _ _ Hok E) as (_ & _ & _ & -> & _). cbn [length]. rewrite !app_length. lia.
Qed.
Lemma scan_fuel f : forall g l, bytes_ok l -> (length l <= f)%nat -> (length l <= g)%nat -> scan f l = scan g l.
Proof.
  induction f as [|f IH]; intros g l Hok Hf Hg.
  - destruct l; [|cbn in Hf; lia]. destruct g; reflexivity.
  - destruct g as [|g]. { destruct l; [reflexivity|cbn in Hg; lia]. }
    cbn [scan]. destruct (next_op l) as [[[c d] r]|] eqn:E; [|reflexivity]. pose proof (next_op_shorter _ _ _ _ Hok E).
    destruct (next_op_sound _ _ _ _ Hok E) as (_ & _ & Hr & _). rewrite (IH g r Hr) by lia. reflexivity.
Qed.
Lemma parse_script_scan l : bytes_ok l -> len l <= max_bytes ->
  parse_script l = (let (ops, tail) := script_scan l in
    map (fun p => mkop (fst p) (snd p) false) ops ++ match tail with [] => [] | _ => [mkop any_invalid tail true] end).
Proof.
  intros Hok Hl. unfold parse_script, script_scan. destruct (split_ops_scan (S (length l)) l Hok Hl) as [E|E]; [|lia].
  rewrite E, (scan_fuel (S (length l)) (length l) l Hok) by lia. destruct (scan (length l) l) as [ops tail].
  destruct (Nat.ltb_spec (length l) (S (length l))); [reflexivity|lia].
Qed.
