From Verif Require Import Base Bytes MathModel MathSpec MathProofs StreamModel StreamSpec LCalc OpModel OpSpec OpProofs OpProofs2 OpProofs3 ChainModel ChainSpec ChainProofs4 ChainProps BlockModel BlockProps2 ValidModel ValidSpec ValidProofs ValidProofs2 SigopSpec.

Lemma count_bounds a ops : forall p, 0 <= count_sigops a p ops <= 20 * len ops.
Proof.
  induction ops as [|[c d] ops IH]; intros p; [cbn; lia|]. rewrite len_cons. cbn [count_sigops]. specialize (IH c).
  destruct ((c =? 172) || (c =? 173)); [lia|]. destruct ((c =? 174) || (c =? 175)); [|lia].
  destruct (a && (81 <=? p) && (p <=? 96)) eqn:E; [|lia]. apply andb_true_iff in E as [E E2]. apply andb_true_iff in E as [_ E1]. apply Z.leb_le in E1, E2. lia.
Qed.
Definition to_op (p : Z * list Z) : op := mkop (fst p) (snd p) false.
Definition tail_ops (tail : list Z) : list op := match tail with [] => [] | _ => [mkop any_invalid tail true] end.
Lemma loop_count a ops tail : forall p n, 0 <= n -> n + 20 * len ops < 2 ^ 64 ->
  sigops_loop a p n (map to_op ops ++ tail_ops tail) = n + count_sigops a p ops.
Proof.
  induction ops as [|[c d] ops IH]; intros p n Hn Hb.
  - cbn [map app count_sigops]. destruct tail; cbn; lia.
  - rewrite len_cons in Hb. pose proof (len_nonneg ops). cbn [map app count_sigops sigops_loop to_op code fst snd].
    destruct ((c =? 172) || (c =? 173)).
    + rewrite cadd_sum by lia. rewrite IH by lia. lia.
    + destruct ((c =? 174) || (c =? 175)).
      * unfold multisig_sigops, is_positive_op. rewrite andb_assoc. destruct (a && (81 <=? p) && (p <=? 96)) eqn:E.
        -- apply andb_true_iff in E as [E E2]. apply andb_true_iff in E as [_ E1]. apply Z.leb_le in E1, E2. rewrite cadd_sum by lia. rewrite IH by lia. lia.
        -- rewrite cadd_sum by lia. rewrite IH by lia. lia.
      * rewrite IH by lia. lia.
Qed.
Lemma count_start a ops : count_sigops a 79 ops = count_sigops a 255 ops.
Proof. destruct ops as [|[c d] ops]; [reflexivity|]. cbn [count_sigops]. rewrite !andb_false_r. cbn [andb]. rewrite ?andb_false_r. reflexivity. Qed.
Lemma scan_length f : forall l, bytes_ok l -> len (fst (scan f l)) <= len l.
Proof.
  induction f as [|f IH]; intros l Hok; [cbn; apply len_nonneg|]. cbn [scan]. destruct (next_op l) as [[[c d] r]|] eqn:E; [|cbn; apply len_nonneg].
  pose proof (next_op_shorter _ _ _ _ Hok E) as S. destruct (next_op_sound _ _ _ _ Hok E) as (_ & _ & Hr & _). specialize (IH r Hr). destruct (scan f r) as [ops tl]. cbn [fst] in *. rewrite len_cons. unfold len in *. lia.
Qed.
Lemma parse_scan l : bytes_ok l -> len l <= 4000000 -> parse_script l = map to_op (fst (script_scan l)) ++ tail_ops (snd (script_scan l)).
Proof. intros H1 H2. rewrite parse_script_scan by assumption. destruct (script_scan l) as [ops tail]. reflexivity. Qed.
Lemma parse_sigops a l : bytes_ok l -> len l <= 4000000 -> script_sigops a (parse_script l) = reference_sigops a l /\ 0 <= reference_sigops a l <= 80000000.
Proof.
  intros H1 H2. rewrite (parse_scan l H1 H2). unfold script_sigops, reference_sigops. pose proof (scan_length (length l) l H1) as S. fold (script_scan l) in S.
  rewrite loop_count by lia. rewrite count_start. pose proof (count_bounds a (fst (script_scan l)) 255). lia.
Qed.
Lemma to_script_parse d : bytes_ok d -> len d <= 4000000 -> to_script d = parse_script d.
Proof.
  intros H1 H2. unfold to_script. destruct (script_plain (fresh d) d eq_refl eq_refl H1) as (L & E); [cbn [fresh lim]; unfold max_size_t; lia|]. rewrite E. reflexivity.
Qed.
Lemma bytes_parse s : fits_block s -> bytes_ok (script_bytes s) /\ len (script_bytes s) <= 4000000 /\ s = parse_script (script_bytes s).
Proof. intros [Ok L]. destruct (ok_wf s Ok) as (_ & P & B). auto. Qed.

(** ** Patterns on bytes *)
Lemma parse_code c r : bytes_ok r -> 78 < c <= 255 -> parse_script (c :: r) = mkop c [] false :: parse_script r.
Proof.
  intros Hr Hc. assert (W : op_wf (mkop c [] false)).
  { split; [reflexivity|]. split; [unfold byte_ok; cbn; lia|]. split; [constructor|]. cbn [code data]. repeat match goal with |- context [?x =? ?y] => destruct (Z.eqb_spec x y); [lia|] end. destruct (Z.leb_spec c 75); [lia|reflexivity]. }
  pose proof (parse_first (mkop c [] false) r W Hr) as P. unfold op_to_data in P. cbn [underflow code data] in P. unfold push_one_size, push_two_size, push_four_size in P. revert P.
  repeat match goal with |- context [?x =? ?y] => destruct (Z.eqb_spec x y); [lia|] end. intros P. exact P.
Qed.
Lemma wf_head_code o os : script_wf (o :: os) -> 78 < code o /\ code o <> any_invalid -> op_to_data o = [code o] /\ script_wf os.
Proof.
  intros W H. inversion W as [|? (_ & C & _)|? ? Wo Ws]; subst; [lia|]. split; [|exact Ws]. destruct Wo as (U & _ & _ & L). unfold op_to_data, push_one_size, push_two_size, push_four_size. rewrite U. revert L.
  repeat match goal with |- context [?x =? ?y] => destruct (Z.eqb_spec x y); [lia|] end. destruct (Z.leb_spec (code o) 75); [lia|]. destruct (data o); [reflexivity|]. rewrite len_cons. pose proof (len_nonneg l). lia.
Qed.
Lemma wf_head_push o os : script_wf (o :: os) -> 0 <= code o <= 75 -> op_to_data o = code o :: data o /\ code o = len (data o) /\ script_wf os.
Proof.
  intros W H. inversion W as [|? (_ & C & _)|? ? Wo Ws]; subst; [unfold any_invalid, op_verif in C; lia|]. destruct (short_op_data o Wo H) as [E1 E2]. rewrite E2. auto.
Qed.
Lemma list_end (l : list Z) n : length l = S n -> exists d x, l = d ++ [x] /\ length d = n.
Proof.
  intros H. destruct (exists_last (l := l)) as (d & x & ->); [intros ->; discriminate|]. exists d, x. split; [reflexivity|]. rewrite app_length in H. cbn in H. lia.
Qed.
Lemma p2sh_bytes s : script_ok s -> is_pay_script_hash_pattern s = reference_p2sh (script_bytes s).
Proof.
  intros Ok. destruct (ok_wf s Ok) as (W & P & B). apply eq_true_iff_eq. split.
  - intros H. destruct s as [|a [|b [|c [|? ?]]]]; try discriminate. cbn in H. apply andb_true_iff in H as [H H3]. apply andb_true_iff in H as [H1 H2].
    apply Z.eqb_eq in H1, H2, H3. destruct (wf_head_code a _ W) as [Ea W1]; [rewrite H1; unfold any_invalid, op_verif; lia|].
    destruct (wf_head_push b _ W1) as (Eb & Lb & W2); [lia|]. destruct (wf_head_code c _ W2) as [Ec _]; [rewrite H3; unfold any_invalid, op_verif; lia|].
    unfold script_bytes, script_to_data, ops_to_data. cbn [app map concat]. rewrite Ea, Eb, Ec, H1, H2, H3. cbn [app].
    rewrite H2 in Lb. destruct (data b) as [|x0 [|x1 [|x2 [|x3 [|x4 [|x5 [|x6 [|x7 [|x8 [|x9 [|x10 [|x11 [|x12 [|x13 [|x14 [|x15 [|x16 [|x17 [|x18 [|x19 [|? ?]]]]]]]]]]]]]]]]]]]]]; unfold len in Lb; cbn [length] in Lb; try lia. reflexivity.
  - unfold reference_p2sh. intros H. apply andb_true_iff in H as [H H4]. apply andb_true_iff in H as [H H3]. apply andb_true_iff in H as [H1 H2].
    apply Z.eqb_eq in H1, H2, H3, H4. rewrite <- P. remember (script_bytes s) as l. clear Heql P W Ok s.
    destruct l as [|x [|y l]]; [unfold len in H1; cbn in H1; lia..|]. cbn [nth] in H2, H3, H4. subst x y. apply bytes_ok_cons in B as [_ B]. apply bytes_ok_cons in B as [_ B].
    destruct (list_end l 20) as (d & z & -> & L); [unfold len in H1; cbn [length] in H1; lia|]. apply bytes_ok_app in B as [Bd Bz].
    assert (Ez : z = 135). { rewrite app_nth2 in H4 by lia. rewrite L in H4. exact H4. } subst z.
    assert (B20 : bytes_ok (20 :: d ++ [135])) by (apply bytes_ok_cons; split; [unfold byte_ok; lia|apply bytes_ok_app; auto]).
    rewrite parse_code by (exact B20 || lia).
    replace (20 :: d ++ [135]) with (len d :: d ++ [135]) by (unfold len; rewrite L; reflexivity). rewrite parse_short by (try assumption; unfold len; lia).
    rewrite (parse_code 135 []) by (lia || constructor). cbn [is_pay_script_hash_pattern code]. unfold len. rewrite L. reflexivity.
Qed.
Lemma is_minimal_short d : 2 <= len d <= 40 -> minimal_opcode_from_data d = len d.
Proof.
  intros H. destruct d as [|x [|y d]]; [unfold len in H; cbn in H; lia..|].
  unfold minimal_opcode_from_data, opcode_from_size, push_size_75. destruct (Z.leb_spec (len (x :: y :: d)) 75); lia.
Qed.
Lemma program_bytes s : script_ok s -> is_witness_program_pattern s = match reference_program (script_bytes s) with Some _ => true | None => false end.
Proof.
  intros Ok. destruct (ok_wf s Ok) as (W & P & B). apply eq_true_iff_eq. split.
  - intros H. destruct s as [|a [|b [|? ?]]]; try discriminate. cbn [is_witness_program_pattern] in H. apply andb_true_iff in H as [H H4]. apply andb_true_iff in H as [H H3]. apply andb_true_iff in H as [H1 H2].
    apply Z.leb_le in H4. apply Z.geb_le in H3. unfold is_minimal_push in H2. rewrite is_minimal_short in H2 by lia. apply Z.eqb_eq in H2.
    assert (Ea : op_to_data a = [code a] /\ script_wf [b]).
    { unfold is_nonnegative_op, is_positive_op in H1. apply orb_true_iff in H1 as [H1|H1]; [apply Z.eqb_eq in H1|apply andb_true_iff in H1 as [X Y]; apply Z.leb_le in X, Y].
      - destruct (wf_head_push a _ W) as (E & L & W1); [lia|]. split; [|exact W1]. rewrite E. rewrite H1 in L. destruct (data a); [reflexivity|]. rewrite len_cons in L. pose proof (len_nonneg l). lia.
      - apply wf_head_code; [exact W|unfold any_invalid, op_verif; lia]. }
    destruct Ea as [Ea W1]. destruct (wf_head_push b _ W1) as (Eb & _ & _); [lia|].
    unfold script_bytes, script_to_data, ops_to_data. cbn [app map concat]. rewrite Ea, Eb, app_nil_r. cbn [app]. unfold reference_program. cbn [nth]. rewrite !len_cons.
    unfold is_nonnegative_op, is_positive_op in H1. rewrite H1, H2. destruct (Z.leb_spec 4 (1 + (1 + len (data b)))); [|lia]. destruct (Z.leb_spec (1 + (1 + len (data b))) 42); [|lia].
    destruct (Z.eqb_spec (len (data b) + 2) (1 + (1 + len (data b)))); [|lia]. reflexivity.
  - unfold reference_program. destruct ((4 <=? len (script_bytes s)) && _ && _ && _) eqn:H; [|discriminate]. intros _. rewrite <- P. remember (script_bytes s) as l. clear Heql P W Ok s.
    apply andb_true_iff in H as [H H4]. apply andb_true_iff in H as [H H3]. apply andb_true_iff in H as [H1 H2]. apply Z.leb_le in H1, H2. apply Z.eqb_eq in H4.
    destruct l as [|x [|y d]]; [unfold len in H1; cbn in H1; lia..|]. cbn [nth] in H3, H4. rewrite !len_cons in *. assert (y = len d) by lia. subst y.
    apply bytes_ok_cons in B as [Bx B]. apply bytes_ok_cons in B as [_ B]. pose proof (parse_short d [] B ltac:(constructor) ltac:(lia)) as PS. rewrite app_nil_r in PS. change (parse_script []) with (@nil op) in PS.
    assert (PX : exists a, code a = x /\ parse_script (x :: len d :: d) = a :: parse_script (len d :: d)).
    { assert (Bd : bytes_ok (len d :: d)) by (apply bytes_ok_cons; split; [unfold byte_ok; lia|exact B]). apply orb_true_iff in H3 as [H3|H3]; [apply Z.eqb_eq in H3|apply andb_true_iff in H3 as [X Y]; apply Z.leb_le in X, Y].
      - subst x. exists (mkop 0 [] false). split; [reflexivity|]. apply (parse_short [] (len d :: d)); [constructor|exact Bd|change (len (@nil Z)) with 0; lia].
      - exists (mkop x [] false). split; [reflexivity|]. apply parse_code; [exact Bd|lia]. }
    destruct PX as (a & Ca & ->). rewrite PS. cbn [is_witness_program_pattern code data]. rewrite Ca. unfold is_nonnegative_op, is_positive_op. rewrite H3. unfold is_minimal_push. cbn [code data]. rewrite is_minimal_short by lia. rewrite Z.eqb_refl.
    destruct (Z.geb_spec (len d) 2); [|lia]. destruct (Z.leb_spec (len d) 40); [|lia]. reflexivity.
Qed.
(** The pieces of a recognized program. *)
Lemma program_parts s v p : script_ok s -> reference_program (script_bytes s) = Some (v, p) ->
  witness_program s = p /\ 2 <= len p <= 40 /\ 0 <= v <= 16 /\
  script_version s = (if v =? 0 then segwit else if v =? 1 then taproot else reserved) /\
  script_bytes s = (if v =? 0 then 0 else v + 80) :: len p :: p.
Proof.
  intros Ok E. assert (M := program_bytes s Ok). rewrite E in M. destruct (ok_wf s Ok) as (W & P & B). unfold witness_program, script_version. rewrite M.
  destruct s as [|a [|b [|? ?]]]; try discriminate. cbn [is_witness_program_pattern] in M. apply andb_true_iff in M as [H H4]. apply andb_true_iff in H as [H H3]. apply andb_true_iff in H as [H1 H2].
  apply Z.leb_le in H4. apply Z.geb_le in H3. unfold is_minimal_push in H2. rewrite is_minimal_short in H2 by lia. apply Z.eqb_eq in H2.
  assert (Ea : op_to_data a = [code a] /\ script_wf [b] /\ (code a = 0 \/ 81 <= code a <= 96)).
  { unfold is_nonnegative_op, is_positive_op in H1. apply orb_true_iff in H1 as [H1|H1]; [apply Z.eqb_eq in H1|apply andb_true_iff in H1 as [X Y]; apply Z.leb_le in X, Y].
    - destruct (wf_head_push a _ W) as (Ex & L & W1); [lia|]. split; [|split; [exact W1|lia]]. rewrite Ex. rewrite H1 in L. destruct (data a); [reflexivity|]. rewrite len_cons in L. pose proof (len_nonneg l). lia.
    - destruct (wf_head_code a _ W) as [Ex W1]; [unfold any_invalid, op_verif; lia|]. split; [exact Ex|]. split; [exact W1|lia]. }
  destruct Ea as (Ea & W1 & Ca). destruct (wf_head_push b _ W1) as (Eb & _ & _); [lia|].
  assert (EB : script_bytes [a; b] = code a :: len (data b) :: data b). { unfold script_bytes, script_to_data, ops_to_data. cbn [app map concat]. rewrite Ea, Eb, app_nil_r, H2. reflexivity. }
  rewrite EB in E |- *. unfold reference_program in E. cbn [nth skipn] in E. destruct ((4 <=? len (code a :: len (data b) :: data b)) && _ && _ && _); [|discriminate].
  apply some_inj in E. assert (Ev := f_equal fst E). assert (Ep := f_equal snd E). cbn [fst snd] in Ev, Ep. clear E. rewrite Ep in *. split; [reflexivity|]. split; [lia|].
  destruct (Z.eqb_spec (code a) 0) as [C|C].
  - subst v. split; [lia|]. split; [reflexivity|]. rewrite C. reflexivity.
  - split; [lia|]. destruct (Z.eqb_spec v 0); [lia|]. split; [|f_equal; lia]. destruct (Z.eqb_spec (code a) 81), (Z.eqb_spec v 1); try lia; reflexivity.
Qed.
Lemma program_none s : script_ok s -> reference_program (script_bytes s) = None -> script_version s = unversioned.
Proof. intros Ok E. unfold script_version. rewrite (program_bytes s Ok), E. reflexivity. Qed.
(** A witness program has no signature operations. *)
Lemma program_no_sigops a d v p : bytes_ok d -> len d <= 4000000 -> reference_program d = Some (v, p) -> reference_sigops a d = 0.
Proof.
  intros B L E. assert (Ok : script_ok (parse_script d)).
  { exists d. split; [exact B|]. split; [lia|]. symmetry. apply to_script_parse; assumption. }
  assert (SB : script_bytes (parse_script d) = d) by (unfold script_bytes, script_to_data; cbn [app]; apply parse_script_data, B).
  rewrite <- SB in E. pose proof (program_bytes _ Ok) as M. rewrite E in M. rewrite <- (proj1 (parse_sigops a d B L)).
  destruct (parse_script d) as [|x [|y [|? ?]]]; try discriminate. cbn [is_witness_program_pattern] in M. apply andb_true_iff in M as [H H4]. apply andb_true_iff in H as [H H3]. apply andb_true_iff in H as [H1 H2].
  apply Z.leb_le in H4. apply Z.geb_le in H3. unfold is_minimal_push in H2. rewrite is_minimal_short in H2 by lia. apply Z.eqb_eq in H2.
  unfold script_sigops. cbn [sigops_loop]. rewrite H2. assert (C : code x = 0 \/ 81 <= code x <= 96).
  { unfold is_nonnegative_op, is_positive_op in H1. apply orb_true_iff in H1 as [H1|H1]; [apply Z.eqb_eq in H1; lia|apply andb_true_iff in H1 as [X Y]; apply Z.leb_le in X, Y; lia]. }
  repeat match goal with |- context [?u =? ?w] => destruct (Z.eqb_spec u w); [lia|] end. reflexivity.
Qed.
(** ** The embedded script *)
Lemma redeem_spec s : fits_block s -> s <> [] ->
  (if (len s =? 0) || negb (is_relaxed_push_pattern s) then None else Some (data (last s (mkop 0 [] false)))) = reference_redeem (script_bytes s).
Proof.
  intros F N. destruct (bytes_parse s F) as (B & L & E). unfold reference_redeem. pose proof (parse_scan _ B L) as PS. rewrite <- E in PS. destruct (script_scan (script_bytes s)) as [ops tail]. cbn [fst snd] in PS.
  assert (Z1 : len s =? 0 = false). { apply Z.eqb_neq. destruct s; [contradiction|]. rewrite len_cons. pose proof (len_nonneg s). lia. } rewrite Z1. cbn [orb]. rewrite PS.
  unfold is_relaxed_push_pattern. rewrite forallb_app. destruct tail as [|x tail].
  - cbn [tail_ops forallb]. rewrite andb_true_r, app_nil_r. change (len (@nil Z) =? 0) with true. cbn [andb].
    assert (FE : forallb (fun o => is_relaxed_push (code o)) (map to_op ops) = forallb (fun o : Z * list Z => fst o <=? 96) ops) by (clear; induction ops as [|o ops IH]; [reflexivity|]; cbn; rewrite IH; reflexivity). rewrite FE.
    destruct (forallb _ ops); [|reflexivity]. cbn [negb]. f_equal. cbn [tail_ops] in PS. rewrite app_nil_r in PS.
    destruct ops as [|o ops] using rev_ind; [cbn in PS; contradiction|]. rewrite map_app. cbn [map]. rewrite !last_last. reflexivity.
  - cbn [tail_ops forallb]. change (is_relaxed_push (code (mkop any_invalid (x :: tail) true))) with false. rewrite andb_false_r. cbn [negb].
    assert (Z2 : len (x :: tail) =? 0 = false) by (apply Z.eqb_neq; rewrite len_cons; pose proof (len_nonneg tail); lia). rewrite Z2. reflexivity.
Qed.
Lemma redeem_ok l d : bytes_ok l -> len l <= 4000000 -> reference_redeem l = Some d -> bytes_ok d /\ len d <= 4000000.
Proof.
  intros B L. unfold reference_redeem. pose proof (parse_scan l B L) as PS. pose proof (parse_script_data l B) as PD. pose proof (parse_script_wf l B) as W.
  destruct (script_scan l) as [ops tail]. cbn [fst snd] in PS. destruct ((len tail =? 0) && _); [|discriminate]. intros E. apply some_inj in E. subst d.
  destruct ops as [|o ops] using rev_ind; [cbn; split; [constructor|lia]|]. rewrite last_last.
  rewrite PS, map_app in PD. cbn [map] in PD. unfold ops_to_data in PD. rewrite !map_app, !concat_app in PD. cbn [map concat] in PD. rewrite app_nil_r in PD.
  assert (OD : exists h, op_to_data (to_op o) = h ++ snd o).
  { unfold op_to_data. cbn [to_op underflow code data]. destruct (_ =? push_one_size); [eexists [_; _]; reflexivity|]. destruct (_ =? push_two_size); [eexists (_ :: _); reflexivity|]. destruct (_ =? push_four_size); [eexists (_ :: _); reflexivity|eexists [_]; reflexivity]. }
  destruct OD as [h Eh]. rewrite Eh in PD. assert (B2 : bytes_ok l) by exact B. rewrite <- PD in B2. apply bytes_ok_app in B2 as [B2 _]. apply bytes_ok_app in B2 as [_ B2]. apply bytes_ok_app in B2 as [_ B2].
  split; [exact B2|]. assert (L2 : len l <= 4000000) by exact L. rewrite <- PD, !len_app in L2. pose proof (len_nonneg h). pose proof (len_nonneg (concat (map op_to_data (map to_op ops)))). pose proof (len_nonneg (concat (map op_to_data (tail_ops tail)))). lia.
Qed.
Lemma embedded_spec s o : fits_block s -> script_ok o ->
  embedded_sigop_script s o = (if reference_p2sh (script_bytes o) then match reference_redeem (script_bytes s) with Some d => if len s =? 0 then None else Some (parse_script d) | None => None end else None).
Proof.
  intros F Oo. unfold embedded_sigop_script. rewrite (p2sh_bytes o Oo). destruct (reference_p2sh (script_bytes o)); cbn [negb]; [|reflexivity].
  destruct (list_eq_dec (fun a b : op => ltac:(decide equality; [apply bool_dec|apply (list_eq_dec Z.eq_dec)|apply Z.eq_dec])) s []) as [->|N].
  - cbn [orb]. change (len (@nil op) =? 0) with true. cbn [orb]. destruct (reference_redeem _); reflexivity.
  - destruct (bytes_parse s F) as (B & L & _). pose proof (redeem_spec s F N) as R. assert (Z1 : len s =? 0 = false). { apply Z.eqb_neq. destruct s; [contradiction|]. rewrite len_cons. pose proof (len_nonneg s). lia. }
    destruct ((len s =? 0) || negb (is_relaxed_push_pattern s)) eqn:X; rewrite <- R; [reflexivity|]. rewrite Z1. f_equal. symmetry in R. apply (redeem_ok _ _ B L) in R as [R1 R2]. apply to_script_parse; assumption.
Qed.
(** ** One input *)
Lemma umul_small x f : 0 <= x <= 80000000 -> f = 4 \/ f = 1 -> umul x f = x * f.
Proof. intros H F. unfold umul. apply wrap_fits; [reflexivity|]. apply fits64. lia. Qed.
Lemma witness_spec w s : script_ok s -> Forall (fun e => bytes_ok e /\ len e <= 4000000) w ->
  match reference_program (script_bytes s) with
  | Some (v, p) => exists ws, witness_sigop_script w s = Some ws /\ script_sigops true ws = reference_program_sigops w v p /\ 0 <= reference_program_sigops w v p <= 80000000
  | None => witness_sigop_script w s = None
  end.
Proof.
  intros Ok Fw. destruct (reference_program (script_bytes s)) as [[v p]|] eqn:E.
  - destruct (program_parts s v p Ok E) as (Ep & Lp & Vv & Ev & _). unfold witness_sigop_script, reference_program_sigops. rewrite Ev, Ep. destruct (Z.eqb_spec v 0).
    + destruct (Z.eqb_spec (len p) 20); [eexists; split; [reflexivity|split; [reflexivity|lia]]|]. destruct (Z.eqb_spec (len p) 32); cbn [andb]; [|eexists; split; [reflexivity|split; [reflexivity|lia]]].
      destruct w as [|ew w]; [change (0 <? len (@nil (list Z))) with false; eexists; split; [reflexivity|split; [reflexivity|lia]]|]. rewrite len_cons. pose proof (len_nonneg w). destruct (Z.eqb_spec (1 + len w) 0); [lia|]. destruct (Z.ltb_spec 0 (1 + len w)); [|lia].
      eexists. split; [reflexivity|]. assert (X : bytes_ok (last (ew :: w) []) /\ len (last (ew :: w) []) <= 4000000).
      { rewrite Forall_forall in Fw. apply Fw. destruct (exists_last (l := ew :: w)) as (q & z & Eq); [discriminate|]. rewrite Eq, last_last. apply in_or_app. right. left. reflexivity. }
      destruct X as [X1 X2]. rewrite to_script_parse by assumption. apply parse_sigops; assumption.
    + destruct (v =? 1); eexists; (split; [reflexivity|split; [reflexivity|lia]]).
  - unfold witness_sigop_script. rewrite (program_none s Ok E). reflexivity.
Qed.
Definition ref_input (bip16 bip141 : bool) (p : input * meta) : Z :=
  (if bip141 then 4 else 1) * (reference_sigops false (script_bytes (in_script (fst p))) + (if bip16 then of_prevout reference_p2sh_sigops p else 0)) +
  (if bip141 then of_prevout reference_witness_sigops p else 0).
Lemma parse_ok d : bytes_ok d -> len d <= 4000000 -> script_ok (parse_script d) /\ script_bytes (parse_script d) = d.
Proof.
  intros B L. split; [exists d; split; [exact B|]; split; [lia|]; symmetry; apply to_script_parse; assumption|]. unfold script_bytes, script_to_data. cbn [app]. apply parse_script_data, B.
Qed.
Lemma p2sh_not_program l : reference_p2sh l = true -> reference_program l = None.
Proof.
  unfold reference_p2sh, reference_program. intros H. apply andb_true_iff in H as [H H4]. apply andb_true_iff in H as [H H3]. apply andb_true_iff in H as [H1 H2]. apply Z.eqb_eq in H2. rewrite H2. rewrite !andb_false_r. reflexivity.
Qed.
Lemma input_spec bip16 bip141 i m : (bip141 = true -> bip16 = true) -> input_ok i -> fits_block (in_script i) -> (forall o, prevout m = Some o -> fits_block (out_script o)) ->
  input_sigops bip16 bip141 (i, m) = ref_input bip16 bip141 (i, m) /\ 0 <= ref_input bip16 bip141 (i, m) <= 1000000000.
Proof.
  intros Hb Oi Fi Fp. destruct Oi as (_ & _ & _ & _ & _ & Ow). destruct (bytes_parse _ Fi) as (B & L & E). destruct (parse_sigops false _ B L) as [PS PB]. rewrite <- E in PS.
  unfold input_sigops, ref_input, of_prevout. cbn [fst snd]. rewrite PS. rewrite umul_small by (try assumption; destruct bip141; auto).
  set (leg := reference_sigops false (script_bytes (in_script i))) in *. destruct (prevout m) as [o|]; [|destruct bip16, bip141; lia].
  specialize (Fp o eq_refl). pose proof (proj1 Fp) as Oo. pose proof (witness_spec (in_witness i) (out_script o) Oo Ow) as WS.
  pose proof (embedded_spec (in_script i) (out_script o) Fi Oo) as ES. unfold reference_p2sh_sigops, reference_witness_sigops.
  destruct (reference_program (script_bytes (out_script o))) as [[v p]|] eqn:RP.
  - (* native witness program: not p2sh *)
    assert (NP : reference_p2sh (script_bytes (out_script o)) = false) by (destruct (reference_p2sh _) eqn:X; [apply p2sh_not_program in X; congruence|reflexivity]).
    rewrite NP in ES |- *. destruct WS as (ws & EW & SW & BW). destruct bip141.
    + rewrite EW, SW. rewrite Hb by reflexivity. rewrite cadd_sum by lia. lia.
    + rewrite ES. destruct bip16; lia.
  - rewrite ES. destruct (reference_p2sh (script_bytes (out_script o))).
    + destruct (reference_redeem (script_bytes (in_script i))) as [d|] eqn:RD.
      * destruct (redeem_ok _ _ B L RD) as [Bd Ld]. destruct (len (in_script i) =? 0) eqn:Z0.
        { (* empty input script: the redeemed data is empty *)
          assert (in_script i = []) as X by (destruct (in_script i); [reflexivity|]; apply Z.eqb_eq in Z0; rewrite len_cons in Z0; pose proof (len_nonneg s); lia). assert (d = []) by (rewrite X in RD; cbn in RD; congruence). subst d.
          change (reference_sigops true []) with 0. change (reference_program []) with (@None (Z * list Z)). destruct bip16, bip141; rewrite ?WS; lia. }
        destruct (parse_ok d Bd Ld) as [Ok Sb]. pose proof (witness_spec (in_witness i) (parse_script d) Ok Ow) as WD. rewrite Sb in WD. destruct (parse_sigops true d Bd Ld) as [PS2 PB2].
        destruct (reference_program d) as [[v p]|] eqn:RPD.
        -- rewrite (program_no_sigops true d v p Bd Ld RPD) in *. destruct WD as (ws & EW & SW & BW). destruct bip141; [rewrite Hb by reflexivity; rewrite WS, EW, SW, cadd_sum by lia; lia|].
           destruct bip16; [|lia]. rewrite PS2. rewrite umul_small by lia. rewrite cadd_sum by lia. lia.
        -- destruct bip141; [rewrite Hb by reflexivity; rewrite WS, WD|destruct bip16; [|lia]]; rewrite PS2; rewrite umul_small by lia; rewrite cadd_sum by lia; lia.
      * destruct bip16, bip141; rewrite ?WS; lia.
    + destruct bip16, bip141; rewrite ?WS; lia.
Qed.
