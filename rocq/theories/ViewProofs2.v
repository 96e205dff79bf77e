(** One transaction view: fields, and exactly which bytes are accepted. *)
From Verif Require Import Base Bytes MathModel MathSpec MathProofs StreamModel StreamSpec StreamProofs StreamProofs2 LineProofs LCalc OpModel OpProofs OpProofs2 OpProofs3 ChainModel RCalc ChainSpec ChainProofs ChainProofs2 ChainProofs3 ChainProofs4 ViewModel ViewProofs.

Definition viewable (t : tx) : Prop :=
  twf t /\ tx_inputs t <> [] /\ tx_outputs t <> [] /\
  Forall (fun i => small_script (in_script i)) (tx_inputs t) /\ Forall (fun o => small_script (out_script o)) (tx_outputs t) /\
  (tx_segregated t = true -> some_witness_element (tx_inputs t) = true).

Definition ins_bytes (t : tx) : list Z := concat (map input_to_data (tx_inputs t)).
Definition outs_bytes (t : tx) : list Z := concat (map output_to_data (tx_outputs t)).
Definition wit_bytes (t : tx) : list Z := if tx_segregated t then wits (tx_inputs t) else [].
Definition mark (t : tx) : list Z := if tx_segregated t then [0; 1] else [].
Lemma tx_bytes t : tx_to_data true t =
  write_le 4 (tx_version t) ++ mark t ++ write_variable (len (tx_inputs t)) ++ ins_bytes t ++
  write_variable (len (tx_outputs t)) ++ outs_bytes t ++ wit_bytes t ++ write_le 4 (tx_locktime t).
Proof. unfold tx_to_data, mark, wit_bytes. cbn [andb]. reflexivity. Qed.
Lemma tx_bytes_plain t : tx_to_data false t =
  write_le 4 (tx_version t) ++ write_variable (len (tx_inputs t)) ++ ins_bytes t ++
  write_variable (len (tx_outputs t)) ++ outs_bytes t ++ write_le 4 (tx_locktime t).
Proof. unfold tx_to_data. cbn [andb app]. reflexivity. Qed.

Definition sumz (l : list Z) : Z := fold_right Z.add 0 l.
Lemma total_sum l : total l = sumz l.
Proof.
  unfold total. assert (H : forall l n, fold_left Z.add l n = n + sumz l); [|rewrite H; reflexivity].
  clear. induction l as [|a l IH]; intros n; cbn [fold_left sumz fold_right]; [lia|]. rewrite IH. fold (sumz l). lia.
Qed.
Definition in_entry (i : input) : Z := len (script_to_data true (in_script i)).
Definition out_entry (o : output) : Z := variable_size (out_value o) + len (script_to_data true (out_script o)).

Record shows (cb w : bool) (p : Z) (t : tx) (v : txview) : Prop := mkshows {
  sh_start : v_start v = p; sh_size : v_size v = len (tx_to_data true t);
  sh_in : v_in v = 4 + len (mark t) + variable_size (len (tx_inputs t));
  sh_out : v_out v = v_in v + len (ins_bytes t) + variable_size (len (tx_outputs t));
  sh_ins : v_in_count v = len (tx_inputs t); sh_outs : v_out_count v = len (tx_outputs t);
  sh_wits : v_wits v = len (wit_bytes t);
  sh_it : v_in_table v = sumz (map in_entry (tx_inputs t)) + (if tx_segregated t && w then len (wit_bytes t) else len (tx_inputs t));
  sh_ot : v_out_table v = sumz (map out_entry (tx_outputs t));
  sh_marked : v_marked v = tx_segregated t; sh_seg : v_segregated v = tx_segregated t && w; sh_cb : v_coinbase v = cb }.

(** The pieces of the reader, named. *)
Definition r_mark (count : Z) : rd -> bool * rd :=
  if count =? 0 then (b <- peek_byte ;; ret (b =? 1)) else ret false.
Definition r_count (hw : bool) (count : Z) : rd -> Z * rd := if hw then (_ <- skip_byte ;; read_size max_count) else ret count.
Definition r_wits (hw : bool) (ins : Z) : rd -> unit * rd :=
  if hw then (found <- read_n (Z.to_nat ins) witness_skip ;; invalidate_if (negb (existsb (fun b => b) found))) else ret tt.
Definition r_end (ins outs : Z) := invalidate_if ((ins =? 0) || (outs =? 0)).
Lemma r_mark_sticky c : sticky (r_mark c).
Proof. unfold r_mark. destruct (c =? 0); [|apply sticky_ret]. apply sticky_bind'; [apply peek_sticky|intros; apply sticky_ret]. Qed.
Lemma r_count_sticky h c : sticky (r_count h c).
Proof. unfold r_count. destruct h; [|apply sticky_ret]. apply sticky_bind'; [apply skip_byte_sticky|intros; apply read_size_sticky]. Qed.
Lemma r_wits_sticky h n : sticky (r_wits h n).
Proof. unfold r_wits. destruct h; [|apply sticky_ret]. apply sticky_bind'; [apply read_n_sticky, skip_sticky|intros; apply invalidate_sticky]. Qed.
Lemma r_end_sticky a b : sticky (r_end a b). Proof. apply invalidate_sticky. Qed.

(** The marker and the input count. *)
Lemma mark_count s c hw s1 n s2 : bytes_ok (rest s) -> 0 <= lim s <= 2 ^ 64 - 1 -> good s = true -> 0 <= c <= 1000000 ->
  r_mark c s = (hw, s1) -> r_count hw c s1 = (n, s2) -> good s2 = true ->
  0 <= n <= 1000000 /\ s1 = s /\ (hw = true -> c = 0) /\ (hw = false -> n = c) /\
  step s (if hw then [1] ++ write_variable n else []) s2.
Proof.
  intros Hb Hl Hg Hc E1 E2 G. pose proof (bad_before _ _ _ _ (r_count_sticky hw c) E2 G) as G1. unfold r_mark, bind, ret in E1.
  destruct (Z.eqb_spec c 0) as [->|N].
  - destruct (peek_byte s) as [b s0] eqn:P. injection E1 as <- <-. destruct (peek_inv s b s0 P G1) as (_ & -> & t & Ht).
    unfold r_count in E2. destruct (Z.eqb_spec b 1) as [Eb|Nb]; [rewrite Eb in *; clear Eb|].
    + unfold bind in E2. destruct (skip_byte s) as [[] s3] eqn:E3.
      pose proof (bad_before _ _ _ _ (read_size_sticky max_count) E2 G) as G3.
      destruct (skip_byte_inv s s3 E3 Hl G3) as (_ & b9 & u & Hr & Q3 & Hl1). rewrite Ht in Hr. assert (b9 = 1 /\ u = t) as [-> ->] by (split; congruence). subst s3.
      assert (S1 : step s [1] (mkrd (1 :: past s) t true (lim s - 1))).
      { constructor; auto; cbn [rest past lim good]; [rewrite Ht in Hb; inversion Hb; assumption|lia]. }
      destruct (exactL_step _ _ _ _ _ _ (exact_L _ _ _ (read_size_exact max_count)) (st_bytes' _ _ _ S1) (st_lim _ _ _ S1) E2 G) as (((Hn & _) & Hm) & S2).
      split; [unfold max_count in Hm; lia|]. split; [reflexivity|]. split; [reflexivity|]. split; [discriminate|]. eapply step_app; eassumption.
    + unfold ret in E2. injection E2 as <- <-. split; [lia|]. split; [reflexivity|]. split; [reflexivity|]. split; [reflexivity|]. apply step_nil; assumption.
  - injection E1 as <- <-. unfold r_count, ret in E2. injection E2 as <- <-. split; [lia|]. split; [reflexivity|]. split; [discriminate|]. split; [reflexivity|]. apply step_nil; assumption.
Qed.

(** The witnesses: joined to the inputs. *)
Fixpoint zip_wits (l : list input) (ws : list (list (list Z))) : list input :=
  match l, ws with i :: l', w :: ws' => set_witness i w :: zip_wits l' ws' | _, _ => [] end.
Lemma zip_facts l : forall ws, length ws = length l ->
  length (zip_wits l ws) = length l /\ map in_witness (zip_wits l ws) = ws /\
  concat (map input_to_data (zip_wits l ws)) = concat (map input_to_data l) /\
  map in_entry (zip_wits l ws) = map in_entry l /\
  (Forall iwf l -> Forall iwf (zip_wits l ws)) /\
  (Forall (fun i => small_script (in_script i)) l -> Forall (fun i => small_script (in_script i)) (zip_wits l ws)).
Proof.
  induction l as [|i l IH]; intros [|w ws] L; try discriminate; [cbn; repeat split; auto|]. cbn [zip_wits length map concat] in *.
  destruct (IH ws) as (A & B & C & D & F & K); [lia|]. rewrite A, B, C, D. repeat split; auto.
  - intros X. inversion X; subst. constructor; [assumption|auto].
  - intros X. inversion X; subst. constructor; [assumption|auto].
Qed.

Lemma some_nonempty l : some_witness_element l = true -> has_witness_data l = true.
Proof.
  unfold some_witness_element, has_witness_data, some_element. rewrite !existsb_exists. intros (i & Hi & H). exists i. split; [exact Hi|].
  destruct (in_witness i); [discriminate|reflexivity].
Qed.
Lemma existsb_some ws fs : Forall2 (fun f w => wwf w /\ f = some_element w) fs ws -> existsb (fun b => b) fs = existsb some_element ws.
Proof. induction 1 as [|f w fs ws (_ & ->) _ IH]; [reflexivity|]. cbn. rewrite IH. reflexivity. Qed.
Lemma existsb_map' {A B} (f : B -> bool) (g : A -> B) l : existsb f (map g l) = existsb (fun a => f (g a)) l.
Proof. induction l as [|a l IH]; [reflexivity|]. cbn. rewrite IH. reflexivity. Qed.
Lemma no_witness l : Forall iok l -> has_witness_data l = false /\ Forall (fun i => wwf (in_witness i)) l.
Proof.
  induction 1 as [|i l (_ & _ & E) _ [IH1 IH2]]; [split; [reflexivity|constructor]|]. cbn. rewrite E. split; [exact IH1|]. constructor; [|exact IH2].
  rewrite E. split; [cbn; lia|constructor].
Qed.
Lemma concat_wits l : concat (map witness_to_data (map in_witness l)) = wits l.
Proof. unfold wits. rewrite map_map. reflexivity. Qed.
Lemma f2_forall {A B} (P : B -> Prop) (R : A -> B -> Prop) la lb : (forall a b, R a b -> P b) -> Forall2 R la lb -> Forall P lb.
Proof. intros H. induction 1; constructor; eauto. Qed.
Lemma f2_map {A B C} (f : A -> C) (g : B -> C) (R : A -> B -> Prop) la lb : (forall a b, R a b -> f a = g b) -> Forall2 R la lb -> map f la = map g lb.
Proof. intros H. induction 1; [reflexivity|]. cbn. f_equal; eauto. Qed.
Lemma script_entry sc : variable_size (len (ops_to_data sc)) + len (ops_to_data sc) = len (script_to_data true sc).
Proof. rewrite script_enc, len_app, len_write_variable. lia. Qed.

Lemma n4 : 0 <= 4. Proof. lia. Qed.
Lemma len_count {A} (l : list A) n : 0 <= n -> length l = Z.to_nat n -> len l = n. Proof. unfold len. lia. Qed.
Lemma len4 (d : list Z) : len d = 4 -> length d = 4%nat. Proof. unfold len. lia. Qed.
Theorem view_exact cb w s v s' : bytes_ok (rest s) -> 0 <= lim s <= 2 ^ 64 - 1 ->
  view_tx cb w s = (v, s') -> good s' = true ->
  exists t, viewable t /\ step s (tx_to_data true t) s' /\ shows cb w (position s) t v.
Proof.
  intros Hb Hl E G. unfold view_tx in E. unfold witness_marker, witness_enabled in E. 
  unfold bind at 1 in E. unfold tell at 1 in E. unfold bind at 1 in E.
  destruct (skip_bytes 4 s) as [u1 s1] eqn:E1. unfold bind at 1 in E. destruct (read_size max_count s1) as [c s2] eqn:E2.
  fold (r_mark c) in E. unfold bind at 1 in E. destruct (r_mark c s2) as [hw s3] eqn:E3. fold (r_count hw c) in E.
  unfold bind at 1 in E. destruct (r_count hw c s3) as [n s4] eqn:E4. unfold bind at 1 in E. unfold tell at 1 in E.
  unfold bind at 1 in E. destruct (read_n (Z.to_nat n) view_input s4) as [sizes s5] eqn:E5.
  unfold bind at 1 in E. destruct (read_size max_count s5) as [m s6] eqn:E6. unfold bind at 1 in E. unfold tell at 1 in E.
  unfold bind at 1 in E. destruct (read_n (Z.to_nat m) view_output s6) as [pairs s7] eqn:E7. unfold bind at 1 in E. unfold tell at 1 in E.
  fold (r_wits hw n) in E. unfold bind at 1 in E. destruct (r_wits hw n s7) as [u8 s8] eqn:E8.
  unfold bind at 1 in E. destruct (skip_bytes 4 s8) as [u9 s9] eqn:E9. unfold bind at 1 in E. unfold tell at 1 in E.
  fold (r_end n m) in E. unfold bind at 1 in E. destruct (r_end n m s9) as [u10 s10] eqn:E10.
  unfold ret in E. cbv zeta in E. injection E as Ev Es. subst s10. subst v.
  pose proof (bad_before _ _ _ _ (r_end_sticky n m) E10 G) as G9.
  pose proof (bad_before _ _ _ _ (skip_sticky' 4) E9 G9) as G8.
  pose proof (bad_before _ _ _ _ (r_wits_sticky hw n) E8 G8) as G7.
  pose proof (bad_before _ _ _ _ (read_n_sticky _ _ view_output_sticky) E7 G7) as G6.
  pose proof (bad_before _ _ _ _ (read_size_sticky _) E6 G6) as G5.
  pose proof (bad_before _ _ _ _ (read_n_sticky _ _ view_input_sticky) E5 G5) as G4.
  pose proof (bad_before _ _ _ _ (r_count_sticky hw c) E4 G4) as G3.
  pose proof (bad_before _ _ _ _ (r_mark_sticky c) E3 G3) as G2.
  pose proof (bad_before _ _ _ _ (read_size_sticky _) E2 G2) as G1.
  destruct (skip_exactG 4 n4 s u1 s1 Hb Hl E1 G1) as (vb & (Lvb & Bvb) & S1).
  destruct (exactL_step _ _ _ _ _ _ (exact_L _ _ _ (read_size_exact max_count)) (st_bytes' _ _ _ S1) (st_lim _ _ _ S1) E2 G2) as (((Hc & _) & Hcm) & S2).
  unfold max_count in Hcm.
  destruct (mark_count s2 c hw s3 n s4 (st_bytes' _ _ _ S2) (st_lim _ _ _ S2) G2 (conj Hc Hcm) E3 E4 G4) as (Hn & -> & Hw1 & Hw0 & S4).
  destruct (read_n_exactG _ _ _ (Z.to_nat n) view_input_sticky view_input_exactG s4 sizes s5 (st_bytes' _ _ _ S4) (st_lim _ _ _ S4) E5 G5) as (li & (Lli & Fli) & S5).
  destruct (exactL_step _ _ _ _ _ _ (exact_L _ _ _ (read_size_exact max_count)) (st_bytes' _ _ _ S5) (st_lim _ _ _ S5) E6 G6) as (((Hm & _) & Hmm) & S6).
  unfold max_count in Hmm.
  destruct (read_n_exactG _ _ _ (Z.to_nat m) view_output_sticky view_output_exactG s6 pairs s7 (st_bytes' _ _ _ S6) (st_lim _ _ _ S6) E7 G7) as (lo & (Llo & Flo) & S7).
  assert (E10' : (n =? 0) || (m =? 0) = false /\ s' = s9).
  { unfold r_end, invalidate_if in E10. destruct ((n =? 0) || (m =? 0)); injection E10 as _ <-; [discriminate|auto]. }
  destruct E10' as [Z0 ->]. apply orb_false_iff in Z0 as [Zn Zm]. apply Z.eqb_neq in Zn, Zm.
  assert (Nli : len li = n) by (apply len_count; [apply Hn|exact Lli]). assert (Nlo : len lo = m) by (apply len_count; [exact Hm|exact Llo]).
  assert (Iok : Forall iok li) by (eapply f2_forall; [|exact Fli]; intros a b [H _]; exact H).
  assert (Ook : Forall ook lo) by (eapply f2_forall; [|exact Flo]; intros a b [H _]; exact H).
  assert (Sz : map input_entry sizes = map in_entry li).
  { eapply f2_map; [|exact Fli]. intros a b [_ ->]. apply script_entry. }
  assert (Sp : map output_entry pairs = map out_entry lo).
  { eapply f2_map; [|exact Flo]. intros a b [_ ->]. unfold output_entry, out_entry. cbn [fst snd]. rewrite <- script_entry. symmetry; apply Z.add_assoc. }
  assert (Iwf : Forall iwf li) by (eapply Forall_impl; [|exact Iok]; intros i [H _]; exact H).
  assert (Ism : Forall (fun i => small_script (in_script i)) li) by (eapply Forall_impl; [|exact Iok]; intros i (_ & H & _); exact H).
  assert (Owf : Forall owf lo) by (eapply Forall_impl; [|exact Ook]; intros i [H _]; exact H).
  assert (Osm : Forall (fun o => small_script (out_script o)) lo) by (eapply Forall_impl; [|exact Ook]; intros i [_ H]; exact H).
  (* the witnesses *)
  assert (W : exists l, map in_entry l = map in_entry li /\ len l = n /\ concat (map input_to_data l) = concat (map input_to_data li) /\ Forall iwf l /\
     Forall (fun i => small_script (in_script i)) l /\ Forall (fun i => wwf (in_witness i)) l /\
     hw = has_witness_data l /\ (hw = true -> some_witness_element l = true) /\ step s7 (if hw then wits l else []) s8).
  { unfold r_wits in E8. destruct hw.
    - unfold bind in E8. destruct (read_n (Z.to_nat n) witness_skip s7) as [fs s7'] eqn:Ef.
      unfold invalidate_if in E8. destruct (existsb (fun b => b) fs) eqn:Ex; cbn [negb] in E8; injection E8 as <- <-; [|discriminate].
      destruct (read_n_exactG _ _ _ (Z.to_nat n) skip_sticky witness_skip_exactG s7 fs s7' (st_bytes' _ _ _ S7) (st_lim _ _ _ S7) Ef G8) as (ws & (Lw & Fw) & S8).
      destruct (zip_facts li ws ltac:(congruence)) as (A & B & C & D & F & K). exists (zip_wits li ws).
      assert (Se : some_witness_element (zip_wits li ws) = true).
      { unfold some_witness_element. rewrite <- (existsb_map' some_element in_witness), B. rewrite <- (existsb_some ws fs Fw). exact Ex. }
      split; [exact D|]. split; [unfold len; rewrite A; exact Nli|]. split; [exact C|]. split; [auto|]. split; [auto|].
      split. { apply Forall_map. rewrite B. eapply f2_forall; [|exact Fw]. intros a b [H _]. exact H. }
      split; [symmetry; apply some_nonempty, Se|]. split; [auto|]. rewrite <- concat_wits, B. exact S8.
    - unfold ret in E8. injection E8 as <- <-. destruct (no_witness li Iok) as [A B]. exists li. do 7 (split; [solve [auto]|]). split; [discriminate|].
      apply step_nil; [exact G7|apply S7|apply S7]. }
  destruct W as (l & Wt & Wn & Wc & Wi & Ws & Ww & Wh & We & S8).
  destruct (skip_exactG 4 n4 s8 u9 s9 (st_bytes' _ _ _ S8) (st_lim _ _ _ S8) E9 G9) as (lb & (Llb & Blb) & S9).
  destruct (bytes_le 4 vb Bvb (len4 _ Lvb)) as [Evb Rvb].
  destruct (bytes_le 4 lb Blb (len4 _ Llb)) as [Elb Rlb].
  exists (mktx (le_value vb) l lo (le_value lb) hw).
  assert (SS : step s (tx_to_data true (mktx (le_value vb) l lo (le_value lb) hw)) s9).
  { rewrite tx_bytes. unfold ins_bytes, outs_bytes, wit_bytes, mark. cbn [tx_version tx_inputs tx_outputs tx_locktime tx_segregated].
    rewrite Evb, Elb, Wn, Wc, Nlo.
    pose proof (step_app _ _ _ _ _ S1 (step_app _ _ _ _ _ S2 (step_app _ _ _ _ _ S4 (step_app _ _ _ _ _ S5 (step_app _ _ _ _ _ S6 (step_app _ _ _ _ _ S7 (step_app _ _ _ _ _ S8 S9))))))) as Q.
    assert (X : write_variable c ++ (if hw then [1] ++ write_variable n else []) = (if hw then [0; 1] else []) ++ write_variable n).
    { destruct hw; [rewrite (Hw1 eq_refl); reflexivity|]. rewrite (Hw0 eq_refl), app_nil_r. reflexivity. }
    rewrite (app_assoc (write_variable c)), X, <- app_assoc in Q. exact Q. }
  split; [|split; [exact SS|]].
  - split.
    + split; [exact Rvb|]. split; [exact Rlb|]. cbn [tx_inputs tx_outputs tx_segregated]. rewrite Wn, Nlo. split; [apply Hn|]. split; [exact Wi|]. split; [exact Ww|]. split; [exact Hmm|]. split; [exact Owf|]. exact Wh.
    + cbn [tx_inputs tx_outputs tx_segregated]. split; [intros ->; change (len (@nil input)) with 0 in Wn; congruence|].
      split; [intros ->; change (len (@nil output)) with 0 in Nlo; congruence|]. auto.
  - pose proof (step_pos _ _ _ S1) as P1. pose proof (step_pos _ _ _ S2) as P2. pose proof (step_pos _ _ _ S4) as P4. pose proof (step_pos _ _ _ S5) as P5.
    pose proof (step_pos _ _ _ S6) as P6. pose proof (step_pos _ _ _ S7) as P7. pose proof (step_pos _ _ _ S8) as P8. pose proof (step_pos _ _ _ S9) as P9. pose proof (step_pos _ _ _ SS) as PS.
    rewrite len_write_variable in P2, P6.
    assert (X : variable_size c + len (if hw then [1] ++ write_variable n else []) = len (mark (mktx (le_value vb) l lo (le_value lb) hw)) + variable_size n).
    { unfold mark. cbn [tx_segregated]. destruct hw.
      - rewrite (Hw1 eq_refl), len_app, len_write_variable. change (len [1]) with 1. change (len [0; 1]) with 2. change (variable_size 0) with 1. clear; lia.
      - rewrite (Hw0 eq_refl). change (len (@nil Z)) with 0. clear; lia. }
    rewrite <- Wc in P5.
    constructor; cbn [v_start v_size v_in v_out v_in_count v_out_count v_wits v_in_table v_out_table v_marked v_segregated v_coinbase tx_inputs tx_outputs tx_segregated]; unfold wit_bytes, ins_bytes, outs_bytes; cbn [tx_inputs tx_outputs tx_segregated]; rewrite ?Wn, ?Nlo, ?total_sum, ?Sz, ?Sp; try reflexivity;
      clear - P1 P2 P4 P5 P6 P7 P8 P9 PS X Lvb Llb Wt; try lia.
    rewrite <- Wt. f_equal. destruct hw, w; cbn [andb]; lia.
Qed.
