(** The view reader accepts exactly the bytes of a viewable transaction. *)
From Verif Require Import Base Bytes MathModel MathSpec MathProofs StreamModel StreamSpec StreamProofs StreamProofs2 LineProofs LCalc OpModel OpProofs OpProofs2 OpProofs3 ChainModel RCalc ChainSpec ChainProofs ChainProofs2 ChainProofs3 ChainProofs4 ViewModel.

Record step (s : rd) (e : list Z) (s' : rd) : Prop := mkstep {
  st_good : good s = true; st_good' : good s' = true; st_bytes : bytes_ok (rest s); st_bytes' : bytes_ok (rest s');
  st_rest : rest s = e ++ rest s'; st_past : past s' = rev e ++ past s; st_lim : 0 <= lim s' <= 2 ^ 64 - 1 }.
Lemma step_app s e1 s1 e2 s2 : step s e1 s1 -> step s1 e2 s2 -> step s (e1 ++ e2) s2.
Proof.
  intros H1 H2. constructor; try apply H1; try apply H2.
  - rewrite (st_rest _ _ _ H1), (st_rest _ _ _ H2), app_assoc. reflexivity.
  - rewrite (st_past _ _ _ H2), (st_past _ _ _ H1), rev_app_distr, app_assoc. reflexivity.
Qed.
Lemma step_nil s : good s = true -> bytes_ok (rest s) -> 0 <= lim s <= 2 ^ 64 - 1 -> step s [] s.
Proof. intros. constructor; auto. Qed.
Lemma step_pos s e s' : step s e s' -> position s' = position s + len e.
Proof. intros H. unfold position. rewrite (st_past _ _ _ H), len_app, len_rev. lia. Qed.

Definition exactG {A B} (r : rd -> A * rd) (enc : B -> list Z) (R : A -> B -> Prop) : Prop :=
  forall s a s', bytes_ok (rest s) -> 0 <= lim s <= 2 ^ 64 - 1 -> r s = (a, s') -> good s' = true ->
  exists b, R a b /\ step s (enc b) s'.
Lemma exactL_step {A} (r : rd -> A * rd) enc ok s a s' : exactL r enc ok ->
  bytes_ok (rest s) -> 0 <= lim s <= 2 ^ 64 - 1 -> r s = (a, s') -> good s' = true -> ok a /\ step s (enc a) s'.
Proof.
  intros H Hb Hl E G. destruct (H s a s' Hb Hl E G) as (Hg & Ho & t & Hr & Hr' & Hp & HL). split; [exact Ho|].
  constructor; auto; try congruence. subst t. rewrite Hr in Hb. apply bytes_ok_app in Hb. apply Hb.
Qed.
Lemma exactL_G {A} (r : rd -> A * rd) enc ok : exactL r enc ok -> exactG r enc (fun a b => a = b /\ ok b).
Proof. intros H s a s' Hb Hl E G. destruct (exactL_step r enc ok s a s' H Hb Hl E G) as [O S]. exists a. auto. Qed.
Lemma bad_before {A} (r : rd -> A * rd) s a s' : sticky r -> r s = (a, s') -> good s' = true -> good s = true.
Proof. intros K E G. destruct (good s) eqn:Q; [reflexivity|]. specialize (K s Q). rewrite E in K. cbn [snd] in K. congruence. Qed.
Lemma exactG_bind {A B C C'} (r : rd -> A * rd) (f : A -> rd -> C * rd) (e1 : B -> list Z) R1 (e2 : C' -> list Z) R2 :
  exactG r e1 R1 -> (forall a b, R1 a b -> exactG (f a) e2 (R2 a b)) -> (forall a, sticky (f a)) ->
  exactG (bind r f) (fun p : B * C' => e1 (fst p) ++ e2 (snd p)) (fun c p => exists a, R1 a (fst p) /\ R2 a (fst p) c (snd p)).
Proof.
  intros H1 H2 K s c s' Hb Hl E G. unfold bind in E. destruct (r s) as [a s1] eqn:E1.
  pose proof (bad_before _ _ _ _ (K a) E G) as G1. destruct (H1 s a s1 Hb Hl E1 G1) as (b & Rb & S1).
  destruct (H2 a b Rb s1 c s' (st_bytes' _ _ _ S1) (st_lim _ _ _ S1) E G) as (d & Rd & S2).
  exists (b, d). cbn [fst snd]. split; [exists a; auto|]. eapply step_app; eassumption.
Qed.
Lemma exactG_weaken {A B B'} (r : rd -> A * rd) (e : B -> list Z) R (e' : B' -> list Z) (R' : A -> B' -> Prop) :
  exactG r e R -> (forall a b, R a b -> exists b', R' a b' /\ e' b' = e b) -> exactG r e' R'.
Proof.
  intros H W s a s' Hb Hl E G. destruct (H s a s' Hb Hl E G) as (b & Rb & S). destruct (W a b Rb) as (b' & R1 & Q). exists b'. rewrite Q. auto.
Qed.
Lemma exactG_ret {A} (a : A) : exactG (ret a) (fun _ : unit => []) (fun x _ => x = a).
Proof. intros s x s' Hb Hl E G. injection E as <- <-. exists tt. split; [reflexivity|]. apply step_nil; assumption. Qed.

Lemma skip_sticky' n : sticky (skip_bytes n).
Proof. intros s G. apply do_skip_bad, G. Qed.
Lemma skip_exactG n : 0 <= n -> exactG (skip_bytes n) (fun d : list Z => d) (fun _ d => len d = n /\ bytes_ok d).
Proof.
  intros Hn s a s' Hb Hl E G. unfold skip_bytes in E. injection E as <- <-.
  destruct (good s) eqn:Q; [|rewrite do_skip_bad in G; congruence].
  assert (K : n <= lim s /\ n <= len (rest s)).
  { unfold do_skip, limiter in G. destruct (Z.gtb_spec n (lim s)); [discriminate|]. split; [lia|].
    unfold seeker in G. destruct (Z.eqb_spec n 0) as [->|N]; [apply len_nonneg|]. unfold istream_seek in G. cbn [set_lim good past rest lim] in G. rewrite Q in G. cbn [negb] in G.
    destruct (Z.ltb_spec n 0); [lia|]. cbn [andb] in G. destruct (Z.ltb_spec 0 n); [|lia]. cbn [andb] in G. destruct (Z.gtb_spec n (len (rest s))); [discriminate|lia]. }
  destruct K as [K1 K2]. set (d := firstn (Z.to_nat n) (rest s)).
  assert (Ld : len d = n) by (unfold d, len in *; rewrite firstn_length; lia).
  pose proof (do_skip_parses d s (skipn (Z.to_nat n) (rest s)) Q) as P. cbn beta in P. rewrite Ld in P.
  specialize (P ltac:(unfold d; rewrite firstn_skipn; reflexivity) K1). injection P as P.
  exists d. split; [split; [exact Ld|apply bytes_ok_firstn, Hb]|]. rewrite P. unfold eat. constructor; cbn [good rest past lim]; auto.
  - apply bytes_ok_skipn, Hb.
  - unfold d. rewrite firstn_skipn. reflexivity.
  - lia.
Qed.
Lemma skip_parsesL d n : len d = n -> parsesL (skip_bytes n) d tt.
Proof. intros <-. apply parses_L. exact (do_skip_parses d). Qed.

(** Lists *)
Lemma read_n_exactG {A B} (r : rd -> A * rd) (enc : B -> list Z) R n : sticky r -> exactG r enc R ->
  exactG (read_n n r) (fun l => concat (map enc l)) (fun la lb => length lb = n /\ Forall2 R la lb).
Proof.
  intros K H. induction n as [|n IH]; cbn [read_n].
  - eapply exactG_weaken; [apply exactG_ret|]. intros a [] ->. exists []. repeat split; constructor.
  - eapply exactG_weaken.
    + eapply exactG_bind; [exact H| |intros a; apply sticky_bind'; [apply read_n_sticky, K|intros; apply sticky_ret]].
      intros a b Hab. eapply exactG_bind; [exact IH| |intros; apply sticky_ret]. intros la lb _. apply exactG_ret.
    + cbv beta. intros x (b & (lb & [])) (a & Rab & la & (Hn & F) & ->). cbn [fst snd] in *. exists (b :: lb).
      split; [split; [cbn; lia|constructor; assumption]|]. cbn [map concat]. rewrite app_nil_r. reflexivity.
Qed.

(** Script bytes behind their size. *)
Definition small_script (sc : script) : Prop := script_wf sc /\ len (ops_to_data sc) <= 4000000.
Lemma small_swf sc : small_script sc -> swf sc.
Proof. intros (W & L). split; [exact W|]. unfold script_fits. lia. Qed.
Lemma parse_bytes d : bytes_ok d -> script_wf (parse_script d) /\ ops_to_data (parse_script d) = d.
Proof. intros H. split; [apply parse_script_wf, H|apply parse_script_data, H]. Qed.
Lemma script_enc sc : script_to_data true sc = write_variable (len (ops_to_data sc)) ++ ops_to_data sc.
Proof. unfold script_to_data, script_size. rewrite ops_size_len. reflexivity. Qed.

(** Values of the fixed fields behind skipped bytes. *)
Lemma bytes_le n d : bytes_ok d -> length d = n -> write_le n (le_value d) = d /\ 0 <= le_value d < 256 ^ Z.of_nat n.
Proof.
  intros Hb <-. split; [unfold write_le; apply le_bytes_value, Hb|]. pose proof (le_value_range d Hb) as R. exact R.
Qed.

Definition iok (i : input) : Prop := iwf i /\ small_script (in_script i) /\ in_witness i = [].
Definition ook (o : output) : Prop := owf o /\ small_script (out_script o).
Lemma view_input_sticky : sticky view_input.
Proof. unfold view_input. repeat (apply sticky_bind'; [first [apply skip_sticky'|apply read_size_sticky]|intros]). apply sticky_ret. Qed.
Lemma view_output_sticky : sticky view_output.
Proof. unfold view_output. repeat (apply sticky_bind'; [first [apply skip_sticky'|apply read_size_sticky|apply read_le_sticky]|intros]). apply sticky_ret. Qed.

Lemma split_at {n : Z} (d : list Z) k : 0 <= k -> len d = n -> k <= n -> exists a b, d = a ++ b /\ len a = k /\ len b = n - k.
Proof.
  intros Hk Hd Hn. exists (firstn (Z.to_nat k) d), (skipn (Z.to_nat k) d). rewrite firstn_skipn. split; [reflexivity|]. unfold len in *. rewrite firstn_length, skipn_length. lia.
Qed.
Lemma view_input_exactG : exactG view_input input_to_data (fun n i => iok i /\ n = len (ops_to_data (in_script i))).
Proof.
  unfold view_input. eapply exactG_weaken.
  - eapply exactG_bind; [apply skip_exactG; lia| |intros; repeat (apply sticky_bind'; [first [apply skip_sticky'|apply read_size_sticky]|intros]); apply sticky_ret].
    intros u0 d Hu0. eapply exactG_bind; [apply exactL_G, exact_L, read_size_exact| |intros; repeat (apply sticky_bind'; [first [apply skip_sticky'|apply read_size_sticky]|intros]); apply sticky_ret].
    intros n n' Hnn. eapply exactG_bind; [apply skip_exactG; destruct Hnn as (-> & ((Hn & _) & _)); lia| |intros; apply sticky_ret].
    intros u2 d2 Hu2. apply exactG_ret.
  - cbv beta. intros x (d & (n & (d2 & []))) ([] & (Ld & Bd) & n' & (-> & (Hn & Hm)) & [] & (L2 & B2) & ->). cbn [fst snd] in *.
    destruct (split_at d 32 ltac:(lia) Ld ltac:(lia)) as (h & x & -> & Lh & Lx).
    destruct (split_at d2 n ltac:(lia) L2 ltac:(lia)) as (sc & q & -> & Lsc & Lq).
    apply bytes_ok_app in Bd as [Bh Bx]. apply bytes_ok_app in B2 as [Bsc Bq].
    destruct (bytes_le 4 x Bx ltac:(unfold len in Lx; lia)) as [Ex Rx]. destruct (bytes_le 4 q Bq ltac:(unfold len in Lq; lia)) as [Eq Rq].
    destruct (parse_bytes sc Bsc) as [Wsc Esc].
    exists (mkinput h (le_value x) (parse_script sc) (le_value q) []). split.
    + assert (SS : small_script (parse_script sc)) by (split; [exact Wsc|rewrite Esc; unfold max_bytes in Hm; lia]).
      split; [|cbn [in_script]; rewrite Esc; lia]. split; [|split; [exact SS|reflexivity]].
      split; [split; [unfold len in Lh; cbn [in_hash]; lia|exact Bh]|]. split; [exact Rx|]. split; [apply small_swf, SS|exact Rq].
    + unfold input_to_data. cbn [in_hash in_index in_script in_sequence]. rewrite Ex, Eq, script_enc, Esc, Lsc. rewrite <- !app_assoc, app_nil_r. reflexivity.
Qed.
Lemma view_output_exactG : exactG view_output output_to_data (fun p o => ook o /\ p = (out_value o, len (ops_to_data (out_script o)))).
Proof.
  unfold view_output. eapply exactG_weaken.
  - eapply exactG_bind; [apply exactL_G, le8_exactL| |intros; repeat (apply sticky_bind'; [first [apply skip_sticky'|apply read_size_sticky]|intros]); apply sticky_ret].
    intros v v' Hvv. eapply exactG_bind; [apply exactL_G, exact_L, read_size_exact| |intros; repeat (apply sticky_bind'; [first [apply skip_sticky'|apply read_size_sticky]|intros]); apply sticky_ret].
    intros n n' Hnn. eapply exactG_bind; [apply skip_exactG; destruct Hnn as (-> & ((Hn & _) & _)); lia| |intros; apply sticky_ret].
    intros u2 d2 Hu2. apply exactG_ret.
  - cbv beta. intros x (v & (n & (d2 & []))) (v' & (-> & Hv) & n' & (-> & (Hn & Hm)) & [] & (L2 & B2) & ->). cbn [fst snd] in *.
    destruct (parse_bytes d2 B2) as [Wsc Esc]. exists (mkoutput v (parse_script d2)).
    assert (SS : small_script (parse_script d2)) by (split; [exact Wsc|rewrite Esc; unfold max_bytes in Hm; lia]).
    split; [split; [split; [split; [exact Hv|apply small_swf, SS]|exact SS]|cbn [out_value out_script]; rewrite Esc, L2; reflexivity]|].
    unfold output_to_data. cbn [out_value out_script]. rewrite script_enc, Esc, L2, app_nil_r. reflexivity.
Qed.

Lemma view_input_parsesL i : iwf i -> small_script (in_script i) -> parsesL view_input (input_to_data i) (len (ops_to_data (in_script i))).
Proof.
  intros ((Lh & _) & _ & _ & _) (_ & L). unfold view_input, input_to_data. rewrite script_enc. rewrite (app_assoc (in_hash i)).
  eapply parsesL_bind'; [apply skip_parsesL; rewrite len_app; unfold write_le; rewrite len_le_bytes, (len_hash _ Lh); reflexivity|].
  rewrite <- app_assoc. pose proof (len_nonneg (ops_to_data (in_script i))).
  eapply parsesL_bind'; [apply parses_L, read_size_parses; unfold max_bytes; lia|].
  eapply parsesL_enc; [apply app_nil_r|]. eapply parsesL_bind'; [apply skip_parsesL; rewrite len_app; unfold write_le; rewrite len_le_bytes; reflexivity|]. apply parsesL_ret'.
Qed.
Lemma view_output_parsesL o : owf o -> small_script (out_script o) -> parsesL view_output (output_to_data o) (out_value o, len (ops_to_data (out_script o))).
Proof.
  intros (Hv & _) (_ & L). unfold view_output, output_to_data. rewrite script_enc. pose proof (len_nonneg (ops_to_data (out_script o))).
  eapply parsesL_bind'; [apply le8_parsesL, Hv|].
  eapply parsesL_bind'; [apply parses_L, read_size_parses; unfold max_bytes; lia|].
  eapply parsesL_enc; [apply app_nil_r|]. eapply parsesL_bind'; [apply skip_parsesL; reflexivity|]. apply parsesL_ret'.
Qed.

(** Witnesses *)
Lemma witness_skip_exactG : exactG witness_skip witness_to_data (fun f w => wwf w /\ f = some_element w).
Proof.
  intros s f s' Hb Hl E G. destruct (skip_same s) as [S1 S2]. rewrite E in S1, S2. cbn [fst snd] in *.
  destruct (witness_from_data s) as [w s1] eqn:Ew. cbn [fst snd] in *. subst s1.
  destruct (exactL_step _ _ _ s w s' witness_exactL Hb Hl Ew G) as [W S]. exists w. split; [|exact S]. split; [exact W|auto].
Qed.
Lemma witness_skip_parsesL w : wwf w -> parsesL witness_skip (witness_to_data w) (some_element w).
Proof.
  intros (W1 & W2). unfold witness_skip, witness_to_data. eapply parsesL_enc; [apply app_nil_r|].
  assert (E : some_element w = existsb (fun b => b) (map nonempty w)).
  { unfold some_element. induction w as [|e w IH]; [reflexivity|]. cbn. rewrite IH; [reflexivity| |]; inversion W2; subst; auto. rewrite len_cons in W1. lia. }
  rewrite E. eapply parsesL_bind'; [|apply parsesL_ret'].
  unfold read_list. eapply parsesL_bind'; [apply parses_L, read_size_parses; [pose proof (len_nonneg w); lia|exact W1]|].
  replace (Z.to_nat (len w)) with (length w) by (unfold len; lia). clear W1 E.
  induction W2 as [|e w [_ He] _ IH]; [apply parsesL_ret'|]. cbn [length read_n map concat].
  eapply parsesL_bind'; [|eapply parsesL_enc; [apply app_nil_r|]; eapply parsesL_bind'; [exact IH|apply parsesL_ret']].
  unfold skip_element, element_to_data. pose proof (len_nonneg e).
  eapply parsesL_bind'; [apply parses_L, read_size_parses; [lia|exact He]|].
  eapply parsesL_enc; [apply app_nil_r|]. eapply parsesL_bind'; [apply parses_L, read_bytes_parses|].
  replace (nonempty e) with (negb (len e =? 0)); [apply parsesL_ret'|]. destruct e; [reflexivity|]. rewrite len_cons. cbn [nonempty]. pose proof (len_nonneg e). destruct (Z.eqb_spec (1 + len e) 0); [lia|reflexivity].
Qed.
