From Verif Require Import Base Bytes MathModel MathSpec MathProofs StreamModel StreamSpec StreamProofs StreamProofs2 LCalc OpModel OpProofs OpProofs2 OpProofs3 ChainModel RCalc ChainSpec.

Ltac Sticky := repeat first
  [ apply sticky_ret | apply read_le_sticky | apply do_read_sticky | apply script_sticky | apply read_size_sticky | apply read_bytes_sticky
  | assumption ].

(** ** Elements *)
Definition swf (s : script) : Prop := script_wf s /\ script_fits s.
Definition iwf (i : input) : Prop := hash_ok (in_hash i) /\ u32_ok (in_index i) /\ swf (in_script i) /\ u32_ok (in_sequence i).
Definition wwf (w : list (list Z)) : Prop := len w <= 4000000 /\ Forall (fun e => bytes_ok e /\ len e <= 4000000) w.
Definition owf (o : output) : Prop := u64_ok (out_value o) /\ swf (out_script o).

Lemma len_hash (h : list Z) : length h = 32%nat -> len h = 32. Proof. intros H. unfold len. rewrite H. reflexivity. Qed.
Lemma read_hash_parsesL h : hash_ok h -> parsesL read_hash h h.
Proof. intros [H _]. apply parses_L. unfold read_hash. rewrite <- (len_hash h H). apply do_read_parses. Qed.
Lemma read_hash_exactL : exactL read_hash (fun h => h) hash_ok.
Proof.
  eapply exactL_weaken; [apply exact_L; apply (do_read_exact 32); lia|]. intros h [H1 H2]. split; [|reflexivity]. split; [unfold len in H1; lia|exact H2].
Qed.
Lemma read_hash_sticky : sticky read_hash. Proof. apply do_read_sticky. Qed.
Lemma le4_parsesL v : u32_ok v -> parsesL (read_le 4) (write_le 4 v) v.
Proof. intros H. apply parses_L. apply (read_le_parses 4). exact H. Qed.
Lemma le8_parsesL v : u64_ok v -> parsesL (read_le 8) (write_le 8 v) v.
Proof. intros H. apply parses_L. apply (read_le_parses 8). exact H. Qed.
Lemma le4_exactL : exactL (read_le 4) (write_le 4) u32_ok.
Proof. apply exact_L. apply (read_le_exact 4). Qed.
Lemma le8_exactL : exactL (read_le 8) (write_le 8) u64_ok.
Proof. apply exact_L. apply (read_le_exact 8). Qed.

Lemma input_parsesL i : iwf i -> parsesL input_from_data (input_to_data i) (strip_input i).
Proof.
  intros (Hh & Hi & (Hs & _) & Hq). unfold input_from_data, input_to_data.
  eapply parsesL_bind'; [apply read_hash_parsesL, Hh|].
  eapply parsesL_bind'; [apply le4_parsesL, Hi|].
  eapply parsesL_bind'; [apply script_parsesL, Hs|].
  eapply parsesL_enc; [apply app_nil_r|].
  eapply parsesL_bind'; [apply le4_parsesL, Hq|]. apply parsesL_ret'.
Qed.
Lemma input_sticky : sticky input_from_data.
Proof. unfold input_from_data. repeat (apply sticky_bind'; [Sticky|intros]). apply sticky_ret. Qed.
Lemma input_exactL : exactL input_from_data input_to_data (fun i => iwf i /\ in_witness i = []).
Proof.
  unfold input_from_data. eapply exactL_weaken.
  - eapply (exactL_bind' in_hash); [apply read_hash_exactL| |apply read_hash_sticky|intros; repeat (apply sticky_bind'; [Sticky|intros]); apply sticky_ret|].
    intros h Hh. eapply (exactL_bind' in_index); [apply le4_exactL| |Sticky|intros; repeat (apply sticky_bind'; [Sticky|intros]); apply sticky_ret|].
    intros x Hx. eapply (exactL_bind' in_script); [apply script_exactL| |Sticky|intros; repeat (apply sticky_bind'; [Sticky|intros]); apply sticky_ret|].
    intros sc Hs. eapply (exactL_bind' in_sequence); [apply le4_exactL| |Sticky|intros; apply sticky_ret|].
    intros q Hq. apply exactL_ret.
    + intros a b ->. reflexivity.
    + cbv beta. intros a b (q & _ & ->). reflexivity.
    + cbv beta. intros a b (sc & _ & q & _ & ->). reflexivity.
    + cbv beta. intros a b (x & _ & sc & _ & q & _ & ->). reflexivity.
  - cbv beta. intros i (h & Hh & x & Hx & sc & Hs & q & Hq & ->). split.
    + split; [|reflexivity]. split; [exact Hh|]. split; [exact Hx|]. split; [exact Hs|exact Hq].
    + unfold input_to_data. cbn [in_hash in_index in_script in_sequence]. rewrite app_nil_r. reflexivity.
Qed.

Lemma output_parsesL o : owf o -> parsesL output_from_data (output_to_data o) o.
Proof.
  intros (Hv & (Hs & _)). unfold output_from_data, output_to_data.
  eapply parsesL_bind'; [apply le8_parsesL, Hv|].
  eapply parsesL_enc; [apply app_nil_r|].
  eapply parsesL_bind'; [apply script_parsesL, Hs|]. destruct o. apply parsesL_ret'.
Qed.
Lemma output_sticky : sticky output_from_data.
Proof. unfold output_from_data. repeat (apply sticky_bind'; [Sticky|intros]). apply sticky_ret. Qed.
Lemma output_exactL : exactL output_from_data output_to_data owf.
Proof.
  unfold output_from_data. eapply exactL_weaken.
  - eapply (exactL_bind' out_value); [apply le8_exactL| |Sticky|intros; repeat (apply sticky_bind'; [Sticky|intros]); apply sticky_ret|].
    intros h Hh. eapply (exactL_bind' out_script); [apply script_exactL| |Sticky|intros; apply sticky_ret|].
    intros q Hq. apply exactL_ret.
    + intros a b ->. reflexivity.
    + cbv beta. intros a b (q & _ & ->). reflexivity.
  - cbv beta. intros i (h & Hh & sc & Hs & ->). split.
    + split; [exact Hh|exact Hs].
    + unfold output_to_data. cbn [out_value out_script]. rewrite app_nil_r. reflexivity.
Qed.

(** ** Witness *)
Lemma element_parsesL e : len e <= 4000000 -> parsesL read_element (element_to_data e) e.
Proof.
  intros H. pose proof (len_nonneg e). unfold read_element, element_to_data.
  eapply parsesL_bind'; [apply parses_L, read_size_parses; [lia|exact H]|]. apply parses_L, read_bytes_parses.
Qed.
Lemma element_sticky : sticky read_element.
Proof. apply sticky_bind'; [Sticky|]. intros. Sticky. Qed.
Lemma element_exactL : exactL read_element element_to_data (fun e => bytes_ok e /\ len e <= 4000000).
Proof.
  unfold read_element. eapply exactL_weaken.
  - eapply (exactL_bind' len); [apply exact_L, read_size_exact| |Sticky|intros; Sticky|].
    intros n ((Hn & _) & _). apply read_bytes_exactL. exact Hn. cbv beta. intros a b [H _]. exact H.
  - cbv beta. intros e (n & (_ & H1) & H2 & H3). split; [|reflexivity]. split; [exact H3|]. rewrite H2. exact H1.
Qed.
Lemma witness_parsesL w : wwf w -> parsesL witness_from_data (witness_to_data w) w.
Proof.
  intros (H1 & H2). unfold witness_from_data, witness_to_data. apply (read_list_parsesL max_bytes read_element element_to_data); [exact H1|lia|].
  eapply Forall_impl; [|exact H2]. intros e [_ He]. apply element_parsesL, He.
Qed.
Lemma witness_sticky : sticky witness_from_data. Proof. apply read_list_sticky, element_sticky. Qed.
Lemma witness_exactL : exactL witness_from_data witness_to_data wwf.
Proof.
  eapply exactL_weaken; [apply (read_list_exactL max_bytes read_element element_to_data); [apply element_sticky|apply element_exactL]|].
  cbv beta. intros w (H1 & _ & H3). split; [split; [exact H1|exact H3]|reflexivity].
Qed.

(** ** All the witnesses *)
Definition wits (l : list input) : list Z := concat (map (fun i => witness_to_data (in_witness i)) l).
Lemma set_strip i : set_witness (strip_input i) (in_witness i) = i. Proof. destruct i. reflexivity. Qed.
Lemma strip_set i w : strip_input (set_witness i w) = strip_input i. Proof. reflexivity. Qed.
Lemma witnesses_parsesL l : Forall (fun i => wwf (in_witness i)) l ->
  parsesL (read_witnesses true (map strip_input l)) (wits l) (l, has_witness_data l).
Proof.
  induction 1 as [|i l Hi _ IH]; [apply parsesL_ret'|]. cbn [map read_witnesses]. unfold wits. cbn [map concat].
  eapply parsesL_bind'; [apply witness_parsesL, Hi|]. fold (wits l). eapply parsesL_enc; [apply app_nil_r|].
  eapply parsesL_bind'; [exact IH|]. cbn [fst snd]. rewrite set_strip. apply parsesL_ret'.
Qed.
Lemma witnesses_sticky b l : sticky witness_skip -> sticky (read_witnesses b l).
Proof.
  intros Sk. induction l as [|i l IH]; [apply sticky_ret|]. cbn [read_witnesses]. destruct b.
  - apply sticky_bind'; [apply witness_sticky|]. intros. apply sticky_bind'; [exact IH|]. intros. apply sticky_ret.
  - apply sticky_bind'; [exact Sk|]. intros. apply sticky_bind'; [exact IH|]. intros. apply sticky_ret.
Qed.
Lemma skip_element_sticky : sticky skip_element.
Proof. unfold skip_element. repeat (apply sticky_bind'; [Sticky|intros]). apply sticky_ret. Qed.
Lemma skip_sticky : sticky witness_skip.
Proof. apply sticky_bind'; [apply read_list_sticky, skip_element_sticky|]. intros. apply sticky_ret. Qed.
Lemma witnesses_exactL l :
  exactL (read_witnesses true l) (fun p => wits (fst p))
    (fun p => map strip_input (fst p) = map strip_input l /\ snd p = has_witness_data (fst p) /\
      (Forall iwf l -> Forall iwf (fst p)) /\ Forall (fun i => wwf (in_witness i)) (fst p)).
Proof.
  induction l as [|i l IH].
  - eapply exactL_weaken; [apply exactL_ret|]. intros p ->. split; [|reflexivity]. cbn. split; [reflexivity|]. split; [reflexivity|]. split; [auto|constructor].
  - cbn [read_witnesses]. eapply exactL_weaken.
    + eapply (exactL_bind' (fun p => match fst p with j :: _ => in_witness j | [] => [] end)); [apply witness_exactL| |apply witness_sticky| |].
      * intros w Hw. eapply (exactL_bind' (fun p : list input * bool => (tl (fst p), has_witness_data (tl (fst p))))
          _ _ _ _ (fun _ => []) (fun q p => p = (set_witness i w :: fst q, nonempty w || snd q) /\ snd q = has_witness_data (fst q))); [exact IH| |apply witnesses_sticky, skip_sticky|intros; apply sticky_ret|].
        -- intros q (_ & Hq & _). eapply exactL_weaken; [apply exactL_ret|]. cbv beta. intros p ->. split; [split; [reflexivity|exact Hq]|reflexivity].
        -- cbv beta. intros q p (-> & Hq). cbn [fst snd tl]. rewrite <- Hq. destruct q; reflexivity.
      * intros w. apply sticky_bind'; [apply witnesses_sticky, skip_sticky|]. intros. apply sticky_ret.
      * cbv beta. intros w p (q & _ & -> & _). reflexivity.
    + cbv beta. intros p (w & Hw & q & (H1 & H2 & H3 & H4) & -> & _). cbn [fst snd map concat]. split.
      * split; [rewrite strip_set, H1; reflexivity|]. split; [cbn [has_witness_data existsb]; rewrite H2; reflexivity|]. split; [|constructor; [exact Hw|exact H4]].
        intros F. inversion F; subst. constructor; [assumption|auto].
      * rewrite app_nil_r. reflexivity.
Qed.

(** ** Transactions *)
Definition twf (t : tx) : Prop :=
  u32_ok (tx_version t) /\ u32_ok (tx_locktime t) /\
  len (tx_inputs t) <= 1000000 /\ Forall iwf (tx_inputs t) /\ Forall (fun i => wwf (in_witness i)) (tx_inputs t) /\
  len (tx_outputs t) <= 1000000 /\ Forall owf (tx_outputs t) /\
  tx_segregated t = has_witness_data (tx_inputs t).

Lemma peek_parsesL {A} (f : Z -> rd -> A * rd) b e a : parsesL (f b) (b :: e) a -> parsesL (bind peek_byte f) (b :: e) a.
Proof.
  intros H s t Hg Hr Hl. unfold bind, peek_byte. pose proof (len_nonneg t). pose proof (len_nonneg e). rewrite len_cons in Hl. rewrite (proj2 (Z.eqb_neq _ _)) by lia.
  rewrite Hg, Hr. cbn [negb app]. apply (H s t Hg Hr). rewrite len_cons. lia.
Qed.
Lemma bind_assoc_ret {A B C} (r : rd -> A * rd) (g : A -> B) (f : B -> rd -> C * rd) s :
  bind (bind r (fun a => ret (g a))) f s = bind r (fun a => f (g a)) s.
Proof. unfold bind, ret. destruct (r s). reflexivity. Qed.
Lemma parsesL_ext {A} (r r' : rd -> A * rd) e a : (forall s, r s = r' s) -> parsesL r' e a -> parsesL r e a.
Proof. intros E H s t. rewrite E. apply H. Qed.
Lemma exactL_ext {A} (r r' : rd -> A * rd) e ok : (forall s, r s = r' s) -> exactL r' e ok -> exactL r e ok.
Proof. intros E H s a s'. rewrite E. apply H. Qed.
Lemma skip_byte_parsesL b : parsesL skip_byte [b] tt.
Proof.
  intros s t Hg Hr Hl. change (len [b]) with 1 in Hl. pose proof (len_nonneg t). unfold skip_byte, do_skip, limiter.
  destruct (Z.gtb_spec 1 (lim s)); [lia|]. unfold seeker, istream_seek. cbn [set_lim good past rest lim]. rewrite Hg, Hr.
  cbn [negb app]. rewrite len_cons. destruct (Z.gtb_spec 1 (1 + len t)); [lia|]. cbn. exists (lim s - 1). split; [|lia]. unfold advance. cbn. rewrite Hr, Hg. change (Pos.to_nat 1) with 1%nat. reflexivity.
Qed.

(** The readers after the first input count, named. *)
Definition read_outs := read_list max_count output_from_data.
Definition read_ins := read_list max_count input_from_data.
Definition tail_segregated (w : bool) (version : Z) : rd -> tx * rd :=
  _ <- skip_byte ;; inputs <- read_ins ;; outputs <- read_outs ;; p <- read_witnesses w inputs ;;
  _ <- invalidate_if (negb (snd p)) ;; locktime <- read_le 4 ;; ret (mktx version (fst p) outputs locktime w).
Definition tail_plain (version : Z) (inputs : list input) : rd -> tx * rd :=
  outputs <- read_outs ;; locktime <- read_le 4 ;; ret (mktx version inputs outputs locktime false).
Definition tail (w : bool) (version : Z) (inputs : list input) : rd -> tx * rd :=
  if len inputs =? 0 then b <- peek_byte ;; if b =? 1 then tail_segregated w version else tail_plain version inputs
  else tail_plain version inputs.
Lemma tx_from_data_tail w s : tx_from_data w s = (version <- read_le 4 ;; inputs <- read_ins ;; tail w version inputs) s.
Proof.
  unfold tx_from_data, bind, tail, witness_marker, witness_enabled. destruct (read_le 4 s) as [v s1]. fold read_ins. destruct (read_ins s1) as [ins s2].
  destruct (len ins =? 0); [|reflexivity]. unfold bind, ret. destruct (peek_byte s2) as [b s3]. destruct (b =? 1); reflexivity.
Qed.
Lemma ins_parsesL l : len l <= 1000000 -> Forall iwf l -> parsesL read_ins (write_variable (len l) ++ concat (map input_to_data l)) (map strip_input l).
Proof.
  intros Hn F. eapply parsesL_enc; [|apply (read_list_parsesL max_count input_from_data input_to_data)].
  - unfold list_enc. rewrite map_map. unfold len. rewrite map_length. reflexivity.
  - unfold len, max_count in *. rewrite map_length. lia.
  - unfold len in *. rewrite map_length. lia.
  - apply Forall_map. eapply Forall_impl; [|exact F]. intros i Hi. apply (input_parsesL i Hi).
Qed.
Lemma outs_parsesL l : len l <= 1000000 -> Forall owf l -> parsesL read_outs (write_variable (len l) ++ concat (map output_to_data l)) l.
Proof.
  intros Hn F. apply (read_list_parsesL max_count output_from_data output_to_data); [exact Hn|lia|].
  eapply Forall_impl; [|exact F]. intros i Hi. apply (output_parsesL i Hi).
Qed.
Lemma strip_unwitnessed l : has_witness_data l = false -> map strip_input l = l.
Proof.
  induction l as [|i l IH]; [reflexivity|]. cbn. intros H. apply orb_false_iff in H as [H1 H2]. rewrite IH by exact H2.
  f_equal. destruct i as [h x sc q w]. unfold strip_input, set_witness. cbn in *. destruct w; [reflexivity|discriminate].
Qed.
Lemma write_variable_cons n : 0 <= n -> exists b t, write_variable n = b :: t /\ (b = 1 <-> n = 1) /\ (b = 0 <-> n = 0).
Proof.
  intros H. unfold write_variable. destruct (Z.ltb_spec n 253).
  - exists n, []. rewrite (wrap_fits u8); [|reflexivity|unfold fits; cbn; lia]. repeat split; auto.
  - destruct (n <=? 65535); [|destruct (n <=? 4294967295)]; eexists _, _; (split; [reflexivity|]); split; lia.
Qed.

Lemma tx_parsesL_plain t w : twf t -> (tx_inputs t <> [] \/ len (tx_outputs t) <> 1) -> 
  parsesL (tx_from_data w) (tx_to_data false t) (strip t).
Proof.
  intros (Hv & Hl & Hni & Fi & Fw & Hno & Fo & Hs) Ne. eapply parsesL_ext; [apply tx_from_data_tail|].
  unfold tx_to_data. cbn [andb]. cbn [app]. eapply parsesL_bind'; [apply le4_parsesL, Hv|].
  rewrite app_assoc. eapply parsesL_bind'; [apply ins_parsesL; assumption|].
  assert (P : parsesL (tail_plain (tx_version t) (map strip_input (tx_inputs t)))
     (write_variable (len (tx_outputs t)) ++ concat (map output_to_data (tx_outputs t)) ++ write_le 4 (tx_locktime t)) (strip t)).
  { unfold tail_plain. rewrite app_assoc. eapply parsesL_bind'; [apply outs_parsesL; assumption|].
    eapply parsesL_enc; [apply app_nil_r|]. eapply parsesL_bind'; [apply le4_parsesL, Hl|]. apply parsesL_ret'. }
  unfold tail. destruct (tx_inputs t) as [|i0 l0] eqn:Ei; [|exact P].
  cbn [map]. change (len (@nil input) =? 0) with true. cbv iota.
  pose proof (len_nonneg (tx_outputs t)) as Hn0. destruct (write_variable_cons (len (tx_outputs t)) Hn0) as (b & u & Eb & B1 & _).
  rewrite Eb in *. cbn [app] in *. apply peek_parsesL. destruct (Z.eqb_spec b 1) as [->|_]; [|exact P].
  exfalso. destruct Ne as [Ne|Ne]; [congruence|]. apply Ne. tauto.
Qed.
Lemma invalidate_parsesL : parsesL (invalidate_if false) [] tt. Proof. exact (parsesL_ret tt). Qed.
Lemma tx_parsesL_segregated t : twf t -> tx_segregated t = true -> parsesL (tx_from_data true) (tx_to_data true t) t.
Proof.
  intros (Hv & Hl & Hni & Fi & Fw & Hno & Fo & Hs) Sg. eapply parsesL_ext; [apply tx_from_data_tail|].
  unfold tx_to_data. rewrite Sg. cbn [andb]. eapply parsesL_bind'; [apply le4_parsesL, Hv|].
  change ([witness_marker; witness_enabled] ++ ?x) with ([0] ++ 1 :: x).
  eapply parsesL_bind'; [apply (ins_parsesL []); [cbn; lia|constructor]|].
  cbn [map]. unfold tail. change (len (@nil input) =? 0) with true. cbv iota. apply peek_parsesL. cbn [Z.eqb Pos.eqb].
  unfold tail_segregated. eapply (parsesL_bind' _ _ [1]); [apply skip_byte_parsesL|]. rewrite app_assoc.
  eapply parsesL_bind'; [apply ins_parsesL; assumption|]. rewrite app_assoc.
  eapply parsesL_bind'; [apply outs_parsesL; assumption|].
  eapply parsesL_bind'; [apply witnesses_parsesL; assumption|]. cbn [fst snd]. rewrite <- Hs, Sg. cbn [negb].
  eapply (parsesL_bind' _ _ []); [apply invalidate_parsesL|]. eapply parsesL_enc; [apply app_nil_r|].
  eapply parsesL_bind'; [apply le4_parsesL, Hl|]. assert (E : mktx (tx_version t) (tx_inputs t) (tx_outputs t) (tx_locktime t) true = t) by (rewrite <- Sg; destruct t; reflexivity). rewrite E. apply parsesL_ret'.
Qed.
