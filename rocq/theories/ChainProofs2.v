From Verif Require Import Base Bytes MathModel MathSpec MathProofs StreamModel StreamSpec StreamProofs StreamProofs2 LCalc OpModel OpProofs OpProofs2 OpProofs3 ChainModel RCalc ChainSpec ChainProofs.

(** ** Accepted transactions *)
Lemma peek_inv s b s' : peek_byte s = (b, s') -> good s' = true -> good s = true /\ s' = s /\ exists t, rest s = b :: t.
Proof.
  unfold peek_byte. destruct (lim s =? 0); [intros E G; injection E as <- <-; discriminate|].
  destruct (good s) eqn:Q; cbn [negb]; [|intros E G; injection E as <- <-; congruence].
  destruct (rest s) as [|c t] eqn:R; intros E G; injection E as <- <-; [discriminate|]. repeat split; auto. exists t. reflexivity.
Qed.
Lemma skip_byte_sticky : sticky skip_byte.
Proof. intros s G. apply do_skip_bad, G. Qed.
Lemma skip_byte_inv s s' : skip_byte s = (tt, s') -> 0 <= lim s <= 2 ^ 64 - 1 -> good s' = true ->
  good s = true /\ exists b t, rest s = b :: t /\ s' = mkrd (b :: past s) t true (lim s - 1) /\ 1 <= lim s.
Proof.
  unfold skip_byte, do_skip, limiter. intros E Hl G. injection E as <-.
  destruct (Z.gtb_spec 1 (lim s)) as [L|L]; [discriminate|]. unfold seeker, istream_seek in *. cbn [set_lim good past rest lim Z.eqb] in *.
  destruct (good s) eqn:Q; cbn [negb andb] in *; [|]. 2: { cbn in G. congruence. }
  destruct (1 <? 0) eqn:Q1; [discriminate|]. destruct (0 <? 1) eqn:Q2; [|discriminate]. cbn [andb] in *.
  destruct (Z.gtb_spec 1 (len (rest s))); [discriminate|]. split; [reflexivity|].
  destruct (rest s) as [|b t] eqn:R; [cbn in *; lia|]. exists b, t. split; [reflexivity|]. split; [|lia].
  destruct (0 <=? 1) eqn:Q3; [|discriminate]. unfold advance. unfold set_lim. cbn [good past rest lim]. rewrite R, ?Q. change (Z.to_nat 1) with 1%nat. cbn [firstn skipn rev app]. reflexivity.
Qed.
Lemma invalidate_sticky b : sticky (invalidate_if b).
Proof. intros s G. unfold invalidate_if. destruct b; [reflexivity|exact G]. Qed.
Lemma invalidate_exactL b : exactL (invalidate_if b) (fun _ => []) (fun _ => b = false).
Proof.
  intros s a s' Hb Hl E G. unfold invalidate_if in E. destruct b; injection E as <- <-; [discriminate|].
  split; [exact G|]. split; [reflexivity|]. exists (rest s). repeat split; auto; lia.
Qed.
Lemma read_ins_sticky : sticky read_ins. Proof. apply read_list_sticky, input_sticky. Qed.
Lemma read_outs_sticky : sticky read_outs. Proof. apply read_list_sticky, output_sticky. Qed.
Definition in_list (l : list input) : list Z := write_variable (len l) ++ concat (map input_to_data l).
Definition out_list (l : list output) : list Z := write_variable (len l) ++ concat (map output_to_data l).
Lemma read_ins_exactL : exactL read_ins in_list (fun l => len l <= 1000000 /\ Forall (fun i => iwf i /\ in_witness i = []) l).
Proof.
  eapply exactL_weaken; [apply (read_list_exactL max_count input_from_data input_to_data); [apply input_sticky|apply input_exactL]|].
  cbv beta. intros l (H1 & _ & H3). split; [split; [exact H1|exact H3]|reflexivity].
Qed.
Lemma read_outs_exactL : exactL read_outs out_list (fun l => len l <= 1000000 /\ Forall owf l).
Proof.
  eapply exactL_weaken; [apply (read_list_exactL max_count output_from_data output_to_data); [apply output_sticky|apply output_exactL]|].
  cbv beta. intros l (H1 & _ & H3). split; [split; [exact H1|exact H3]|reflexivity].
Qed.
Ltac Stk := repeat first [ apply sticky_ret | apply read_le_sticky | apply read_outs_sticky | apply read_ins_sticky
  | apply witnesses_sticky, skip_sticky | apply invalidate_sticky | apply skip_byte_sticky | apply sticky_bind'; [|intros] ].
Lemma tail_plain_sticky v ins : sticky (tail_plain v ins). Proof. unfold tail_plain. Stk. Qed.
Lemma tail_segregated_sticky w v : sticky (tail_segregated w v). Proof. unfold tail_segregated. Stk. Qed.
Lemma peek_sticky : sticky peek_byte.
Proof. intros s G. unfold peek_byte. destruct (lim s =? 0); [reflexivity|]. rewrite G. exact G. Qed.
Lemma tail_sticky w v ins : sticky (tail w v ins).
Proof.
  unfold tail. destruct (len ins =? 0); [|apply tail_plain_sticky]. apply sticky_bind'; [apply peek_sticky|].
  intros b. destruct (b =? 1); [apply tail_segregated_sticky|apply tail_plain_sticky].
Qed.

Lemma tail_plain_exactL v ins :
  exactL (tail_plain v ins) (fun t => out_list (tx_outputs t) ++ write_le 4 (tx_locktime t))
   (fun t => tx_version t = v /\ tx_inputs t = ins /\ tx_segregated t = false /\ u32_ok (tx_locktime t) /\
      len (tx_outputs t) <= 1000000 /\ Forall owf (tx_outputs t)).
Proof.
  unfold tail_plain. eapply exactL_weaken.
  - eapply (exactL_bind' tx_outputs); [apply read_outs_exactL| |Stk|intros; Stk|].
    intros outs Ho. eapply (exactL_bind' tx_locktime); [apply le4_exactL| |Stk|intros; Stk|].
    intros lt Hl. apply exactL_ret.
    + intros a b ->. reflexivity.
    + cbv beta. intros a b (q & _ & ->). reflexivity.
  - cbv beta. intros t (outs & (H1 & H2) & lt & H3 & ->). cbn [tx_version tx_inputs tx_outputs tx_locktime tx_segregated].
    split; [repeat (split; [auto; fail|]); exact H2|]. rewrite app_nil_r. reflexivity.
Qed.

Lemma strip_all l : Forall (fun i => iwf i /\ in_witness i = []) l -> map strip_input l = l.
Proof.
  induction 1 as [|i l [_ Hi] _ IH]; [reflexivity|]. cbn [map]. rewrite IH. destruct i as [h x sc q w]. cbn in Hi. subst. reflexivity.
Qed.
Lemma strip_in_list l : in_list (map strip_input l) = in_list l.
Proof. unfold in_list, len. rewrite map_map, map_length. reflexivity. Qed.
Lemma forall_iwf l : Forall (fun i => iwf i /\ in_witness i = []) l -> Forall iwf l.
Proof. apply Forall_impl. intros i [H _]. exact H. Qed.

(** After the flag byte. *)
Definition after_flag (v : Z) : rd -> tx * rd :=
  inputs <- read_ins ;; outputs <- read_outs ;; p <- read_witnesses true inputs ;;
  _ <- invalidate_if (negb (snd p)) ;; locktime <- read_le 4 ;; ret (mktx v (fst p) outputs locktime true).
Lemma after_flag_sticky v : sticky (after_flag v). Proof. unfold after_flag. Stk. Qed.
Lemma after_flag_exactL v :
  exactL (after_flag v) (fun t => in_list (tx_inputs t) ++ out_list (tx_outputs t) ++ wits (tx_inputs t) ++ write_le 4 (tx_locktime t))
   (fun t => tx_version t = v /\ tx_segregated t = true /\ has_witness_data (tx_inputs t) = true /\ u32_ok (tx_locktime t) /\
      len (tx_inputs t) <= 1000000 /\ Forall iwf (tx_inputs t) /\ Forall (fun i => wwf (in_witness i)) (tx_inputs t) /\
      len (tx_outputs t) <= 1000000 /\ Forall owf (tx_outputs t)).
Proof.
  unfold after_flag. eapply exactL_weaken.
  - eapply (exactL_bind' (fun t => map strip_input (tx_inputs t))); [apply read_ins_exactL| |Stk|intros; Stk|].
    intros ins Hi. eapply (exactL_bind' tx_outputs); [apply read_outs_exactL| |Stk|intros; Stk|].
    intros outs Ho. eapply (exactL_bind' (fun t => (tx_inputs t, has_witness_data (tx_inputs t)))); [apply witnesses_exactL| |Stk|intros; Stk|].
    intros p Hp. eapply (exactL_bind' (fun _ => tt)); [apply invalidate_exactL| |Stk|intros; Stk|].
    intros u0 _. eapply (exactL_bind' tx_locktime _ _ _ _ (fun _ => []) (fun lt t =>
       t = mktx v (fst p) outs lt true /\ snd p = has_witness_data (fst p) /\ map strip_input (fst p) = ins)); [apply le4_exactL| |Stk|intros; Stk|].
    + intros lt Hl. eapply exactL_weaken; [apply exactL_ret|]. cbv beta. intros t ->. split; [|reflexivity]. split; [reflexivity|]. destruct Hp as (Hp1 & Hp2 & _). split; [exact Hp2|].
      rewrite Hp1. apply strip_all, Hi.
    + cbv beta. intros a b (-> & _). reflexivity.
    + cbv beta. intros [] b _. reflexivity.
    + cbv beta. intros a b ([] & _ & lt & _ & -> & Hp & _). cbn [tx_inputs]. rewrite <- Hp. destruct a; reflexivity.
    + cbv beta. intros a b (p & _ & [] & _ & lt & _ & -> & _). reflexivity.
    + cbv beta. intros a b (o & _ & p & _ & [] & _ & lt & _ & -> & _ & E). exact E.
  - cbv beta. intros t (ins & (Hi1 & Hi2) & outs & (Ho1 & Ho2) & p & (Hp1 & Hp2 & Hp3 & Hp4) & [] & Hng & lt & Hlt & -> & _ & Hs).
    cbn [tx_version tx_inputs tx_outputs tx_locktime tx_segregated fst].
    apply negb_false_iff in Hng. split.
    + split; [reflexivity|]. split; [reflexivity|]. split; [congruence|]. split; [exact Hlt|]. split.
      { rewrite <- Hs in Hi1. unfold len in *. rewrite map_length in Hi1. exact Hi1. }
      split; [apply Hp3, forall_iwf, Hi2|]. split; [exact Hp4|]. split; [exact Ho1|exact Ho2].
    + cbn [app]. rewrite strip_in_list, app_nil_r. reflexivity.
Qed.

Definition tail_enc (t : tx) : list Z :=
  if tx_segregated t then [1] ++ in_list (tx_inputs t) ++ out_list (tx_outputs t) ++ wits (tx_inputs t) ++ write_le 4 (tx_locktime t)
  else out_list (tx_outputs t) ++ write_le 4 (tx_locktime t).
Definition tail_ok (v : Z) (ins : list input) (t : tx) : Prop :=
  tx_version t = v /\ u32_ok (tx_locktime t) /\ len (tx_outputs t) <= 1000000 /\ Forall owf (tx_outputs t) /\
  (if tx_segregated t then ins = [] /\ has_witness_data (tx_inputs t) = true /\ len (tx_inputs t) <= 1000000 /\
      Forall iwf (tx_inputs t) /\ Forall (fun i => wwf (in_witness i)) (tx_inputs t)
   else tx_inputs t = ins /\ (ins = [] -> len (tx_outputs t) <> 1)).
Lemma tail_exactL v ins : exactL (tail true v ins) tail_enc (tail_ok v ins).
Proof.
  unfold tail. destruct (Z.eqb_spec (len ins) 0) as [E0|E0].
  - apply len_zero in E0. subst ins. intros s t s' Hb Hl E G. unfold bind in E. destruct (peek_byte s) as [b s1] eqn:Ep.
    assert (G1 : good s1 = true).
    { destruct (good s1) eqn:Q; [reflexivity|]. destruct (b =? 1).
      - pose proof (tail_segregated_sticky true v s1 Q) as K. rewrite E in K. cbn in K. congruence.
      - pose proof (tail_plain_sticky v [] s1 Q) as K. rewrite E in K. cbn in K. congruence. }
    destruct (peek_inv s b s1 Ep G1) as (Hg & -> & u & Hu). split; [exact Hg|].
    destruct (Z.eqb_spec b 1) as [Eb|Nb]; [subst b|].
    + unfold tail_segregated, bind at 1 in E. destruct (skip_byte s) as [[] s2] eqn:Es. change (after_flag v s2 = (t, s')) in E.
      assert (G2 : good s2 = true).
      { destruct (good s2) eqn:Q; [reflexivity|]. pose proof (after_flag_sticky v s2 Q) as K. rewrite E in K. cbn in K. congruence. }
      destruct (skip_byte_inv s s2 Es Hl G2) as (_ & b' & u' & Hu' & -> & L1). rewrite Hu in Hu'. injection Hu' as <- <-.
      assert (B2 : bytes_ok u) by (rewrite Hu in Hb; inversion Hb; assumption).
      destruct (after_flag_exactL v (mkrd (1 :: past s) u true (lim s - 1)) t s' B2 ltac:(cbn [lim]; lia) E G) as (_ & (H1 & H2 & H3 & H4 & H5 & H6 & H7 & H8 & H9) & r & Hr & Hr' & Hp & HL).
      cbn [rest past] in *. split.
      * unfold tail_ok. rewrite H2. split; [exact H1|]. split; [exact H4|]. split; [exact H8|]. split; [exact H9|]. repeat split; auto.
      * exists r. unfold tail_enc. rewrite H2. split; [rewrite Hu, Hr; reflexivity|]. split; [exact Hr'|]. split; [|exact HL].
        rewrite Hp. rewrite (rev_app_distr [1]), <- app_assoc. reflexivity.
    + destruct (tail_plain_exactL v [] s t s' Hb Hl E G) as (_ & (H1 & H2 & H3 & H4 & H5 & H6) & r & Hr & Hr' & Hp & HL). split.
      * unfold tail_ok. rewrite H3. split; [exact H1|]. split; [exact H4|]. split; [exact H5|]. split; [exact H6|]. split; [exact H2|].
        intros _ Q. unfold out_list in Hr. rewrite Q in Hr. rewrite Hu in Hr. cbn in Hr. injection Hr as -> _. auto.
      * exists r. unfold tail_enc. rewrite H3. auto.
  - intros s t s' Hb Hl E G. destruct (tail_plain_exactL v ins s t s' Hb Hl E G) as (Hg & (H1 & H2 & H3 & H4 & H5 & H6) & r & R).
    split; [exact Hg|]. split.
    + unfold tail_ok. rewrite H3. split; [exact H1|]. split; [exact H4|]. split; [exact H5|]. split; [exact H6|]. split; [exact H2|].
      intros ->. cbn in E0. lia.
    + exists r. unfold tail_enc. rewrite H3. exact R.
Qed.

Definition parsed_ok (t : tx) : Prop := twf t /\ (tx_inputs t <> [] \/ len (tx_outputs t) <> 1).
Lemma unwitnessed_false l : Forall (fun i => iwf i /\ in_witness i = []) l -> has_witness_data l = false /\ Forall (fun i => wwf (in_witness i)) l.
Proof.
  induction 1 as [|i l [_ Hi] _ [IH1 IH2]]; [split; [reflexivity|constructor]|]. cbn. rewrite Hi. split; [exact IH1|]. constructor; [|exact IH2].
  rewrite Hi. split; [cbn; lia|constructor].
Qed.
Lemma tx_sticky w : sticky (tx_from_data w).
Proof.
  intros s G. rewrite tx_from_data_tail. revert s G. change (sticky (version <- read_le 4 ;; inputs <- read_ins ;; tail w version inputs)).
  apply sticky_bind'; [Stk|]. intros v. apply sticky_bind'; [Stk|]. intros. apply tail_sticky.
Qed.
Lemma tx_exactL : exactL (tx_from_data true) (tx_to_data true) parsed_ok.
Proof.
  eapply exactL_ext; [apply tx_from_data_tail|]. eapply exactL_weaken.
  - eapply (exactL_bind' tx_version); [apply le4_exactL| |Stk|intros; apply sticky_bind'; [Stk|intros; apply tail_sticky]|].
    intros v Hv. eapply (exactL_bind' (fun t => if tx_segregated t then [] else tx_inputs t)); [apply read_ins_exactL| |Stk|intros; apply tail_sticky|].
    intros ins Hi. apply tail_exactL.
    + intros ins t (_ & _ & _ & _ & H). destruct (tx_segregated t); destruct H as [H _]; congruence.
    + cbv beta. intros a t (ins & _ & H & _). exact H.
  - cbv beta. intros t (v & Hv & ins & (Hi1 & Hi2) & (H1 & H2 & H3 & H4 & H5)). unfold parsed_ok, twf. subst v.
    destruct (tx_segregated t) eqn:Sg.
    + destruct H5 as (-> & H6 & H7 & H8 & H9). rewrite H6. split.
      * split; [repeat (split; [assumption|]); auto|]. left. intros E. rewrite E in H6. discriminate.
      * unfold tx_to_data, tail_enc. rewrite Sg. cbn [andb]. unfold in_list, out_list, wits. cbn [app]. rewrite <- !app_assoc. reflexivity.
    + destruct H5 as (<- & H6). destruct (unwitnessed_false _ Hi2) as [U1 U2]. rewrite U1. split.
      * split; [repeat (split; [first [assumption|apply forall_iwf, Hi2]|]); auto|].
        destruct (tx_inputs t) as [|i0 l0]; [right; auto|left; discriminate].
      * unfold tx_to_data, tail_enc. rewrite Sg. cbn [andb]. unfold in_list, out_list, wits. cbn [app]. rewrite <- !app_assoc. reflexivity.
Qed.

Lemma tx_parsesL t : parsed_ok t -> parsesL (tx_from_data true) (tx_to_data true t) t.
Proof.
  intros [W Ne]. destruct (tx_segregated t) eqn:Sg; [apply tx_parsesL_segregated; assumption|].
  replace (tx_to_data true t) with (tx_to_data false t) by (unfold tx_to_data; rewrite Sg; reflexivity).
  assert (E : strip t = t).
  { destruct W as (_ & _ & _ & _ & _ & _ & _ & Hs). unfold strip. rewrite strip_unwitnessed by congruence. rewrite <- Sg. destruct t; reflexivity. }
  rewrite <- E at 2. apply tx_parsesL_plain; assumption.
Qed.
