(** Every viewable transaction and block is accepted; block level. *)
From Verif Require Import Base Bytes MathModel MathSpec MathProofs StreamModel StreamSpec StreamProofs StreamProofs2 LineProofs LCalc OpModel OpProofs OpProofs2 OpProofs3 ChainModel RCalc ChainSpec ChainProofs ChainProofs2 ChainProofs3 ChainProofs4 ViewModel ViewProofs ViewProofs2.

Definition passes {A} (r : rd -> A * rd) (enc : list Z) : Prop :=
  forall s t, good s = true -> rest s = enc ++ t -> len enc + len t <= lim s <= 2 ^ 64 - 1 ->
  exists a l', r s = (a, mkrd (rev enc ++ past s) t true l') /\ len t <= l' <= 2 ^ 64 - 1.
Lemma parses_passes {A} (r : rd -> A * rd) e a : parsesL r e a -> passes r e.
Proof. intros H s t Hg Hr Hl. destruct (H s t Hg Hr Hl) as (l' & E & L). exists a, l'. auto. Qed.
Lemma passes_bind {A B} (r : rd -> A * rd) (f : A -> rd -> B * rd) e1 e2 a :
  parsesL r e1 a -> passes (f a) e2 -> passes (bind r f) (e1 ++ e2).
Proof.
  intros H1 H2 s t Hg Hr Hl. rewrite len_app in Hl. rewrite <- app_assoc in Hr. unfold bind.
  destruct (H1 s (e2 ++ t) Hg Hr) as (l1 & E1 & L1); [rewrite len_app; lia|]. rewrite E1.
  destruct (H2 (mkrd (rev e1 ++ past s) (e2 ++ t) true l1) t eq_refl eq_refl) as (b & l2 & E2 & L2); [cbn [lim]; rewrite len_app in L1; lia|].
  rewrite E2. exists b, l2. cbn [past]. split; [rewrite rev_app_distr, <- app_assoc; reflexivity|exact L2].
Qed.
Lemma passes_any {A B} (r : rd -> A * rd) (f : A -> rd -> B * rd) e1 e2 :
  passes r e1 -> (forall a, passes (f a) e2) -> passes (bind r f) (e1 ++ e2).
Proof.
  intros H1 H2 s t Hg Hr Hl. rewrite len_app in Hl. rewrite <- app_assoc in Hr. unfold bind.
  destruct (H1 s (e2 ++ t) Hg Hr) as (a & l1 & E1 & L1); [rewrite len_app; lia|]. rewrite E1.
  destruct (H2 a (mkrd (rev e1 ++ past s) (e2 ++ t) true l1) t eq_refl eq_refl) as (b & l2 & E2 & L2); [cbn [lim]; rewrite len_app in L1; lia|].
  rewrite E2. exists b, l2. cbn [past]. split; [rewrite rev_app_distr, <- app_assoc; reflexivity|exact L2].
Qed.
Lemma passes_tell {B} (f : Z -> rd -> B * rd) e : (forall p, passes (f p) e) -> passes (bind tell f) e.
Proof. intros H s t. unfold bind, tell. apply H. Qed.
Lemma passes_ret {A} (a : A) : passes (ret a) []. Proof. apply parses_passes with a, parsesL_ret'. Qed.
Lemma read_n_map {A B} (r : rd -> A * rd) (enc : B -> list Z) (g : B -> A) l :
  Forall (fun b => parsesL r (enc b) (g b)) l -> parsesL (read_n (length l) r) (concat (map enc l)) (map g l).
Proof.
  induction 1 as [|a l Ha _ IH]; cbn [length read_n map concat]; [apply parsesL_ret'|].
  eapply parsesL_bind'; [exact Ha|]. eapply parsesL_enc; [apply app_nil_r|]. eapply parsesL_bind'; [exact IH|]. apply parsesL_ret'.
Qed.
Lemma len_nat {A} (l : list A) : Z.to_nat (len l) = length l. Proof. unfold len. lia. Qed.
Lemma existsb_id l : existsb (fun b => b) (map (fun i => some_element (in_witness i)) l) = some_witness_element l.
Proof. unfold some_witness_element. rewrite (existsb_map' (fun b : bool => b)). reflexivity. Qed.

Lemma view_passes cb w t : viewable t -> passes (view_tx cb w) (tx_to_data true t).
Proof.
  intros ((Hv & Hlt & Hni & Fi & Fw & Hno & Fo & Hs) & Ni & No & Si & So & We).
  rewrite tx_bytes. unfold view_tx, witness_marker, witness_enabled. apply passes_tell. intros start.
  eapply passes_bind; [apply skip_parsesL; unfold write_le; rewrite len_le_bytes; reflexivity|].
  pose proof (len_nonneg (tx_inputs t)) as Pi. pose proof (len_nonneg (tx_outputs t)) as Po.
  assert (Z1 : (len (tx_inputs t) =? 0) || (len (tx_outputs t) =? 0) = false).
  { destruct (tx_inputs t); [congruence|]. destruct (tx_outputs t); [congruence|]. rewrite !len_cons. pose proof (len_nonneg l). pose proof (len_nonneg l0).
    apply orb_false_iff. split; apply Z.eqb_neq; lia. }
  assert (K : forall hw, hw = tx_segregated t -> forall in_start, passes (fun s => (
    sizes <- read_n (Z.to_nat (len (tx_inputs t))) view_input ;;
    outs <- read_size max_count ;;
    out_at <- tell ;;
    pairs <- read_n (Z.to_nat outs) view_output ;;
    wit_at <- tell ;;
    _ <- (if hw
        then (found <- read_n (Z.to_nat (len (tx_inputs t))) witness_skip ;; invalidate_if (negb (existsb (fun b => b) found)))
        else ret tt) ;;
    _ <- skip_bytes 4 ;;
    end_at <- tell ;;
    _ <- invalidate_if ((len (tx_inputs t) =? 0) || (outs =? 0)) ;;
    let size := end_at - start in
    let wits := size - (wit_at - start + 4) in
    let segregated := hw && w in
    ret (mkview start size (in_start - start) (out_at - start) (len (tx_inputs t)) outs wits
        (total (map input_entry sizes) + (if segregated then wits else len (tx_inputs t)))
        (total (map output_entry pairs)) hw segregated cb)) s)
    (ins_bytes t ++ write_variable (len (tx_outputs t)) ++ outs_bytes t ++ wit_bytes t ++ write_le 4 (tx_locktime t))).
  { intros hw Ehw in_start. change (fun s : rd => ?f s) with f. rewrite !len_nat.
    eapply passes_bind; [apply (read_n_map view_input input_to_data (fun i => len (ops_to_data (in_script i))))|].
    { rewrite Forall_forall in *. intros i Hi. apply view_input_parsesL; auto. }
    eapply passes_bind; [apply parses_L, read_size_parses; [lia|exact Hno]|]. apply passes_tell. intros out_at.
    rewrite len_nat. eapply passes_bind; [apply (read_n_map view_output output_to_data (fun o => (out_value o, len (ops_to_data (out_script o)))))|].
    { rewrite Forall_forall in *. intros o Ho. apply view_output_parsesL; auto. }
    apply passes_tell. intros wit_at. eapply (passes_bind _ _ (wit_bytes t) _ tt).
    { unfold wit_bytes. rewrite Ehw. destruct (tx_segregated t) eqn:Sg; [|apply parsesL_ret']. unfold wits.
      eapply parsesL_enc; [apply app_nil_r|]. eapply parsesL_bind'; [apply (read_n_map witness_skip (fun i => witness_to_data (in_witness i)) (fun i => some_element (in_witness i)))|].
      - eapply Forall_impl; [|exact Fw]. intros i Hi. apply witness_skip_parsesL, Hi.
      - rewrite existsb_id, (We eq_refl). cbn [negb]. apply invalidate_parsesL. }
    rewrite <- (app_nil_r (write_le 4 (tx_locktime t))).
    eapply passes_bind; [apply skip_parsesL; unfold write_le; rewrite len_le_bytes; reflexivity|]. apply passes_tell. intros end_at.
    rewrite Z1. eapply (passes_bind _ _ [] []); [apply invalidate_parsesL|]. apply passes_ret. }
  unfold mark. destruct (tx_segregated t) eqn:Sg.
  - change ([0; 1] ++ ?x) with ([0] ++ [] ++ 1 :: x).
    eapply (passes_bind _ _ [0]); [apply parses_L; apply (read_size_parses max_count 0); unfold max_count; lia|]. change (0 =? 0) with true. cbv iota.
    intros s u Hg Hr Hl.
    assert (PB : peek_byte s = (1, s)).
    { unfold peek_byte. cbn [app] in Hl. rewrite len_cons in Hl. match type of Hl with 1 + len ?a + _ <= _ <= _ => pose proof (len_nonneg a) end. pose proof (len_nonneg u). rewrite (proj2 (Z.eqb_neq _ _)) by lia. rewrite Hg, Hr. reflexivity. }
    unfold bind at 1. unfold bind at 1. rewrite PB. unfold ret at 1. change (1 =? 1) with true.
    revert u Hg Hr Hl. generalize s. clear s PB. cbn [app]. cbv beta iota zeta. 
    change (passes (ins <- (_ <- skip_byte ;; read_size max_count) ;; in_at <- tell ;; 
      (sizes <- read_n (Z.to_nat ins) view_input ;;
    outs <- read_size max_count ;;
    out_at <- tell ;;
    pairs <- read_n (Z.to_nat outs) view_output ;;
    wit_at <- tell ;;
    _ <- (found <- read_n (Z.to_nat ins) witness_skip ;; invalidate_if (negb (existsb (fun b => b) found))) ;;
    _ <- skip_bytes 4 ;;
    end_at <- tell ;;
    _ <- invalidate_if ((ins =? 0) || (outs =? 0)) ;;
    let size := end_at - start in
    let wits := size - (wit_at - start + 4) in
    let segregated := true && w in
    ret (mkview start size (in_at - start) (out_at - start) ins outs wits
        (total (map input_entry sizes) + (if segregated then wits else ins))
        (total (map output_entry pairs)) true segregated cb))) (1 :: write_variable (len (tx_inputs t)) ++ ins_bytes t ++ write_variable (len (tx_outputs t)) ++ outs_bytes t ++ wit_bytes t ++ write_le 4 (tx_locktime t))).
    change (1 :: write_variable (len (tx_inputs t)) ++ ?b) with (([1] ++ write_variable (len (tx_inputs t))) ++ b).
    eapply passes_bind; [eapply (parsesL_bind' _ _ [1]); [apply skip_byte_parsesL|apply parses_L, read_size_parses; [lia|exact Hni]]|].
    apply passes_tell. intros in_at. exact (K true eq_refl in_at).
  - cbn [app]. eapply passes_bind; [apply parses_L, read_size_parses; [lia|exact Hni]|].
    apply orb_false_iff in Z1 as Z2. rewrite (proj1 Z2). eapply (passes_bind _ _ []); [apply parsesL_ret'|].
    eapply (passes_bind _ _ []); [apply parsesL_ret'|]. apply passes_tell. intros in_at. exact (K false eq_refl in_at).
Qed.
