(** C76: signature capture and batch verification. *)
From Verif Require Import Base Bytes MathModel ShaModel AccModel KdfModel SigopSpec StreamModel NumberModel StateModel OpModel ChainModel BlockModel ValidModel PatternModel InterpEnv InterpModel InterpTrace InterpEarly SighashModel ConnectSpec ConnectModel ConnectProps2 BatchModel BatchProofs BatchProofs2 BatchSpec BatchProofs3 BatchProofs4.
From Coq Require Import Permutation.

Section Batch.
Variables (checked s8 : bool) (widths : list nat) (on : bool).
(** Compression of a 65 byte public key; it does not change verification. *)
Variable compress : list Z -> option (list Z).
Variables ve vs : list Z -> list Z -> list Z -> bool.
Hypothesis compress_ok : forall key key' digest sig, compress key = Some key' -> ve key' digest sig = ve key digest sig.

(** One input: connecting with a capture succeeds and everything it captured is
    valid, exactly when connecting without succeeds. *)
Theorem C76_connect sp s w d l : verify_ecdsa (base sp) = ve -> verify_schnorr (base sp) = vs ->
  (exists l' G R, connect_c checked s8 widths on compress sp s w (Some (to_script d)) l = Some (c_success, l') /\
     l_groups l' = l_groups l ++ G /\ l_rows l' = l_rows l ++ R /\ Forall (valid_group ve) G /\ Forall (valid_row vs) R)
  <-> connect checked s8 widths sp s w (Some (to_script d)) = Some c_success.
Proof.
  intros E1 E2. assert (C : forall k k' h g, compress k = Some k' -> verify_ecdsa (base sp) k' h g = verify_ecdsa (base sp) k h g) by (rewrite E1; exact compress_ok).
  pose proof (LC_connect checked s8 widths on compress sp C s w d l) as L.
  assert (EV : forall G R, entries_valid sp G R = true <-> Forall (valid_group ve) G /\ Forall (valid_row vs) R).
  { intros G R. unfold entries_valid. rewrite E1, E2, Bool.andb_true_iff, !forallb_forall, !Forall_forall. split; intros [A B]; (split; intros x Hx).
    - apply valid_group_ok, A, Hx.
    - destruct x as [[h k] g]. apply (B _ Hx).
    - apply valid_group_ok, A, Hx.
    - destruct x as [[h k] g]. apply (B _ Hx). }
  split.
  - intros (l' & G & R & E & A & B & V). rewrite E in L. destruct L as (G' & R' & [A' B'] & V'). rewrite A in A'. rewrite B in B'. apply app_inv_head in A', B'. subst G' R'.
    apply EV in V. rewrite V in V'. exact V'.
  - intros E. destruct (connect_c _ _ _ _ _ _ _ _ _ _) as [[c l']|].
    + destruct L as (G & R & [A B] & V). exists l', G, R. destruct (entries_valid sp G R) eqn:K; [|destruct V as (c' & Ec & N); congruence].
      rewrite E in V. injection V as <-. apply EV in K. destruct K. auto.
    + destruct L as [L|(c' & Ec & N)]; congruence.
Qed.

Notation same_crypto := (fun i : spent_input => verify_ecdsa (base (fst (fst (fst i)))) = ve /\ verify_schnorr (base (fst (fst (fst i)))) = vs).
Lemma inputs_ext inputs : Forall same_crypto inputs -> forall l c l', connect_inputs_c checked s8 widths on compress inputs l = Some (c, l') -> exists G R, ext l G R l'.
Proof.
  induction 1 as [|[[[sp s] w] d] inputs [H1 H2] _ IH]; intros l c l'; cbn [connect_inputs_c].
  - intros [= _ <-]. exists [], []. apply ext_nil.
  - cbn [fst] in *. pose proof (LC_connect checked s8 widths on compress sp ltac:(rewrite H1; exact compress_ok) s w d l) as L.
    destruct (connect_c _ _ _ _ _ _ _ _ _ _) as [[c1 l1]|]; [|discriminate]. cbn [obind]. destruct L as (G1 & R1 & X1 & _).
    destruct c1; try (intros [= _ <-]; exists G1, R1; exact X1). intros E. destruct (IH _ _ _ E) as (G2 & R2 & X2). exists (G1 ++ G2), (R1 ++ R2). eapply ext_trans; eassumption.
Qed.
Lemma connect_inputs_ok inputs : Forall same_crypto inputs -> forall l,
  (exists l' G R, connect_inputs_c checked s8 widths on compress inputs l = Some (c_success, l') /\
     l_groups l' = l_groups l ++ G /\ l_rows l' = l_rows l ++ R /\ Forall (valid_group ve) G /\ Forall (valid_row vs) R)
  <-> connect_inputs checked s8 widths inputs = Some c_success.
Proof.
  induction 1 as [|[[[sp s] w] d] inputs [H1 H2] F IH]; intros l; cbn [connect_inputs_c connect_inputs].
  - split; [reflexivity|]. intros _. exists l, [], []. rewrite !app_nil_r. repeat split; constructor.
  - cbn [fst] in *. pose proof (C76_connect sp s w d l H1 H2) as K. split.
    + intros (l' & G & R & E & A & B & VG & VR).
      destruct (connect_c checked s8 widths on compress sp s w (Some (to_script d)) l) as [[c l1]|] eqn:Ec; [|discriminate]. cbn [obind] in E.
      destruct c; try discriminate. pose proof (LC_connect checked s8 widths on compress sp) as L. specialize (L ltac:(rewrite H1; exact compress_ok) s w d l). rewrite Ec in L.
      destruct L as (G1 & R1 & [A1 B1] & _).
      assert (X : exists G2 R2, G = G1 ++ G2 /\ R = R1 ++ R2 /\ l_groups l' = l_groups l1 ++ G2 /\ l_rows l' = l_rows l1 ++ R2).
      { destruct (inputs_ext _ F _ _ _ E) as (G2 & R2 & [A2 B2]). exists G2, R2. rewrite A2, A1, <- app_assoc in A. rewrite B2, B1, <- app_assoc in B. apply app_inv_head in A, B. auto. }
      destruct X as (G2 & R2 & -> & -> & A2 & B2). apply Forall_app in VG, VR. destruct VG, VR.
      rewrite (proj1 K) by (exists l1, G1, R1; auto). cbn [obind]. apply (IH l1). exists l', G2, R2. auto.
    + intros E. destruct (connect checked s8 widths sp s w (Some (to_script d))) as [c|] eqn:Ec; [|discriminate]. cbn [obind] in E. destruct c; try discriminate.
      destruct (proj2 K eq_refl) as (l1 & G1 & R1 & -> & A1 & B1 & V1 & W1). cbn [obind]. destruct (proj2 (IH l1) E) as (l' & G2 & R2 & E2 & A2 & B2 & V2 & W2).
      exists l', (G1 ++ G2), (R1 ++ R2). split; [exact E2|]. rewrite A2, A1, B2, B1, !app_assoc. split; [reflexivity|]. split; [reflexivity|]. split; apply Forall_app; auto.
Qed.
Lemma inputs_log inputs : forall l c l', connect_inputs_c checked s8 widths on compress inputs l = Some (c, l') -> log_ok l -> log_ok l'.
Proof.
  induction inputs as [|[[[sp s] w] d] inputs IH]; intros l c l'; cbn [connect_inputs_c]; [intros [= _ <-]; auto|].
  intros E H. pose proof (connect_log checked s8 widths on compress sp s w (Some (to_script d)) l H) as K. destruct (connect_c _ _ _ _ _ _ _ _ _ _) as [[c1 l1]|]; [|discriminate]. cbn [obind ckept] in *.
  destruct c1; try (injection E as _ <-; exact K). eapply IH; eassumption.
Qed.
Definition no_log : log := mklog [] [] None.
Notation connected inputs l := (connect_inputs_c checked s8 widths on compress inputs no_log = Some (c_success, l)).
Notation accepted inputs := (connect_inputs checked s8 widths inputs = Some c_success).
Lemma block_valid inputs l : Forall same_crypto inputs -> connected inputs l ->
  (Forall (valid_group ve) (l_groups l) /\ Forall (valid_row vs) (l_rows l) <-> accepted inputs).
Proof.
  intros F C. rewrite <- (connect_inputs_ok inputs F no_log). split.
  - intros [A B]. exists l, (l_groups l), (l_rows l). auto.
  - intros (l' & G & R & E & A & B & V & W). rewrite C in E. injection E as <-. rewrite A, B. auto.
Qed.

(** A block that fails to connect with a capture has an input that fails without. *)
Theorem C76_refused inputs : Forall same_crypto inputs -> (forall l, ~ connected inputs l) -> ~ accepted inputs.
Proof. intros F N A. apply (connect_inputs_ok inputs F no_log) in A. destruct A as (l' & _ & _ & E & _). apply (N _ E). Qed.

(** The in place fallback: the verdict on a connected block's log is the verdict of
    connecting the block without a capture. *)
Theorem C76_fallback inputs l : Forall same_crypto inputs -> connected inputs l ->
  (verify_groups ve l = true /\ verify_rows vs l = true <-> accepted inputs).
Proof.
  intros F C. rewrite <- (block_valid inputs l F C), !Forall_forall. unfold verify_groups, verify_rows. rewrite forallb_forall.
  assert (K : forall gs b, fold_left (fun success g => verify_group ve g && success) gs b = true <-> b = true /\ forall g, In g gs -> verify_group ve g = true).
  { induction gs as [|g gs IH]; intros b; cbn [fold_left]; [split; [intros; split; [assumption|intros ? []]|tauto]|]. rewrite IH, Bool.andb_true_iff. split.
    - intros [[A B] D]. split; [exact B|]. intros x [<-|Hx]; auto.
    - intros [A D]. split; [split; [apply D; left; reflexivity|exact A]|]. intros x Hx. apply D. right. exact Hx. }
  rewrite K. split.
  - intros [[_ A] B]. split; intros x Hx; [apply valid_group_ok, A, Hx|]. specialize (B x Hx). destruct x as [[h k] g]. exact B.
  - intros [A B]. split; [split; [reflexivity|]|]; intros x Hx; [apply valid_group_ok, A, Hx|]. specialize (B x Hx). destruct x as [[h k] g]. exact B.
Qed.

(** Batches: for any blocks connected with a capture, with distinct identifiers, and
    any tables of their captured entries, the identifiers the two batch verifications
    list are exactly those of the blocks that do not connect without a capture. *)
Theorem C76_batch (blocks : list (Z * list spent_input)) (logs : list log) (ecdsa_rows : list ecdsa_row) (schnorr_rows : list (Z * row)) :
  NoDup (map fst blocks) -> Forall (fun b => fst b <> 0xffffff /\ Forall same_crypto (snd b)) blocks ->
  Forall2 (fun b l => connected (snd b) l) blocks logs ->
  table (combine (map fst blocks) (map l_groups logs)) ecdsa_rows ->
  Permutation (flat_map (fun p => map (fun r => (fst p, r)) (l_rows (snd p))) (combine (map fst blocks) logs)) schnorr_rows ->
  forall id, In id (ecdsa_batch_verify ve ecdsa_rows) \/ In id (schnorr_batch_verify vs schnorr_rows)
    <-> exists inputs, In (id, inputs) blocks /\ ~ accepted inputs.
Proof.
  intros N Ok F T P id.
  assert (Fst : forall (bs : list (Z * list spent_input)) (ls : list log), length bs = length ls -> map fst (combine (map fst bs) (map l_groups ls)) = map fst bs).
  { induction bs as [|b bs IH]; intros [|x ls] L; try discriminate; [reflexivity|]. cbn. rewrite IH; [reflexivity|]. injection L as L. exact L. }
  assert (Len : length blocks = length logs) by (clear - F; induction F; cbn; congruence).
  assert (B : blocks_ok (combine (map fst blocks) (map l_groups logs))).
  { split; [rewrite (Fst _ _ Len); exact N|]. clear - Ok F. induction F as [|[id inputs] l blocks logs E F IH]; [constructor|]. cbn [map combine fst snd] in *. inversion Ok as [|? ? [T0 _] Ok']; subst.
    constructor; [|apply IH, Ok']. split; [exact T0|]. pose proof (inputs_log _ _ _ _ E) as [A L]; [split; [constructor|cbn; lia]|]. cbn [snd]. auto. }
  destruct (ecdsa_batch_ok ve _ _ B T) as [_ He]. destruct (schnorr_batch_ok vs schnorr_rows) as [_ Hs]. rewrite He, Hs.
  assert (Dec : forall G R, (Forall (valid_group ve) G /\ Forall (valid_row vs) R) \/ (exists g, In g G /\ ~ valid_group ve g) \/ (exists r, In r R /\ ~ valid_row vs r)).
  { intros G R. assert (DG : forall g, {valid_group ve g} + {~ valid_group ve g}). { intros g. destruct (verify_group ve g) eqn:V; [left; apply valid_group_ok, V|right; rewrite valid_group_ok, V; discriminate]. }
    assert (DR : forall r, {valid_row vs r} + {~ valid_row vs r}). { intros [[h k] g]. unfold valid_row. destruct (vs k h g); [left; reflexivity|right; discriminate]. }
    destruct (Forall_Exists_dec _ DG G) as [A|A]; [|right; left; apply Exists_exists, A]. destruct (Forall_Exists_dec _ DR R) as [A'|A']; [|right; right; apply Exists_exists, A']. left. auto. }
  assert (Pair : forall inputs, In (id, inputs) blocks -> exists l, connected inputs l /\ In (id, l_groups l) (combine (map fst blocks) (map l_groups logs)) /\ In (id, l) (combine (map fst blocks) logs)).
  { clear - F. induction F as [|[id' inputs'] l blocks logs E F IH]; intros inputs []; cbn [map combine fst snd] in *.
    - injection H as -> ->. exists l. split; [exact E|]. split; left; reflexivity.
    - destruct (IH _ H) as (l' & A & B & C). exists l'. split; [exact A|]. split; right; assumption. }
  assert (Back1 : forall G, In (id, G) (combine (map fst blocks) (map l_groups logs)) -> exists inputs l, In (id, inputs) blocks /\ connected inputs l /\ G = l_groups l).
  { clear - F. induction F as [|[id' inputs'] l blocks logs E F IH]; intros G []; cbn [map combine fst snd] in *.
    - injection H as -> <-. exists inputs', l. split; [left; reflexivity|]. auto.
    - destruct (IH _ H) as (i & l' & A & B & C). exists i, l'. split; [right; exact A|]. auto. }
  assert (Back2 : forall l, In (id, l) (combine (map fst blocks) logs) -> exists inputs, In (id, inputs) blocks /\ connected inputs l).
  { clear - F. induction F as [|[id' inputs'] l blocks logs E F IH]; intros l' []; cbn [map combine fst snd] in *.
    - injection H as -> <-. exists inputs'. split; [left; reflexivity|exact E].
    - destruct (IH _ H) as (i & A & B). exists i. split; [right; exact A|exact B]. }
  assert (Cr : forall inputs, In (id, inputs) blocks -> Forall same_crypto inputs /\ id <> 0xffffff). { intros i Hi. rewrite Forall_forall in Ok. destruct (Ok _ Hi). auto. }
  split.
  - intros [(G & g & HG & Hg & V)|(T0 & r & Hr & V)].
    + destruct (Back1 _ HG) as (inputs & l & Hb & C & ->). exists inputs. split; [exact Hb|]. rewrite <- (block_valid inputs l (proj1 (Cr _ Hb)) C). intros [A _]. rewrite Forall_forall in A. apply V, A, Hg.
    + apply (Permutation_in _ (Permutation_sym P)) in Hr. apply in_flat_map in Hr. destruct Hr as ([id' l] & Hl & Hr). apply in_map_iff in Hr. destruct Hr as (r' & [= -> ->] & Hr).
      destruct (Back2 _ Hl) as (inputs & Hb & C). exists inputs. split; [exact Hb|]. rewrite <- (block_valid inputs l (proj1 (Cr _ Hb)) C). intros [_ A]. rewrite Forall_forall in A. apply V, A, Hr.
  - intros (inputs & Hb & A). destruct (Pair _ Hb) as (l & C & H1 & H2). destruct (Cr _ Hb) as [Sc T0]. rewrite <- (block_valid inputs l Sc C) in A.
    destruct (Dec (l_groups l) (l_rows l)) as [V|[(g & Hg & V)|(r & Hr & V)]]; [contradiction|left|right].
    + exists (l_groups l), g. auto.
    + split; [exact T0|]. exists r. split; [|exact V]. eapply Permutation_in; [exact P|]. apply in_flat_map. exists (id, l). split; [exact H2|]. apply in_map_iff. exists r. auto.
Qed.
End Batch.

(** An example: two blocks, each spending a pay to public key output and a two of
    three output; the second block's multisig has its signatures out of order. *)
Definition k1 : list Z := 2 :: repeat 7 32.
Definition k2 : list Z := 2 :: repeat 8 32.
Definition k3 : list Z := 3 :: repeat 9 32.
Definition push_of (d : list Z) : op := mkop (len d) d false.
Definition key_input (sig : list Z) : spent_input := (toy_spender 0, [push_of (sig ++ [1])], [], [33] ++ k1 ++ [172]).
Definition multi_input (a b : list Z) : spent_input :=
  (toy_spender 0, [mkop 0 [] false; push_of (a ++ [1]); push_of (b ++ [1])], [], [82; 33] ++ k1 ++ [33] ++ k2 ++ [33] ++ k3 ++ [83; 174]).
Definition good_block := [key_input k1; multi_input k1 k3].
Definition bad_block := [key_input k1; multi_input k3 k1].
Example C76_satisfiable : exists l1 l2,
  connect_inputs_c true false [] true (fun _ => None) good_block no_log = Some (c_success, l1) /\
  connect_inputs_c true false [] true (fun _ => None) bad_block no_log = Some (c_success, l2) /\
  len (l_groups l1) = 2 /\ connect_inputs true false [] good_block = Some c_success /\ connect_inputs true false [] bad_block = Some c_stack_false /\
  ecdsa_batch_verify (verify_ecdsa (base (toy_spender 0)))
    (concat (map (fun p => group_rows (fst p) (fst (snd p)) (snd (snd p))) (flat_map (fun b => map (fun g => (fst b, g)) (numbered 0 (snd b))) [(5, l_groups l1); (6, l_groups l2)]))) = [6].
Proof. eexists _, _. split; [vm_compute; reflexivity|]. split; [vm_compute; reflexivity|]. vm_compute. auto. Qed.
Print Assumptions C76_connect.
Print Assumptions C76_batch.
Print Assumptions C76_fallback.
Print Assumptions C76_refused.
