(** C63: script templates; C56 (continued): addresses of scripts. *)
From Coq Require Import String.
From Verif Require Import Base Bytes StreamModel NumberModel OpSpec OpModel OpProofs OpProofs3 OpProps ChainSpec ChainProps ValidModel RadixSpec AddressModel AddressSpec AddressProps PatternModel BlockProps2 SigopProofs.

(** * C63 *)
Definition output_templates (s : script) : list (pattern * bool) :=
  [(pay_key_hash, is_pay_key_hash_pattern s); (pay_script_hash, is_pay_script_hash_pattern s); (pay_null_data, is_pay_null_data_pattern s);
   (pay_public_key, is_pay_public_key_pattern s); (pay_multisig, is_pay_multisig_pattern s); (pay_witness_key_hash, is_pay_witness_key_hash_pattern s);
   (pay_witness_script_hash, is_pay_witness_script_hash_pattern s); (pay_witness_v1_taproot, is_pay_witness_taproot_pattern s)].
Lemma wf_code_data a s : script_wf (a :: s) -> s <> [] -> 78 < code a -> data a = [].
Proof.
  intros W N C. inversion W as [|? U|? ? Wo Ws]; subst; [congruence|]. destruct Wo as (_ & _ & _ & L).
  revert L. repeat match goal with |- context [?x =? ?y] => destruct (Z.eqb_spec x y); [lia|] end. destruct (Z.leb_spec (code a) 75); [lia|].
  destruct (data a); [reflexivity|]. rewrite len_cons. pose proof (len_nonneg l). lia.
Qed.
(** A parsed script matches at most one output template, so that the reported
    pattern does not depend on the order of the tests. *)
Theorem C63_output_exclusive s : script_ok s ->
  (forall p q, In (p, true) (output_templates s) -> In (q, true) (output_templates s) -> p = q) /\
  (forall p, p <> non_standard -> output_pattern s = p <-> In (p, true) (output_templates s)) /\
  (output_pattern s = non_standard <-> forall p, ~ In (p, true) (output_templates s)).
Proof.
  intros Ok. destruct (ok_wf s Ok) as (W & _ & _).
  assert (X : forall p q, In (p, true) (output_templates s) -> In (q, true) (output_templates s) -> p = q).
  { unfold output_templates. destruct s as [|a [|b [|c [|d [|e [|f r]]]]]].
    - cbn. intuition congruence.
    - cbn. intuition congruence.
    - cbn [is_pay_key_hash_pattern is_pay_script_hash_pattern is_pay_null_data_pattern is_pay_public_key_pattern is_pay_witness_key_hash_pattern is_pay_witness_script_hash_pattern is_pay_witness_taproot_pattern].
      change (is_pay_multisig_pattern [a; b]) with false.
      assert (D : (code a =? 106) && is_public_key (data a) = false).
      { destruct (Z.eqb_spec (code a) 106) as [E|]; [|reflexivity]. rewrite (wf_code_data a [b] W); [reflexivity|discriminate|lia]. }
      assert (M : (code b =? 172) && is_minimal_push b = false).
      { destruct (Z.eqb_spec (code b) 172) as [E|]; [|reflexivity]. cbn [andb].
        assert (Wb : script_wf [b]) by (inversion W as [|? U|? ? Wo Ws]; assumption).
        assert (Db : op_to_data b = [code b] /\ script_wf []) by (apply wf_head_code; [exact Wb|rewrite E; unfold any_invalid, op_verif; lia]).
        destruct Db as [Db _]. assert (Eb : data b = []).
        { inversion Wb as [|? U|? ? Wo Ws]; subst; [destruct U as (_ & U & _); rewrite E in U; discriminate U|]. destruct Wo as (U0 & _ & _ & L). rewrite E in L. cbn in L. destruct (data b); [reflexivity|]. rewrite len_cons in L. pose proof (len_nonneg l). lia. }
        unfold is_minimal_push. rewrite Eb, E. reflexivity. }
      set (T1 := (code a =? 106) && is_minimal_push b && (len (data b) <=? 80)). set (T2 := is_public_key (data a) && (code b =? 172)).
      set (T3 := (code a =? 0) && (code b =? 20)). set (T4 := (code a =? 0) && (code b =? 32)). set (T5 := (code a =? 81) && (code b =? 32)).
      assert (N12 : T1 && T2 = false).
      { subst T1 T2. destruct (code a =? 106), (is_public_key (data a)), (code b =? 172), (is_minimal_push b), (len (data b) <=? 80); try reflexivity; discriminate. }
      assert (N13 : T1 && T3 = false /\ T1 && T4 = false /\ T1 && T5 = false).
      { subst T1 T3 T4 T5. destruct (Z.eqb_spec (code a) 106) as [E|]; [rewrite E|cbn; auto]. cbn. rewrite !andb_false_r. auto. }
      assert (N23 : T2 && T3 = false /\ T2 && T4 = false /\ T2 && T5 = false).
      { subst T2 T3 T4 T5. destruct (Z.eqb_spec (code b) 172) as [E|]; [rewrite E; cbn; rewrite !andb_false_r; auto|rewrite !andb_false_r; cbn; auto]. }
      assert (N34 : T3 && T4 = false /\ T3 && T5 = false /\ T4 && T5 = false).
      { subst T3 T4 T5. destruct (Z.eqb_spec (code a) 0) as [E|]; [rewrite E; cbn; rewrite !andb_false_r|cbn; auto]. destruct (Z.eqb_spec (code b) 20) as [E'|]; [rewrite E'|]; auto. }
      clearbody T1 T2 T3 T4 T5. clear D M Ok W. intros p q Hp Hq. cbn [In] in Hp, Hq.
      destruct T1, T2, T3, T4, T5; cbn in N12, N13, N23, N34; try (exfalso; intuition discriminate); intuition congruence.
    - cbn [is_pay_key_hash_pattern is_pay_script_hash_pattern is_pay_null_data_pattern is_pay_public_key_pattern is_pay_witness_key_hash_pattern is_pay_witness_script_hash_pattern is_pay_witness_taproot_pattern].
      change (is_pay_multisig_pattern [a; b; c]) with false. cbn. intuition congruence.
    - cbn [is_pay_key_hash_pattern is_pay_script_hash_pattern is_pay_null_data_pattern is_pay_public_key_pattern is_pay_witness_key_hash_pattern is_pay_witness_script_hash_pattern is_pay_witness_taproot_pattern].
      cbn [In]. intuition congruence.
    - cbn [is_pay_key_hash_pattern is_pay_script_hash_pattern is_pay_null_data_pattern is_pay_public_key_pattern is_pay_witness_key_hash_pattern is_pay_witness_script_hash_pattern is_pay_witness_taproot_pattern].
      assert (D : (code e =? 172) && is_pay_multisig_pattern [a; b; c; d; e] = false).
      { destruct (Z.eqb_spec (code e) 172) as [E|]; [|reflexivity]. unfold is_pay_multisig_pattern. cbn [last]. rewrite E. reflexivity. }
      intros p q Hp Hq. cbn [In] in Hp, Hq. destruct (code e =? 172); [cbn [andb] in D; rewrite D in Hp, Hq|rewrite andb_false_r in Hp, Hq]; intuition congruence.
    - cbn [is_pay_key_hash_pattern is_pay_script_hash_pattern is_pay_null_data_pattern is_pay_public_key_pattern is_pay_witness_key_hash_pattern is_pay_witness_script_hash_pattern is_pay_witness_taproot_pattern].
      cbn [In]. intuition congruence. }
  split; [exact X|].
  assert (F : (output_pattern s <> non_standard -> In (output_pattern s, true) (output_templates s)) /\ (output_pattern s = non_standard -> forall p, ~ In (p, true) (output_templates s))).
  { clear X. unfold output_pattern, output_templates. cbn [In].
    destruct (is_pay_key_hash_pattern s), (is_pay_script_hash_pattern s), (is_pay_null_data_pattern s), (is_pay_public_key_pattern s), (is_pay_multisig_pattern s),
      (is_pay_witness_key_hash_pattern s), (is_pay_witness_script_hash_pattern s), (is_pay_witness_taproot_pattern s); split; intros N; try discriminate N; try congruence; try tauto; intros p; intuition congruence. }
  destruct F as [F1 F2]. split.
  - intros p N. split; [intros <-; apply F1; exact N|]. intros I. destruct (output_pattern s) eqn:E; try (apply X; [apply F1; discriminate|exact I]). exfalso. exact (F2 eq_refl p I).
  - split; [exact F2|]. intros N. destruct (output_pattern s); try reflexivity; exfalso; refine (N _ (F1 _)); discriminate.
Qed.
Print Assumptions C63_output_exclusive.
Example C63_output_exclusive_nonvacuous : script_ok [mkop 0 [] false; mkop 20 (repeat 7 20) false] /\ output_pattern [mkop 0 [] false; mkop 20 (repeat 7 20) false] = pay_witness_key_hash /\
  script_ok [mkop 81 [] false; mkop 1 [9] false; mkop 81 [] false; mkop 174 [] false] /\ output_pattern [mkop 81 [] false; mkop 1 [9] false; mkop 81 [] false; mkop 174 [] false] = pay_multisig.
Proof. split; [apply (script_ok_by (0 :: 20 :: repeat 7 20)); vm_compute; reflexivity|]. split; [reflexivity|]. split; [apply (script_ok_by [81; 1; 9; 81; 174]); vm_compute; reflexivity|]. reflexivity. Qed.

(** What each builder makes: its bytes, which parse back to it, and its pattern. *)
Definition makes (s : script) (bytes : list Z) (p : pattern) : Prop :=
  script_bytes s = bytes /\ fst (script_from_data false (fresh bytes)) = s /\ output_pattern s = p.
Lemma complete_makes (ops : list (Z * list Z)) : Forall (fun p => complete_op (fst p) (snd p) /\ len (snd p) <= 4000000) ops ->
  len (concat (map (fun p => complete_op_bytes (fst p) (snd p)) ops)) < 2 ^ 63 ->
  forall p, output_pattern (map (fun p => mkop (fst p) (snd p) false) ops) = p ->
  makes (map (fun p => mkop (fst p) (snd p) false) ops) (concat (map (fun p => complete_op_bytes (fst p) (snd p)) ops)) p.
Proof.
  intros F L p Hp. pose proof (C14_complete_operations_round_trip ops F L) as Q. cbv zeta in Q. destruct Q as [Q1 Q2]. unfold makes. unfold script_bytes. rewrite Q1 in Q2 |- *. auto.
Qed.
Lemma complete_code c : 78 < c <= 255 -> complete_op c [] /\ len (@nil Z) <= 4000000.
Proof. intros H. change (len (@nil Z)) with 0. unfold complete_op, byte_ok. repeat split; try lia; try constructor. Qed.
Lemma push_short d : len d <= 75 -> push d = mkop (len d) d false.
Proof.
  intros L. pose proof (len_nonneg d). unfold push, from_push_data, nominal_opcode_from_data, opcode_from_size, push_size_75, is_payload. cbv zeta.
  destruct (Z.leb_spec (len d) 75); [|lia]. f_equal. destruct d; [reflexivity|]. rewrite len_cons in *. pose proof (len_nonneg d).
  unfold is_payload. try (destruct (Z.leb_spec 1 (1 + len d)); [|lia]). try (destruct (Z.leb_spec (1 + len d) 78); [|lia]). reflexivity.
Qed.
Lemma complete_short d : bytes_ok d -> len d <= 75 -> complete_op (len d) d /\ len d <= 4000000.
Proof. intros B L. pose proof (len_nonneg d). unfold complete_op, byte_ok. repeat split; try lia; try assumption. Qed.
Lemma short_bytes d : len d <= 75 -> complete_op_bytes (len d) d = len d :: d.
Proof. intros L. pose proof (len_nonneg d). unfold complete_op_bytes, size_bytes. repeat match goal with |- context [?x =? ?y] => destruct (Z.eqb_spec x y); [lia|] end. reflexivity. Qed.
Definition push_form (d : list Z) : list Z := complete_op_bytes (nominal_opcode_from_data d) d.
Lemma push_eq d : bytes_ok d -> len d <= 4000000 -> push d = mkop (nominal_opcode_from_data d) d false /\ complete_op (nominal_opcode_from_data d) d.
Proof.
  intros B L. pose proof (C15_nominal_push_pushes_the_data d B ltac:(lia)) as Q. cbv zeta in Q. destruct Q as (Q1 & Q2 & Q3).
  unfold push. unfold from_push_data in *. cbn [code data underflow] in *. unfold pushed in Q3.
  pose proof (opcode_from_size_range (len d)) as R. pose proof (len_nonneg d). unfold nominal_opcode_from_data in *.
  destruct (Z.leb_spec (opcode_from_size (len d)) 78); [|lia]. assert (Q4 : (if is_payload (opcode_from_size (len d)) then d else []) = d) by congruence.
  rewrite Q4 in *. auto.
Qed.
Theorem C63_builders :
  (forall h, bytes_ok h -> len h = 20 ->
     makes (to_pay_key_hash h) ([118; 169; 20] ++ h ++ [136; 172]) pay_key_hash /\
     makes (to_pay_script_hash h) ([169; 20] ++ h ++ [135]) pay_script_hash /\
     makes (to_pay_witness 0 h) ([0; 20] ++ h) pay_witness_key_hash) /\
  (forall h, bytes_ok h -> len h = 32 ->
     makes (to_pay_witness 0 h) ([0; 32] ++ h) pay_witness_script_hash /\
     makes (to_pay_witness 1 h) ([81; 32] ++ h) pay_witness_v1_taproot) /\
  (forall k, bytes_ok k -> is_public_key k = true -> makes (to_pay_public_key k) (len k :: k ++ [172]) pay_public_key) /\
  (forall m keys, 1 <= m <= len keys -> len keys <= 16 -> Forall (fun k => bytes_ok k /\ is_public_key k = true) keys ->
     makes (to_pay_multisig m keys) ([m + 80] ++ concat (map (fun k => len k :: k) keys) ++ [len keys + 80; 174]) pay_multisig).
Proof.
  assert (PK : forall k, is_public_key k = true -> len k = 33 \/ len k = 65).
  { intros k H. unfold is_public_key, is_compressed_key, is_uncompressed_key in H. destruct (Z.eqb_spec (len k) 33); [lia|]. destruct (Z.eqb_spec (len k) 65); [lia|]. discriminate. }
  repeat match goal with |- _ /\ _ => split end.
  - intros h B L. pose proof (complete_short h B ltac:(lia)) as C. rewrite <- L.
    assert (S1 := short_bytes h ltac:(lia)). assert (S2 := push_short h ltac:(lia)). repeat match goal with |- _ /\ _ => split end.
    + unfold to_pay_key_hash. rewrite S2. pose proof (complete_makes [(118, []); (169, []); (len h, h); (136, []); (172, [])]) as M. cbn [map fst snd concat] in M. rewrite S1 in M. cbn [app] in M |- *.
      unfold opc. change (complete_op_bytes 118 []) with [118] in M. change (complete_op_bytes 169 []) with [169] in M. change (complete_op_bytes 136 []) with [136] in M. change (complete_op_bytes 172 []) with [172] in M. cbn [app] in M.
      apply M.
      * repeat (constructor; [cbn [fst snd]; first [exact C|apply complete_code; lia]|]). constructor.
      * rewrite !len_cons, len_app. change (len [136; 172]) with 2. lia.
      * unfold output_pattern. cbn [is_pay_key_hash_pattern code data]. rewrite L. reflexivity.
    + unfold to_pay_script_hash. rewrite S2. pose proof (complete_makes [(169, []); (len h, h); (135, [])]) as M. cbn [map fst snd concat] in M. rewrite S1 in M. cbn [app] in M |- *.
      unfold opc. change (complete_op_bytes 169 []) with [169] in M. change (complete_op_bytes 135 []) with [135] in M. cbn [app] in M.
      apply M.
      * repeat (constructor; [cbn [fst snd]; first [exact C|apply complete_code; lia]|]). constructor.
      * rewrite !len_cons, len_app. change (len [135]) with 1. lia.
      * unfold output_pattern. cbn [is_pay_key_hash_pattern is_pay_script_hash_pattern code data]. rewrite L. reflexivity.
    + unfold to_pay_witness. rewrite S2. pose proof (complete_makes [(0, []); (len h, h)]) as M. cbn [map fst snd concat] in M. rewrite S1 in M. rewrite app_nil_r in M. cbn [app] in M |- *.
      unfold opc. change (if 0 =? 0 then 0 else 0 + 80) with 0. change (complete_op_bytes 0 []) with [0] in M. cbn [app] in M.
      apply M.
      * constructor; [cbn [fst snd]; apply (complete_short []); [constructor|change (len (@nil Z)) with 0; lia]|]. constructor; [exact C|constructor].
      * rewrite !len_cons. lia.
      * unfold output_pattern. cbn. rewrite L. reflexivity.
  - intros h B L. pose proof (complete_short h B ltac:(lia)) as C. rewrite <- L.
    assert (S1 := short_bytes h ltac:(lia)). assert (S2 := push_short h ltac:(lia)). split.
    + unfold to_pay_witness. rewrite S2. pose proof (complete_makes [(0, []); (len h, h)]) as M. cbn [map fst snd concat] in M. rewrite S1 in M. rewrite app_nil_r in M. cbn [app] in M |- *.
      unfold opc. change (if 0 =? 0 then 0 else 0 + 80) with 0. change (complete_op_bytes 0 []) with [0] in M. cbn [app] in M.
      apply M.
      * constructor; [cbn [fst snd]; apply (complete_short []); [constructor|change (len (@nil Z)) with 0; lia]|]. constructor; [exact C|constructor].
      * rewrite !len_cons. lia.
      * unfold output_pattern. cbn. rewrite L. reflexivity.
    + unfold to_pay_witness. rewrite S2. pose proof (complete_makes [(81, []); (len h, h)]) as M. cbn [map fst snd concat] in M. rewrite S1 in M. rewrite app_nil_r in M. cbn [app] in M |- *.
      unfold opc. change (if 1 =? 0 then 0 else 1 + 80) with 81. change (complete_op_bytes 81 []) with [81] in M. cbn [app] in M.
      apply M.
      * constructor; [cbn [fst snd]; apply complete_code; lia|]. constructor; [exact C|constructor].
      * rewrite !len_cons. lia.
      * unfold output_pattern. cbn. rewrite L. reflexivity.
  - intros k B K. destruct (PK k K) as [L|L].
    all: unfold to_pay_public_key; rewrite K; cbn [negb]; pose proof (complete_short k B ltac:(lia)) as C;
      assert (S1 := short_bytes k ltac:(lia)); assert (S2 := push_short k ltac:(lia)); rewrite S2;
      pose proof (complete_makes [(len k, k); (172, [])]) as M; cbn [map fst snd concat] in M; rewrite S1 in M; cbn [app] in M |- *;
      unfold opc; change (complete_op_bytes 172 []) with [172] in M; cbn [app] in M; apply M;
      [ constructor; [exact C|constructor; [cbn [fst snd]; apply complete_code; lia|constructor]]
      | rewrite len_cons, len_app; change (len [172]) with 1; lia
      | unfold output_pattern; cbn [is_pay_key_hash_pattern is_pay_script_hash_pattern is_pay_null_data_pattern is_pay_public_key_pattern code data]; rewrite K, L; reflexivity ].
  - intros m keys Hm Hn F. unfold to_pay_multisig. cbv zeta.
    destruct (Z.ltb_spec m 1); [lia|]. destruct (Z.gtb_spec m (len keys)); [lia|]. destruct (Z.ltb_spec (len keys) 1); [lia|]. destruct (Z.gtb_spec (len keys) 16); [lia|]. cbn [orb].
    assert (FK : forallb is_public_key keys = true). { apply forallb_forall. intros k I. rewrite Forall_forall in F. apply F. exact I. } rewrite FK. cbn [negb].
    pose proof (complete_makes ((m + 80, []) :: map (fun k => (len k, k)) keys ++ [(len keys + 80, []); (174, [])])) as M. cbn [map fst snd concat] in M.
    rewrite !map_app, !map_map in M. cbn [map fst snd concat] in M. rewrite concat_app in M. cbn [concat] in M. rewrite app_nil_r in M.
    assert (CB : forall c, 78 < c -> complete_op_bytes c [] = [c]).
    { intros c Hc. unfold complete_op_bytes, size_bytes. repeat match goal with |- context [?x =? ?y] => destruct (Z.eqb_spec x y); [lia|] end. reflexivity. }
    rewrite !CB in M by lia. cbn [app] in M |- *.
    assert (E1 : map push keys = map (fun x => mkop (len x) x false) keys).
    { apply map_ext_in. intros k I. apply push_short. rewrite Forall_forall in F. destruct (PK k (proj2 (F k I))); lia. }
    assert (E2 : map (fun x => complete_op_bytes (len x) x) keys = map (fun k => len k :: k) keys).
    { apply map_ext_in. intros k I. apply short_bytes. rewrite Forall_forall in F. destruct (PK k (proj2 (F k I))); lia. }
    rewrite E1. rewrite E2 in M. unfold opc. apply M.
    + constructor; [cbn [fst snd]; apply complete_code; lia|]. apply Forall_app. split; [|constructor; [cbn [fst snd]; apply complete_code; lia|constructor; [cbn [fst snd]; apply complete_code; lia|constructor]]].
      apply Forall_forall. intros p I. apply in_map_iff in I as (k & <- & I). rewrite Forall_forall in F. destruct (F k I) as [Bk Kk]. cbn [fst snd]. apply complete_short; [exact Bk|destruct (PK k Kk); lia].
    + rewrite len_cons, len_app. change (len [len keys + 80; 174]) with 2. assert (LC : len (concat (map (fun k : list Z => len k :: k) keys)) <= 66 * len keys).
      { clear -F PK. induction keys as [|k keys IH]; [cbn; lia|]. cbn [map concat]. rewrite len_app, !len_cons. inversion F as [|? ? [_ K] F']; subst. specialize (IH F'). destruct (PK k K); lia. }
      lia.
    + set (s := _ :: _). assert (Ls : len s = len keys + 3). { unfold s. rewrite len_cons, len_app. unfold len. rewrite map_length. cbn [length]. lia. }
      assert (MS : is_pay_multisig_pattern s = true).
      { unfold is_pay_multisig_pattern. assert (LA : last s (mkop 0 [] false) = mkop 174 [] false).
        { unfold s. rewrite app_comm_cons. change [mkop (len keys + 80) [] false; mkop 174 [] false] with ([mkop (len keys + 80) [] false] ++ [mkop 174 [] false]). rewrite app_assoc. apply last_last. }
        rewrite LA. destruct (Z.ltb_spec (len s) 4); [lia|]. cbn [code Z.eqb negb orb Pos.eqb]. cbv zeta.
        assert (N0 : nth_op 0 s = mkop (m + 80) [] false) by reflexivity.
        assert (N1 : nth_op (length s - 2) s = mkop (len keys + 80) [] false).
        { unfold nth_op, s. rewrite app_comm_cons. assert (LL : length (mkop (m + 80) [] false :: map (fun x => mkop (len x) x false) keys) = (length (mkop (m + 80) [] false :: map (fun x => mkop (len x) x false) keys ++ [mkop (len keys + 80) [] false; mkop 174 [] false]) - 2)%nat).
          { cbn [length]. rewrite app_length. cbn [length]. lia. }
          rewrite app_nth2; cbn [app]; rewrite <- LL; [|lia]. rewrite Nat.sub_diag. reflexivity. }
        rewrite N0, N1. assert (MN : forall v, 1 <= v <= 16 -> multisig_number (mkop (v + 80) [] false) = v).
        { intros v Hv. unfold multisig_number, as_unsigned32, is_nonnegative_op, is_positive_op. cbn [code]. destruct (Z.eqb_spec (v + 80) 0); [lia|]. destruct (Z.leb_spec 81 (v + 80)); [|lia]. destruct (Z.leb_spec (v + 80) 96); [|lia]. cbn [orb andb].
          replace (v + 80 - 80) with v by lia. destruct (Z.ltb_spec v 1); [lia|]. destruct (Z.gtb_spec v 20); [lia|]. reflexivity. }
        rewrite !MN by lia. destruct (Z.eqb_spec m 0); [lia|]. destruct (Z.eqb_spec (len keys) 0); [lia|]. destruct (Z.gtb_spec m (len keys)); [lia|]. destruct (Z.eqb_spec (len keys) (len s - 3)); [reflexivity|lia]. }
      unfold output_pattern. rewrite MS.
      destruct keys as [|k1 [|k2 [|k3 keys]]]; [cbn in Hm; lia|reflexivity| |].
      * unfold s. cbn [map app is_pay_key_hash_pattern is_pay_script_hash_pattern is_pay_null_data_pattern is_pay_public_key_pattern code data]. change (174 =? 172) with false. rewrite andb_false_r. reflexivity.
      * unfold s. cbn [map app]. destruct (map (fun x : list Z => mkop (len x) x false) keys) as [|? [|? ?]]; reflexivity.
Qed.
Print Assumptions C63_builders.
Example C63_builders_nonvacuous : is_public_key (2 :: repeat 5 32) = true /\ is_public_key (4 :: repeat 5 64) = true /\
  to_pay_multisig 1 [2 :: repeat 5 32; 4 :: repeat 5 64] <> [].
Proof. split; [reflexivity|]. split; [reflexivity|]. discriminate. Qed.

(** A null data script holds the data it is given; but a single byte that has
    a number opcode is pushed as data, and the result is then not of the null
    data template ("nulldata" is recognized only with a minimal push). *)
Theorem C63_null_data d : bytes_ok d -> len d <= 80 ->
  makes (to_pay_null_data d) (106 :: push_form d) (if core_minimal_push (nominal_opcode_from_data d) d && negb (list_eqb d [0]) then pay_null_data else non_standard).
Proof.
  intros B L. destruct (push_eq d B ltac:(lia)) as [E C]. unfold to_pay_null_data. destruct (Z.gtb_spec (len d) 80); [lia|]. rewrite E. unfold opc.
  pose proof (complete_makes [(106, []); (nominal_opcode_from_data d, d)]) as M. cbn [map fst snd concat] in M. rewrite app_nil_r in M.
  change (complete_op_bytes 106 []) with [106] in M. cbn [app] in M. unfold push_form. apply M.
  - constructor; [cbn [fst snd]; apply complete_code; lia|]. constructor; [cbn [fst snd]; split; [exact C|lia]|constructor].
  - unfold complete_op_bytes. rewrite !len_cons, len_app. unfold len at 1. rewrite le_bytes_length. unfold size_bytes. repeat match goal with |- context [?x =? ?y] => destruct (Z.eqb_spec x y) end; cbn [Z.of_nat Pos.of_succ_nat]; lia.
  - pose proof (len_nonneg d). unfold output_pattern. cbn [is_pay_key_hash_pattern is_pay_script_hash_pattern is_pay_null_data_pattern is_pay_public_key_pattern code data].
    destruct (Z.leb_spec (len d) 80); [|lia]. rewrite andb_true_r. change (106 =? 106) with true. cbn [andb].
    assert (X : is_minimal_push (mkop (nominal_opcode_from_data d) d false) = core_minimal_push (nominal_opcode_from_data d) d && negb (list_eqb d [0])).
    { destruct (list_eqb d [0]) eqn:Z0.
      - apply list_eqb_iff in Z0. subst d. reflexivity.
      - cbn [negb]. rewrite andb_true_r. apply C15_is_minimal_push_matches_reference; [exact B| |lia]. intros ->. discriminate Z0. }
    rewrite X. destruct (_ && negb _); reflexivity.
Qed.
Print Assumptions C63_null_data.
Theorem C63_null_data_refuted b : 0 <= b <= 16 \/ b = 129 ->
  output_pattern (to_pay_null_data [b]) = non_standard.
Proof.
  intros H. assert (D : b = 129 \/ In b (map Z.of_nat (seq 0 17))).
  { destruct H as [H|H]; [right|left; exact H]. apply in_map_iff. exists (Z.to_nat b). split; [lia|]. apply in_seq. lia. }
  destruct D as [->|D]; [reflexivity|]. cbn in D. repeat (destruct D as [<-|D]; [reflexivity|]). destruct D.
Qed.
Print Assumptions C63_null_data_refuted.

(** The comment of script_extract.cpp ("output patterns are mutually and input
    unambiguous") does not hold: a witness key hash output, for instance, also
    has the form of an input that satisfies a script hash. *)
Theorem C63_input_refuted h : bytes_ok h -> len h = 20 ->
  script_ok [mkop 0 [] false; mkop 20 h false] /\
  output_pattern [mkop 0 [] false; mkop 20 h false] = pay_witness_key_hash /\ input_pattern [mkop 0 [] false; mkop 20 h false] = sign_script_hash.
Proof.
  intros B L. destruct (proj1 C63_builders h B L) as (_ & _ & M1 & M2 & M3). unfold to_pay_witness in *. rewrite push_short, L in * by lia.
  change (opc (if 0 =? 0 then 0 else 0 + 80)) with (mkop 0 [] false) in *. split; [|split; [exact M3|]].
  - exists ([0; 20] ++ h). split; [|split; [|symmetry; exact M2]].
    + apply bytes_ok_app. split; [repeat constructor; unfold byte_ok; lia|exact B].
    + rewrite len_app. change (len [0; 20]) with 2. lia.
  - unfold input_pattern. cbn [is_sign_key_hash_pattern data]. change (is_endorsement []) with false. cbn [andb]. unfold is_sign_script_hash_pattern. cbn [last data]. rewrite L. reflexivity.
Qed.
Print Assumptions C63_input_refuted.

(** * C56 (continued): addresses and scripts *)
Section Address.
Variable hash : list Z -> list Z.
Variable short_hash : list Z -> list Z.
Variable point_data : list Z -> option (list Z).
(** The script of an address has that address, and no other output script
    yields one: the script pushes the hash of the address. *)
Theorem C56_output key prefix kh sh : (forall x, bytes_ok (hash x) /\ len (hash x) = 32) -> bytes_ok key -> len key = 20 -> kh <> sh -> prefix = kh \/ prefix = sh ->
  let v := payment_of hash key prefix in
  script_bytes (output_script v kh sh) = (if prefix =? kh then [118; 169; 20] ++ key ++ [136; 172] else [169; 20] ++ key ++ [135]) /\
  extract_output hash (output_script v kh sh) kh sh = Some v /\
  extract hash short_hash point_data (output_script v kh sh) kh sh = [Some v].
Proof.
  intros HH B L N P v. destruct (C56_value hash HH prefix key L) as (_ & Ep & Ek). fold v in Ep, Ek. unfold output_script. rewrite Ep, Ek.
  destruct (proj1 C63_builders key B L) as ((A1 & _ & A3) & (B1 & _ & B3) & _). destruct P as [-> | ->].
  - rewrite Z.eqb_refl. split; [exact A1|]. assert (X : extract_output hash (to_pay_key_hash key) kh sh = Some v).
    { unfold extract_output. rewrite A3. unfold to_pay_key_hash, nth_op. cbn [nth]. rewrite push_short by lia. cbn [data]. rewrite firstn_all2 by (unfold len in L; lia). reflexivity. }
    split; [exact X|]. unfold extract. rewrite X. reflexivity.
  - destruct (Z.eqb_spec sh kh); [congruence|]. rewrite Z.eqb_refl. split; [exact B1|]. assert (X : extract_output hash (to_pay_script_hash key) kh sh = Some v).
    { unfold extract_output. rewrite B3. unfold to_pay_script_hash, nth_op. cbn [nth]. rewrite push_short by lia. cbn [data]. rewrite firstn_all2 by (unfold len in L; lia). reflexivity. }
    split; [exact X|]. unfold extract. rewrite X. reflexivity.
Qed.
Theorem C56_output_exact s v kh sh : script_ok s -> extract_output hash s kh sh = Some v ->
  exists key, bytes_ok key /\ len key = 20 /\
   ((v = payment_of hash key kh /\ exists c, c <= 78 /\ complete_op c key /\ script_bytes s = [118; 169] ++ complete_op_bytes c key ++ [136; 172]) \/
    (v = payment_of hash key sh /\ script_bytes s = [169; 20] ++ key ++ [135])).
Proof.
  intros Ok. destruct (ok_wf s Ok) as (W & _ & _). unfold extract_output. destruct (output_pattern s) eqn:E; try discriminate; intros H; apply some_inj in H.
  - assert (PK : is_pay_key_hash_pattern s = true). { unfold output_pattern in E. destruct (is_pay_key_hash_pattern s); [reflexivity|]. repeat match type of E with (if ?b then _ else _) = _ => destruct b; try discriminate E end. }
    destruct s as [|a [|b [|c [|d [|e [|? ?]]]]]]; try discriminate. cbn [is_pay_key_hash_pattern] in PK. apply andb_true_iff in PK as [PK P5]. apply andb_true_iff in PK as [PK P4]. apply andb_true_iff in PK as [PK P3]. apply andb_true_iff in PK as [P1 P2].
    apply Z.eqb_eq in P1, P2, P3, P4, P5. cbn [nth_op nth] in H. unfold nth_op in H. cbn [nth] in H. rewrite firstn_all2 in H by (unfold len in P3; lia).
    destruct (wf_head_code a _ W) as [Ea W1]; [rewrite P1; unfold any_invalid, op_verif; lia|]. destruct (wf_head_code b _ W1) as [Eb W2]; [rewrite P2; unfold any_invalid, op_verif; lia|].
    inversion W2 as [| |? ? Wo W3]; subst. destruct (wf_head_code d _ W3) as [Ed W4]; [rewrite P4; unfold any_invalid, op_verif; lia|]. destruct (wf_head_code e _ W4) as [Ee _]; [rewrite P5; unfold any_invalid, op_verif; lia|].
    exists (data c). assert (Wo' := Wo). destruct Wo as (_ & Bc & Bd & Lc). split; [exact Bd|]. split; [exact P3|]. left. split; [reflexivity|].
    exists (code c). assert (C78 : code c <= 78). { destruct (Z.leb_spec (code c) 78); [assumption|]. revert Lc. repeat match goal with |- context [?x =? ?y] => destruct (Z.eqb_spec x y); [lia|] end. destruct (Z.leb_spec (code c) 75); lia. }
    split; [exact C78|]. split.
    { unfold complete_op. split; [exact Bc|]. split; [exact Bd|]. rewrite P3. repeat split; try lia. intros H75. revert Lc. unfold byte_ok in Bc. repeat match goal with |- context [?x =? ?y] => destruct (Z.eqb_spec x y); [lia|] end. destruct (Z.leb_spec (code c) 75); lia. }
    unfold script_bytes, script_to_data, ops_to_data. cbn [app map concat]. rewrite Ea, Eb, Ed, Ee, (op_to_data_eq c Wo'), P1, P2, P4, P5. unfold complete_op_bytes, prefix_of. cbn [app]. rewrite <- app_assoc. reflexivity.
  - assert (PK : is_pay_script_hash_pattern s = true). { unfold output_pattern in E. destruct (is_pay_script_hash_pattern s); [reflexivity|]. repeat match type of E with (if ?b then _ else _) = _ => destruct b; try discriminate E end. }
    destruct s as [|a [|b [|c [|? ?]]]]; try discriminate. cbn [is_pay_script_hash_pattern] in PK. apply andb_true_iff in PK as [PK P3]. apply andb_true_iff in PK as [P1 P2]. apply Z.eqb_eq in P1, P2, P3.
    destruct (wf_head_code a _ W) as [Ea W1]; [rewrite P1; unfold any_invalid, op_verif; lia|].
    destruct (wf_head_push b _ W1) as (Eb & Lb & W2); [lia|]. destruct (wf_head_code c _ W2) as [Ec _]; [rewrite P3; unfold any_invalid, op_verif; lia|].
    unfold nth_op in H. cbn [nth] in H. rewrite firstn_all2 in H by (unfold len in Lb; lia). exists (data b).
    split; [inversion W1 as [| |? ? Wo Ws]; apply Wo|]. split; [lia|]. right. split; [congruence|].
    unfold script_bytes, script_to_data, ops_to_data. cbn [app map concat]. rewrite Ea, Eb, Ec, P1, P2, P3. reflexivity.
Qed.
(** The combined extraction tries the input patterns first: of a witness
    output it returns, instead of no payment address, the script hash address
    of the hash of the witness program. *)
Theorem C56_extract_refuted program kh sh : len program = 20 \/ len program = 32 ->
  let s := to_pay_witness 0 program in
  extract_output hash s kh sh = None /\
  extract hash short_hash point_data s kh sh = [Some (payment_of hash (short_hash program) sh)].
Proof.
  intros L s. assert (S2 := push_short program ltac:(lia)). unfold s, to_pay_witness. rewrite S2. change (opc (if 0 =? 0 then 0 else 0 + 80)) with (mkop 0 [] false).
  split; [unfold extract_output, output_pattern; cbn; rewrite ?andb_false_r; destruct L as [-> | ->]; reflexivity|].
  unfold extract, extract_input, input_pattern. cbn [is_sign_key_hash_pattern data]. change (is_endorsement []) with false. cbn [andb]. unfold is_sign_script_hash_pattern. cbn [last data is_push_only_pattern forallb code].
  destruct L as [-> | ->]; reflexivity.
Qed.
(** Of a spend of a key hash the extraction takes the signature, not the key:
    no address results, whatever the key. *)
Theorem C56_extract_input_refuted endorsement key kh sh :
  9 <= len endorsement <= 73 -> is_public_key endorsement = false -> is_public_key key = true ->
  extract hash short_hash point_data [push endorsement; push key] kh sh = [None].
Proof.
  intros Le Ne K. assert (PL : len key = 33 \/ len key = 65).
  { unfold is_public_key, is_compressed_key, is_uncompressed_key in K. destruct (Z.eqb_spec (len key) 33); [lia|]. destruct (Z.eqb_spec (len key) 65); [lia|]. discriminate. }
  rewrite !push_short by lia. unfold extract, extract_input, input_pattern. cbn [is_sign_key_hash_pattern data]. rewrite K. unfold is_endorsement. destruct (Z.geb_spec (len endorsement) 9); [|lia]. destruct (Z.leb_spec (len endorsement) 73); [|lia].
  cbn [andb]. unfold nth_op. cbn [nth data]. unfold from_public. rewrite Ne. reflexivity.
Qed.
End Address.
Print Assumptions C56_output.
Print Assumptions C56_output_exact.
Print Assumptions C56_extract_refuted.
Print Assumptions C56_extract_input_refuted.
Example C56_extract_input_nonvacuous : is_public_key (48 :: 69 :: repeat 1 70) = false /\ is_public_key (2 :: repeat 5 32) = true.
Proof. split; reflexivity. Qed.
