(** Concrete cases for C29-C34, C36, C61: a two block history, locks, counts. *)
From Verif Require Import Base Bytes MathModel StreamModel StateModel OpModel OpSpec ChainModel ChainSpec ChainProps BlockModel BlockSpec ValidModel ValidSpec ValidProps SigopSpec SigopProps BlockExamples.

Definition ctx (h : Z) : context := mkcontext (2 ^ fl_bip42 + 2 ^ fl_bip68 + 2 ^ fl_bip16 + 2 ^ fl_bip141) 1000 900 h 1 0 950.
Definition pay (k : tx) (n v : Z) : tx := make_tx 2 [mkinput (D (tx_to_data false k)) n [op1] (2 ^ 31) []] [mkoutput v [op1]; mkoutput 1 [op1]] 0.
Definition cbx (n v : Z) : tx := make_tx 1 [mkinput (repeat 0 32) 4294967295 [op1; mkop (80 + n) [] false] 4294967295 []] [mkoutput v [op1]] 0.
Definition block1 : pblock := mkpblock (hdr [cbx 1 50]) [mkptx (cbx 1 50) []].
Definition t1 := pay (cbx 1 50) 0 30.
Definition t2 := pay t1 0 20.
(** The first spends the previous block's coinbase (from the store), the second
    the first's output (populated from the block); fees 19 + 9. *)
Definition m1 : meta := mkmeta (Some (mkoutput 50 [op1])) true 800 1 4294967295.
Definition block2 (claim : Z) : pblock := mkpblock (hdr [cbx 2 claim; t1; t2]) [mkptx (cbx 2 claim) []; mkptx t1 [m1]; mkptx t2 []].
Definition populated2 (claim : Z) : pblock := mkpblock (hdr [cbx 2 claim; t1; t2])
  [mkptx (cbx 2 claim) []; mkptx t1 [m1]; mkptx t2 [mkmeta (Some (mkoutput 30 [op1])) true 4294967295 4294967295 4294967295]].
Example populated : populate D (ctx 2) (block2 78) = (success, populated2 78). Proof. vm_compute. reflexivity. Qed.
Example accepted : block_accept (ctx 2) 210000 50 (populated2 78) = success /\ block_accept (ctx 2) 210000 50 (populated2 79) = coinbase_value_limit.
Proof. vm_compute. auto. Qed.
(** An output of the block's own coinbase cannot be spent in it. *)
Definition own : tx := pay (cbx 2 78) 0 10.
Example own_spend : fst (populate D (ctx 2) (mkpblock (hdr []) [mkptx (cbx 2 78) []; mkptx own []])) = coinbase_maturity_error. Proof. vm_compute. reflexivity. Qed.

Lemma op1_ok : script_ok [op1].
Proof. apply (script_ok_by [81]); vm_compute; reflexivity. Qed.
Lemma D_bytes l : bytes_ok (D l). Proof. apply le_bytes_ok. Qed.
Lemma D_hash l : hash_ok (D l). Proof. split; [apply D_digest|apply D_bytes]. Qed.
Lemma pay_ok k n v : 0 <= n < 2 ^ 32 -> 0 <= v < 2 ^ 64 -> tx_ok (pay k n v).
Proof.
  intros Hn Hv. unfold pay. split; [cbn; unfold u32_ok; lia|]. split; [cbn; unfold u32_ok; lia|]. split; [unfold len; cbn; lia|].
  split. { constructor; [|constructor]. split; [apply D_hash|]. split; [exact Hn|]. split; [apply op1_ok|]. split; [unfold u32_ok; cbn [in_sequence]; lia|]. split; [unfold len; cbn; lia|constructor]. }
  split; [unfold len; cbn; lia|]. split. { repeat constructor; cbn [out_value]; unfold u64_ok; try lia; apply op1_ok. }
  unfold carries_witness. cbn. split; [discriminate|]. intros (i & [<-|[]] & H). exfalso. apply H. reflexivity.
Qed.
Lemma cbx_ok n v : (n = 1 \/ n = 2) -> 0 <= v < 2 ^ 64 -> tx_ok (cbx n v).
Proof.
  intros Hn Hv. unfold cbx. split; [cbn; unfold u32_ok; lia|]. split; [cbn; unfold u32_ok; lia|]. split; [unfold len; cbn; lia|].
  split. { constructor; [|constructor]. split; [split; [reflexivity|repeat constructor; lia]|]. split; [unfold u32_ok; cbn; lia|]. split; [exists [81; 80 + n]; split; [repeat constructor; lia|]; split; [unfold len; cbn; lia|]; destruct Hn; subst; vm_compute; reflexivity|]. split; [unfold u32_ok; cbn; lia|]. split; [unfold len; cbn; lia|constructor]. }
  split; [unfold len; cbn; lia|]. split. { repeat constructor; cbn [out_value]; unfold u64_ok; try lia; apply op1_ok. }
  unfold carries_witness. cbn. split; [discriminate|]. intros (i & [<-|[]] & H). exfalso. apply H. reflexivity.
Qed.
Lemma acyclic_by t : forallb (fun i => negb (bytes_eq (in_hash i) (D (tx_to_data false t)))) (tx_inputs t) = true -> acyclic D t.
Proof. intros H i Hi E. rewrite forallb_forall in H. specialize (H i Hi). rewrite E in H. rewrite (proj2 (BlockProofs3.bytes_eq_true _ _) eq_refl) in H. discriminate. Qed.
(** Two blocks accepted, 100 issued, and the outputs left are worth 100 (no burn). *)
Notation hist := (history D 210000 50 (fun c => is_enabled c fl_bip42 = true)).
Definition U1 : ledger := apply_block D [] [cbx 1 50].
Lemma one_block : hist 2 50 U1.
Proof.
  refine (history_step D 210000 50 _ 1 0 [] (ctx 1) true block1 block1 _ eq_refl eq_refl _ _ _ _ _).
  - constructor. lia.
  - constructor; [|constructor]. split; [apply cbx_ok; lia|]. apply acyclic_by. vm_compute. reflexivity.
  - vm_compute. reflexivity.
  - split; [intros m []|intros t i m o []].
  - vm_compute. reflexivity.
  - vm_compute. reflexivity.
Qed.
Example two_blocks : hist 3 100 (apply_block D U1 [cbx 2 78; t1; t2]) /\ worth (apply_block D U1 [cbx 2 78; t1; t2]) = 100.
Proof.
  split; [|vm_compute; reflexivity].
  refine (history_step D 210000 50 _ 2 50 U1 (ctx 2) true (block2 78) (populated2 78) one_block eq_refl eq_refl _ _ _ _ _).
  - constructor; [|constructor; [|constructor; [|constructor]]]; (split; [(apply cbx_ok; lia) || (apply pay_ok; lia)|]); apply acyclic_by; vm_compute; reflexivity.
  - vm_compute. reflexivity.
  - split; [intros m []|]. intros t i m o [<-|[<-|[]]] Hi E.
    + destruct Hi as [Hi|[]]. assert (Ei := f_equal fst Hi). assert (Em := f_equal snd Hi). cbn [fst snd] in Ei, Em. subst i m. cbn [m1 prevout] in E. injection E as <-. left. reflexivity.
    + destruct Hi as [Hi|[]]. assert (Em := f_equal snd Hi). cbn [fst snd] in Em. subst m. discriminate.
  - apply populated.
  - apply accepted.
Qed.
(** Confirmation: the first block's coinbase matures at height 101. *)
Example maturity : tx_confirm (ctx 100) (mkptx t1 [m1]) = coinbase_maturity_error /\ tx_confirm (ctx 101) (mkptx t1 [m1]) = success. Proof. vm_compute. auto. Qed.
(** Relative locks: ten blocks, or 512 seconds. *)
Definition locked (seq : Z) : ptx := mkptx (make_tx 2 [mkinput (repeat 1 32) 0 [op1] seq []] [mkoutput 1 [op1]] 0) [mkmeta (Some (mkoutput 1 [op1])) false 900 50 4294967295].
Example relative : is_relative_locked 59 1000 (locked 10) = true /\ is_relative_locked 60 1000 (locked 10) = false /\
  is_relative_locked 50 1411 (locked (2 ^ 22 + 1)) = true /\ is_relative_locked 50 1412 (locked (2 ^ 22 + 1)) = false /\
  is_relative_locked 50 900 (locked (2 ^ 31 + 10)) = false.
Proof. vm_compute. auto. Qed.
Definition until (n : Z) : tx := make_tx 1 [mkinput (repeat 1 32) 0 [op1] 7 []] [mkoutput 1 [op1]] n.
Example absolute : tx_check_context (ctx 10) (until 10) = absolute_time_locked /\ tx_check_context (ctx 10) (until 9) = success. Proof. vm_compute. auto. Qed.
(** Counts: a nested witness script hash input spending a two of three multisig. *)
Definition multi : list Z := [82] ++ 33 :: repeat 2 33 ++ 33 :: repeat 3 33 ++ 33 :: repeat 4 33 ++ [83; 174].
Definition nested : ptx := mkptx
  (make_tx 1 [mkinput (repeat 1 32) 0 [mkop 34 (0 :: 32 :: repeat 7 32) false] 7 [[]; [1]; multi]] [mkoutput 1 [mkop 172 [] false]] 0)
  [mkmeta (Some (mkoutput 5 [mkop 169 [] false; mkop 20 (repeat 8 20) false; mkop 135 [] false])) false 1 1 4294967295].
Example counted : reference_cost true true nested = 7 /\ tx_sigops true true nested = 7 /\ tx_sigops true false nested = 1. Proof. vm_compute. auto. Qed.
Lemma parse_fits l s : forallb (fun b => (0 <=? b) && (b <? 256)) l = true -> s = fst (script_from_data false (fresh l)) -> len l <= 1000000 -> len (script_bytes s) <= 4000000 -> fits_block s.
Proof. intros H E L F. split; [|exact F]. exists l. split; [|split; [lia|exact E]]. apply Forall_forall. intros b Hb. rewrite forallb_forall in H. specialize (H b Hb). apply andb_true_iff in H as [H1 H2]. apply Z.leb_le in H1. apply Z.ltb_lt in H2. unfold byte_ok. lia. Qed.
Example nested_ready : sigops_ready nested.
Proof.
  assert (F1 : fits_block [mkop 34 (0 :: 32 :: repeat 7 32) false]) by (apply (parse_fits (34 :: 0 :: 32 :: repeat 7 32)); [vm_compute; reflexivity..|vm_compute; discriminate|vm_compute; discriminate]).
  assert (F2 : fits_block [mkop 172 [] false]) by (apply (parse_fits [172]); [vm_compute; reflexivity..|vm_compute; discriminate|vm_compute; discriminate]).
  assert (F3 : fits_block [mkop 169 [] false; mkop 20 (repeat 8 20) false; mkop 135 [] false]) by (apply (parse_fits (169 :: 20 :: repeat 8 20 ++ [135])); [vm_compute; reflexivity..|vm_compute; discriminate|vm_compute; discriminate]).
  split; [|split; [constructor; [exact F1|constructor]|split; [constructor; [exact F2|constructor]|intros i m o [Hi|[]] E; injection Hi as <- <-; cbn in E; injection E as <-; exact F3]]].
  split; [unfold u32_ok; cbn; lia|]. split; [unfold u32_ok; cbn; lia|]. split; [unfold len; cbn; lia|].
  split. { constructor; [|constructor]. split; [split; [reflexivity|repeat constructor; lia]|]. split; [unfold u32_ok; cbn; lia|]. split; [apply F1|]. split; [unfold u32_ok; cbn; lia|]. split; [unfold len; cbn; lia|]. cbn [in_witness]. repeat constructor; try (vm_compute; lia); try (vm_compute; discriminate). }
  split; [unfold len; cbn; lia|]. split. { constructor; [|constructor]. split; [unfold u64_ok; cbn; lia|apply F2]. }
  unfold carries_witness. cbn. split; [intros _; eexists; split; [left; reflexivity|discriminate]|reflexivity].
Qed.
