(** C45: ChaCha20. *)
From Coq Require Import PeanoNat.
From Verif Require Import Base Bytes ShaModel ShaSpec ShaProofs ShaProofs2 ShaProofs5 ShaProofs6 AccModel AccProofs RmdModel RmdSpec RmdProofs RmdProofs2
  KdfSpec KdfProofs KdfProofs2 ScryptProofs ScryptProps ChachaSpec ChachaModel ChachaProofs ChachaProofs2.

(** The 96-bit nonce as the API divides it (a 32-bit and a 64-bit segment). *)
Definition nonce96 (nonce32 nonce64 : Z) : list Z := le_bytes 4 nonce32 ++ le_bytes 8 nonce64.
(** The calls a user makes after a seek, and the output of each. *)
Inductive call := Crypt (input : list Z) | Stream (size : nat).
Definition call_size (k : call) : nat := match k with Crypt input => length input | Stream size => size end.
Definition do_call (widths : list nat) (k : call) (c : chacha20) : chacha20 * list Z :=
  match k with Crypt input => crypt widths input (length input) c | Stream size => stream widths size c end.
Fixpoint run (widths : list nat) (calls : list call) (c : chacha20) : list (list Z) :=
  match calls with [] => [] | k :: ks => let (c, out) := do_call widths k c in out :: run widths ks c end.
(** What RFC 8439 gives: the key stream from byte [from] on. *)
Fixpoint expected (key nonce : list Z) (counter : Z) (from : nat) (calls : list call) : list (list Z) :=
  match calls with
  | [] => []
  | k :: ks =>
    let s := keystream key nonce counter from (call_size k) in
    match k with Crypt input => xor_bytes input s | Stream _ => s end :: expected key nonce counter (from + call_size k) ks
  end.
Definition vector_widths (widths : list nat) : Prop := Forall (fun lanes => In lanes [4; 8; 16]%nat) widths.

Lemma widths_or widths : vector_widths widths -> Forall (fun l => l = 4%nat \/ l = 8%nat \/ l = 16%nat) widths.
Proof. apply Forall_impl. intros l [<-|[<-|[<-|[]]]]; auto. Qed.
Lemma le_value_bytes_nonce n32 n64 : 0 <= n32 < 2 ^ 32 -> 0 <= n64 < 2 ^ 64 ->
  le_words (nonce96 n32 n64) = [n32; n64 mod 2 ^ 32; Z.shiftr n64 32 mod 2 ^ 32].
Proof.
  intros H32 H64. unfold le_words, nonce96.
  assert (E : le_bytes 8 n64 = le_bytes 4 n64 ++ le_bytes 4 (Z.shiftr n64 32)).
  { change 8%nat with (4 + 4)%nat. rewrite le_bytes_app. f_equal. f_equal. rewrite Z.shiftr_div_pow2 by lia. reflexivity. }
  rewrite E.
  replace (le_bytes 4 n32 ++ le_bytes 4 n64 ++ le_bytes 4 (Z.shiftr n64 32)) with (concat [le_bytes 4 n32; le_bytes 4 n64; le_bytes 4 (Z.shiftr n64 32)])
    by (cbn [concat]; rewrite app_nil_r; reflexivity).
  rewrite split_app by (lia || (repeat constructor; apply le_bytes_length)). cbn [map].
  rewrite !le_value_bytes. change (256 ^ Z.of_nat 4) with (2 ^ 32). rewrite (Z.mod_small n32) by lia. reflexivity.
Qed.
Lemma key_words key : length key = 32%nat -> map le_value (chunks 4 8 key) = le_words key /\ length (le_words key) = 8%nat.
Proof.
  intros L. destruct (chunks_split 4 8 key ltac:(lia) L) as [E _]. unfold le_words. rewrite <- E. split; [reflexivity|].
  rewrite map_length. apply chunks_length.
Qed.
Lemma sigma_constants : sigma20 = constants.
Proof. vm_compute. reflexivity. Qed.
Lemma block_bridge key nonce t : chacha_block key nonce t = block_at (le_words key) (le_words nonce) t.
Proof. unfold chacha_block, block_at, chacha_state, scalar_block. rewrite <- sigma_constants. reflexivity. Qed.
Lemma ks_bridge key nonce c0 p n : ks (le_words key) (le_words nonce) c0 p n = keystream key nonce c0 p n.
Proof.
  unfold ks, keystream. apply map_ext. intros i. unfold sb, stream_byte, ctr. rewrite block_bridge. reflexivity.
Qed.
Lemma map2_xor (a b : list Z) : map2 Z.lxor a b = xor_bytes a b.
Proof. unfold xor_bytes. revert b; induction a as [|x a IH]; intros [|y b]; try reflexivity. cbn [map2 combine map fst snd]. rewrite IH. reflexivity. Qed.
Lemma run_ok widths key nonce c0 : vector_widths widths -> length key = 32%nat -> length (le_words nonce) = 3%nat ->
  forall calls c p, At (le_words key) (le_words nonce) c0 c p -> run widths calls c = expected key nonce c0 p calls.
Proof.
  intros W Lk Ln. apply widths_or in W. destruct (key_words key Lk) as [_ LK]. induction calls as [|k calls IH]; intros c p A; [reflexivity|].
  cbn [run expected].
  assert (G : forall inp size, inp = [] \/ length inp = size -> exists c', crypt widths inp size c = (c', xs inp (keystream key nonce c0 p size)) /\ At (le_words key) (le_words nonce) c0 c' (p + size)).
  { intros inp size HI. destruct (crypt_ok (le_words key) (le_words nonce) c0 LK Ln inp size HI p widths c W A) as [E A'].
    destruct (crypt widths inp size c) as [c' out]. exists c'. cbn [fst snd] in *. rewrite E, ks_bridge. split; [reflexivity|exact A']. }
  destruct k as [inp|size]; cbn [do_call call_size].
  - destruct (G inp (length inp) (or_intror eq_refl)) as (c' & E & A'). rewrite E. f_equal; [|apply IH; exact A'].
    unfold xs. destruct inp as [|x l] eqn:EI; [reflexivity|]. rewrite <- EI in *. rewrite map2_xor. f_equal.
    unfold keystream. rewrite map_length, seq_length. apply firstn_all.
  - unfold stream. destruct (G [] size (or_introl eq_refl)) as (c' & E & A'). rewrite E. f_equal. apply IH. exact A'.
Qed.
Lemma seek_at key n32 n64 c0 c : length key = 32%nat -> 0 <= n32 < 2 ^ 32 -> 0 <= n64 < 2 ^ 64 -> 0 <= c0 < 2 ^ 32 ->
  c_key c = le_words key -> At (le_words key) (le_words (nonce96 n32 n64)) c0 (seek n32 n64 c0 c) 0.
Proof.
  intros Lk H32 H64 Hc E. left. exists 0%nat. unfold seek. cbn [c_key c_nonce c_counter c_offset]. rewrite le_value_bytes_nonce by assumption.
  repeat split; try assumption. unfold ctr. change (Z.of_nat 0) with 0. rewrite Z.add_0_r. symmetry. apply Z.mod_small. exact Hc.
Qed.
Lemma nonce_words n32 n64 : 0 <= n32 < 2 ^ 32 -> 0 <= n64 < 2 ^ 64 -> length (le_words (nonce96 n32 n64)) = 3%nat.
Proof. intros. rewrite le_value_bytes_nonce by assumption. reflexivity. Qed.

(** After a key is set and a nonce and counter sought - on an object with any
    history - every sequence of crypt and stream calls yields the RFC's key stream,
    continuous across the calls and wrapping at the end of the 32-bit counter, on
    every set of vector widths. *)
Theorem C45_chacha20 widths key nonce32 nonce64 counter calls (c : chacha20) :
  vector_widths widths -> length key = 32%nat -> 0 <= nonce32 < 2 ^ 32 -> 0 <= nonce64 < 2 ^ 64 -> 0 <= counter < 2 ^ 32 ->
  run widths calls (seek nonce32 nonce64 counter (set_key key c)) = expected key (nonce96 nonce32 nonce64) counter 0 calls.
Proof.
  intros W Lk H32 H64 Hc. apply run_ok; [exact W|exact Lk|apply nonce_words; assumption|].
  apply seek_at; try assumption. apply (key_words key Lk).
Qed.
Print Assumptions C45_chacha20.
(** A constructed or newly keyed object is at nonce zero, counter zero. *)
Theorem C45_initial widths key calls (c : chacha20) : vector_widths widths -> length key = 32%nat ->
  run widths calls (construct key) = expected key (repeat 0 12) 0 0 calls /\
  run widths calls (set_key key c) = expected key (repeat 0 12) 0 0 calls.
Proof.
  intros W Lk. change (repeat 0 12) with (nonce96 0 0).
  assert (G : forall c, run widths calls (set_key key c) = expected key (nonce96 0 0) 0 0 calls).
  { intros c'. rewrite <- (C45_chacha20 widths key 0 0 0 calls c') by (assumption || lia). reflexivity. }
  split; [apply (G (mkchacha [] [] 0 (repeat 0 64) 64))|apply G].
Qed.
Print Assumptions C45_initial.
(** However the data is divided between calls, the output is the whole data xored
    with the key stream. *)
Lemma keystream_app key nonce c0 p a b : keystream key nonce c0 p (a + b) = keystream key nonce c0 p a ++ keystream key nonce c0 (p + a) b.
Proof. unfold keystream. rewrite seq_app, map_app. reflexivity. Qed.
Lemma xor_app a b c d : length a = length b -> xor_bytes (a ++ c) (b ++ d) = xor_bytes a b ++ xor_bytes c d.
Proof. intros L. rewrite <- !map2_xor. apply map2_app. exact L. Qed.
Lemma keystream_length key nonce c0 p n : length (keystream key nonce c0 p n) = n.
Proof. unfold keystream. rewrite map_length, seq_length. reflexivity. Qed.
Lemma expected_concat key nonce c0 : forall inputs p, concat (expected key nonce c0 p (map Crypt inputs)) =
  xor_bytes (concat inputs) (keystream key nonce c0 p (length (concat inputs))).
Proof.
  induction inputs as [|i inputs IH]; intros p; [reflexivity|]. cbn [map expected concat call_size]. rewrite IH, app_length, keystream_app, xor_app;
    [reflexivity|rewrite keystream_length; reflexivity].
Qed.
Theorem C45_split_independent widths key nonce32 nonce64 counter inputs (c : chacha20) :
  vector_widths widths -> length key = 32%nat -> 0 <= nonce32 < 2 ^ 32 -> 0 <= nonce64 < 2 ^ 64 -> 0 <= counter < 2 ^ 32 ->
  concat (run widths (map Crypt inputs) (seek nonce32 nonce64 counter (set_key key c))) =
  xor_bytes (concat inputs) (keystream key (nonce96 nonce32 nonce64) counter 0 (length (concat inputs))).
Proof. intros. rewrite C45_chacha20 by assumption. apply expected_concat. Qed.
Print Assumptions C45_split_independent.
(** Decrypting the cipher text - in any division, on any processor - restores the data. *)
Lemma xor_cancel a k : length a = length k -> xor_bytes (xor_bytes a k) k = a.
Proof.
  rewrite <- !map2_xor. revert k; induction a as [|x a IH]; intros [|y k] L; try discriminate; [reflexivity|]. cbn [map2 length] in *.
  rewrite IH by lia. rewrite Z.lxor_assoc, Z.lxor_nilpotent, Z.lxor_0_r. reflexivity.
Qed.
Theorem C45_inverse w1 w2 key nonce32 nonce64 counter inputs inputs2 (c c2 : chacha20) :
  vector_widths w1 -> vector_widths w2 -> length key = 32%nat -> 0 <= nonce32 < 2 ^ 32 -> 0 <= nonce64 < 2 ^ 64 -> 0 <= counter < 2 ^ 32 ->
  concat inputs2 = concat (run w1 (map Crypt inputs) (seek nonce32 nonce64 counter (set_key key c))) ->
  concat (run w2 (map Crypt inputs2) (seek nonce32 nonce64 counter (set_key key c2))) = concat inputs.
Proof.
  intros W1 W2 Lk H32 H64 Hc E. rewrite C45_split_independent by assumption. rewrite E, C45_split_independent by assumption.
  rewrite xor_bytes_length, keystream_length, Nat.min_id. apply xor_cancel. rewrite keystream_length. reflexivity.
Qed.
Print Assumptions C45_inverse.
(** RFC 8439 2.3.2, and a run over four calls, one of them wide enough for the
    vector path. *)
Definition rfc_key20 : list Z := map Z.of_nat (seq 0 32).
Example C45_rfc8439 : firstn 16 (chacha_block rfc_key20 [0; 0; 0; 9; 0; 0; 0; 0x4a; 0; 0; 0; 0] 1) =
  [0x10; 0xf1; 0xe7; 0xe4; 0xd1; 0x3b; 0x59; 0x15; 0x50; 0x0f; 0xdd; 0x1f; 0xa3; 0x20; 0x71; 0xc4].
Proof. vm_compute. reflexivity. Qed.
Example C45_sat : vector_widths [4]%nat /\
  run [4]%nat [Crypt [1; 2; 3]; Stream 300; Crypt []; Crypt [9]] (seek 0x09000000 0x4a000000 0xffffffff (construct rfc_key20)) =
  expected rfc_key20 [0; 0; 0; 9; 0; 0; 0; 0x4a; 0; 0; 0; 0] 0xffffffff 0 [Crypt [1; 2; 3]; Stream 300; Crypt []; Crypt [9]].
Proof.
  assert (W : vector_widths [4]%nat) by (constructor; [left; reflexivity|constructor]). split; [exact W|].
  unfold construct. rewrite C45_chacha20; [reflexivity|exact W|reflexivity|lia|lia|lia].
Qed.
