(** The coder of mnemonic.cpp is BIP39's. *)
From Coq Require Import String PeanoNat.
From Verif Require Import Base Bytes MathModel StreamModel BitProofs BitStreamModel BitStreamSpec BitStreamProofs BitStreamProofs2
  RadixModel RadixProofs4 ShaSpec ShaModel ShaProofs2 AccModel KdfModel KdfProofs KdfProps WordsModel WordsProofs WordsData MnemonicSpec MnemonicModel.

Lemma pack_bits_ext a b : length a = length b -> (forall k, 0 <= k < len a -> nth (Z.to_nat k) a false = nth (Z.to_nat k) b false) -> a = b.
Proof.
  intros L H. apply (nth_ext _ _ false false L). intros n Hn. specialize (H (Z.of_nat n) ltac:(unfold len; lia)). rewrite Nat2Z.id in H. exact H.
Qed.
Lemma bits_of_pack d : bits_of d = pack_bits 8 d. Proof. reflexivity. Qed.
Lemma bits_of_len d : len (bits_of d) = 8 * len d.
Proof. rewrite bits_of_pack. apply pack_bits_len. lia. Qed.
Lemma bits_of_nth d k : 0 <= k < 8 * len d -> nth (Z.to_nat k) (bits_of d) false = bit_at d k.
Proof. intros H. rewrite bits_of_pack, pack_bits_nth by lia. unfold bit_at. f_equal. Qed.
Lemma unpack_packed idx : packed (pack_bits 11 idx) (base2048_unpack idx).
Proof. apply pack_packed. lia. Qed.
Lemma pack11_inj a : forall b, Forall (fun i => 0 <= i < 2048) a -> Forall (fun i => 0 <= i < 2048) b -> pack_bits 11 a = pack_bits 11 b -> a = b.
Proof.
  induction a as [|x a IH]; intros b A B E.
  - destruct b as [|y b]; [reflexivity|]. apply (f_equal len) in E. rewrite !pack_bits_len, len_cons in E by lia. change (len (@nil Z)) with 0 in E. pose proof (len_nonneg b). lia.
  - destruct b as [|y b]. { apply (f_equal len) in E. rewrite !pack_bits_len, len_cons in E by lia. change (len (@nil Z)) with 0 in E. pose proof (len_nonneg a). lia. }
    unfold pack_bits in E. cbn [flat_map] in E.
    assert (LL : forall v, length (low_bits v 11) = 11%nat) by (intros; unfold low_bits; rewrite map_length, seq_length; reflexivity).
    assert (E1 : low_bits x 11 = low_bits y 11).
    { apply (f_equal (firstn 11)) in E. rewrite !firstn_app, !LL in E. rewrite !Nat.sub_diag, !firstn_O, !app_nil_r in E.
      rewrite !firstn_all2 in E by (rewrite LL; lia). exact E. }
    assert (E2 : pack_bits 11 a = pack_bits 11 b) by (unfold pack_bits; rewrite E1 in E; apply app_inv_head in E; exact E).
    f_equal; [|apply IH; [exact (Forall_inv_tail A)|exact (Forall_inv_tail B)|exact E2]].
    pose proof (Forall_inv A) as Hx. pose proof (Forall_inv B) as Hy. cbv beta in Hx, Hy.
    apply Z.bits_inj'. intros n Hn. destruct (Z.lt_ge_cases n 11) as [C|C].
    + pose proof (low_bits_nth x 11 (10 - n) ltac:(lia)) as P. pose proof (low_bits_nth y 11 (10 - n) ltac:(lia)) as Q.
      rewrite E1, Q in P. replace (11 - 1 - (10 - n)) with n in P by lia. symmetry. exact P.
    + assert (T : forall v, 0 <= v < 2048 -> Z.testbit v n = false).
      { intros v Hv. apply (testbit_small v 11); [change (2 ^ 11) with 2048; lia|lia]. }
      rewrite !T by lia. reflexivity.
Qed.
Section Checksum.
Variables (checked s8 : bool) (widths : list nat).
Notation cbyte := (checksum_byte checked s8 widths).
Lemma sha_ok e : len e < 1000 -> hash (sha_algorithm sha256 s8 widths) checked e = SHA256 e /\ length (SHA256 e) = 32%nat.
Proof.
  intros H. destruct (lib_hashed _ _ _ _ (lib_sha256 s8 widths)) as [Ha _]. split; [|apply (h_length _ _ _ Ha)].
  apply (h_hash _ _ _ Ha). change (len e < 2305841909702066176). lia.
Qed.
Lemma cbyte_bit e n i : 4 <= n <= 8 -> len e = 4 * n -> 0 <= i < 8 ->
  Z.testbit (cbyte e) (7 - i) = if i <? n then nth (Z.to_nat i) (bits_of (SHA256 e)) false else false.
Proof.
  intros Hn He Hi. unfold checksum_byte. destruct (sha_ok e ltac:(lia)) as [-> L]. set (h := SHA256 e) in *.
  replace (len e / 4) with n by (rewrite He; symmetry; replace (4 * n) with (n * 4) by lia; apply Z.div_mul; lia).
  change 256 with (2 ^ 8). rewrite Z.mod_pow2_bits_low by lia. rewrite Z.land_spec.
  assert (B : nth (Z.to_nat i) (bits_of h) false = Z.testbit (hd 0 h) (7 - i)).
  { rewrite bits_of_nth by (unfold len; lia). unfold bit_at. rewrite Z.div_small, Z.mod_small by lia. destruct h; reflexivity. }
  rewrite B. change 255 with (Z.ones 8). rewrite Z.shiftl_spec by lia. destruct (Z.ltb_spec i n) as [C|C].
  - rewrite Z.ones_spec_low by lia. apply Bool.andb_true_r.
  - rewrite Z.testbit_neg_r with (n := 7 - i - (8 - n)) by lia. apply Bool.andb_false_r.
Qed.
Lemma cbyte_ok e : 0 <= cbyte e < 256.
Proof. unfold checksum_byte. apply Z.mod_pos_bound. lia. Qed.
Lemma checksum_len e n : 4 <= n <= 8 -> len e = 4 * n -> checksum e = firstn (Z.to_nat n) (bits_of (SHA256 e)) /\ len (checksum e) = n.
Proof.
  intros Hn He. unfold checksum. assert (Q : (length (bits_of e) / 32)%nat = Z.to_nat n).
  { pose proof (bits_of_len e) as L. unfold len in L, He. replace (length (bits_of e)) with (Z.to_nat n * 32)%nat by lia. apply Nat.div_mul. lia. }
  rewrite Q. split; [reflexivity|]. unfold len. rewrite firstn_length. destruct (sha_ok e ltac:(lia)) as [_ L].
  pose proof (bits_of_len (SHA256 e)) as L2. unfold len in L2. rewrite L in L2. lia.
Qed.
(** The sentence bits, padded with zeros, are the entropy and checksum bytes. *)
Lemma sentence_bit e n k : 4 <= n <= 8 -> len e = 4 * n -> 0 <= k < 32 * n + 8 ->
  bit_at (e ++ [cbyte e]) k = nth (Z.to_nat k) (bits_of e ++ checksum e) false.
Proof.
  intros Hn He Hk. pose proof (bits_of_len e) as LB. destruct (checksum_len e n Hn He) as [EC LC].
  destruct (Z.lt_ge_cases k (8 * len e)) as [C|C].
  - rewrite bit_at_app_l by lia. rewrite app_nth1 by (unfold len in *; lia). symmetry. apply bits_of_nth. lia.
  - rewrite bit_at_app_r by lia. rewrite app_nth2 by (unfold len in *; lia).
    replace (Z.to_nat k - length (bits_of e))%nat with (Z.to_nat (k - 8 * len e)) by (unfold len in *; lia).
    set (i := k - 8 * len e). assert (Hi : 0 <= i < 8) by (unfold i; lia). unfold bit_at. rewrite Z.div_small, Z.mod_small by lia.
    cbn [nth Z.to_nat]. rewrite (cbyte_bit e n i) by assumption. destruct (Z.ltb_spec i n) as [D|D].
    + rewrite EC. symmetry. rewrite <- (firstn_skipn (Z.to_nat n) (bits_of (SHA256 e))) at 2. symmetry. apply app_nth1.
      rewrite <- EC. unfold len in LC. lia.
    + symmetry. apply nth_overflow. unfold len in LC. lia.
Qed.
Lemma sentence_packed e n : 4 <= n <= 8 -> len e = 4 * n -> bytes_ok e -> packed (bits_of e ++ checksum e) (e ++ [cbyte e]).
Proof.
  intros Hn He B. pose proof (bits_of_len e) as LB. destruct (checksum_len e n Hn He) as [_ LC].
  split; [apply Forall_app; split; [exact B|constructor; [exact (cbyte_ok e)|constructor]]|].
  rewrite !len_app, LB, LC. change (len [cbyte e]) with 1. split.
  - apply (Z.div_unique _ 8 (len e + 1) (n - 1)); lia.
  - intros k Hk. apply (sentence_bit e n); lia.
Qed.
(** * Decoding *)
Lemma unpack_iff e n idx : 4 <= n <= 8 -> len e = 4 * n -> bytes_ok e -> len idx = 3 * n ->
  base2048_unpack idx = e ++ [cbyte e] <-> pack_bits 11 idx = bits_of e ++ checksum e.
Proof.
  intros Hn He B Li. pose proof (bits_of_len e) as LB. destruct (checksum_len e n Hn He) as [_ LC].
  pose proof (sentence_packed e n Hn He B) as PS. pose proof (unpack_packed idx) as PI. split; intros H.
  - assert (L : len (pack_bits 11 idx) = 33 * n) by (rewrite pack_bits_len; lia).
    apply pack_bits_ext; [unfold len in *; rewrite app_length; lia|]. intros k Hk. destruct PI as (_ & P1 & P2). rewrite <- P2.
    + rewrite H. apply (sentence_bit e n); lia.
    + rewrite H, len_app. change (len [cbyte e]) with 1. lia.
  - apply (packed_unique (pack_bits 11 idx)); [exact PI|]. rewrite H. exact PS.
Qed.
Lemma unpack_split n idx : 4 <= n <= 8 -> len idx = 3 * n ->
  exists e c, base2048_unpack idx = e ++ [c] /\ len e = 4 * n /\ bytes_ok e.
Proof.
  intros Hn Li. destruct (unpack_packed idx) as (B & L & _). rewrite pack_bits_len, Li in L by lia.
  assert (Q : (11 * (3 * n) + 7) / 8 = 4 * n + 1) by (symmetry; apply (Z.div_unique _ 8 (4 * n + 1) (n - 1)); lia). rewrite Q in L.
  set (u := base2048_unpack idx) in *. destruct (@exists_last Z u) as (e & c & E). { intros X. rewrite X in L. change (len (@nil Z)) with 0 in L. lia. }
  exists e, c. rewrite E, len_app in L. change (len [c]) with 1 in L. split; [exact E|]. split; [lia|].
  rewrite E in B. apply Forall_app in B. apply B.
Qed.
(** * Encoding *)
Lemma pack_ok e n : 4 <= n <= 8 -> len e = 4 * n -> bytes_ok e -> let idx := base2048_pack (e ++ [cbyte e]) in
  len idx = 3 * n /\ Forall (fun i => 0 <= i < 2048) idx /\ pack_bits 11 idx = bits_of e ++ checksum e.
Proof.
  intros Hn He B. pose proof (bits_of_len e) as LB. destruct (checksum_len e n Hn He) as [_ LC].
  set (d := e ++ [cbyte e]). assert (Ld : len d = 4 * n + 1) by (unfold d; rewrite len_app; change (len [cbyte e]) with 1; lia).
  assert (E : base2048_pack d = map (fun i => field d (11 * Z.of_nat i) 11) (seq 0 (Z.to_nat (3 * n)))).
  { unfold base2048_pack. assert (C : cover (8 * len d) 11 = if n =? 8 then 24 else 3 * n + 1).
    { unfold cover. rewrite Ld. destruct (Z.eqb_spec n 8) as [->|N]; [reflexivity|].
      symmetry. apply (Z.div_unique _ 11 (3 * n + 1) (8 - n - 1)); lia. }
    rewrite unpack_fresh; [|lia|lia|rewrite C; assert (len d = Z.of_nat (length d)) by reflexivity; destruct (Z.eqb_spec n 8); lia].
    rewrite C, Ld. destruct (Z.eqb_spec n 8) as [->|N]; [reflexivity|].
    assert (M : ((4 * n + 1) * 8) mod 11 = 8 - n) by (symmetry; apply (Z.mod_unique _ 11 (3 * n)); lia). rewrite M.
    destruct (Z.eqb_spec (8 - n) 0) as [X|_]; [lia|].
    replace (Z.to_nat (3 * n + 1)) with (Z.to_nat (3 * n) + 1)%nat by lia. rewrite seq_app, map_app. cbn [seq map Nat.add].
    rewrite last_last, removelast_last.
    assert (F : field d (11 * Z.of_nat (Z.to_nat (3 * n))) 11 = 0).
    { apply Z.bits_inj_0. intros i. destruct (Z.lt_ge_cases i 0) as [I|I]; [apply Z.testbit_neg_r; exact I|].
      destruct (Z.lt_ge_cases i 11) as [J|J].
      - rewrite field_testbit by lia. rewrite Z2Nat.id by lia. set (k := 11 * (3 * n) + (11 - 1 - i)).
        destruct (Z.lt_ge_cases k (32 * n + 8)) as [K|K]; [|apply bit_at_past; lia].
        unfold d. rewrite (sentence_bit e n) by (unfold k in *; lia). apply nth_overflow. rewrite app_length. unfold len in *. unfold k. lia.
      - pose proof (field_range d (11 * Z.of_nat (Z.to_nat (3 * n))) 11 ltac:(lia)) as R. apply (testbit_small _ 11); lia. }
    rewrite F. reflexivity. }
  cbv zeta. fold d. rewrite E. set (idx := map _ _).
  assert (Li : len idx = 3 * n) by (unfold idx, len; rewrite map_length, seq_length; lia).
  split; [exact Li|]. split.
  - unfold idx. apply Forall_map, Forall_forall. intros i _. pose proof (field_range d (11 * Z.of_nat i) 11 ltac:(lia)) as R. change (2 ^ 11) with 2048 in R. exact R.
  - apply pack_bits_ext; [pose proof (pack_bits_len 11 idx ltac:(lia)) as P; unfold len in *; rewrite app_length; lia|].
    intros k Hk. rewrite pack_bits_len, Li in Hk by lia. unfold idx. rewrite unpack_bits_nth by lia. unfold d. apply (sentence_bit e n); lia.
Qed.
End Checksum.

(** * Words *)
Lemma at_nth d i : 0 <= i < len (words_of d) -> dict_at d i = nth (Z.to_nat i) (words_of d) ""%string.
Proof. intros H. unfold dict_at. rewrite (proj2 (Z.ltb_lt _ _)) by lia. reflexivity. Qed.
Lemma at_all d idx : In d dictionaries -> Forall (fun i => 0 <= i < 2048) idx ->
  dict_at_all d idx = map (fun i => nth (Z.to_nat i) (words_of d) ""%string) idx /\ dict_index_all d (dict_at_all d idx) = idx /\
  dict_contains_all d (dict_at_all d idx) = true.
Proof.
  intros I F. pose proof (data_ok d I) as D. pose proof (data_length d I) as L. unfold dict_at_all, dict_index_all, dict_contains_all.
  induction F as [|i idx Hi F (IH1 & IH2 & IH3)]; [repeat split|]. cbn [map forallb]. rewrite IH1 in *. rewrite IH2, IH3.
  rewrite (index_at d i D) by lia. rewrite at_nth by lia. split; [reflexivity|]. split; [reflexivity|].
  rewrite Bool.andb_true_r. unfold dict_contains. rewrite <- at_nth by lia. rewrite (index_at d i D) by lia. lia.
Qed.
Lemma index_all d ws : In d dictionaries -> dict_contains_all d ws = true ->
  Forall (fun i => 0 <= i < 2048) (dict_index_all d ws) /\ dict_at_all d (dict_index_all d ws) = ws /\ len (dict_index_all d ws) = len ws.
Proof.
  intros I F. pose proof (data_ok d I) as D. pose proof (data_length d I) as L. unfold dict_at_all, dict_index_all, dict_contains_all in *.
  rewrite forallb_forall in F. split; [|split; [|unfold len; rewrite map_length; reflexivity]].
  - apply Forall_map, Forall_forall. intros w Hw. specialize (F w Hw). unfold dict_contains in F.
    destruct (index_ok d w D) as [[R _]|[R _]]; lia.
  - rewrite map_map. rewrite <- (map_id ws) at 2. apply map_ext_in. intros w Hw. specialize (F w Hw). unfold dict_contains in F.
    apply at_index; [exact D|lia].
Qed.
