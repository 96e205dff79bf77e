(** C69: Electrum v1 seed words. *)
From Coq Require Import String PeanoNat.
From Verif Require Import Base Bytes MathModel MathSpec MathProofs RadixModel RadixSpec ShaSpec ShaModel AccModel KdfModel KdfProofs KdfProps
  WordsModel WordsProofs WordsV1En WordsV1Pt MnemonicProofs ElectrumModel.

(** * Specification (electrum/old_mnemonic.py): a 32-bit number and its three
    words, in a list of n = 1626 *)
Definition old_triple (v : Z) : list Z :=
  let w1 := v mod 1626 in let w2 := (v / 1626 + w1) mod 1626 in let w3 := (v / 1626 / 1626 + w2) mod 1626 in [w1; w2; w3].
Definition old_value (w1 w2 w3 : Z) : Z := w1 + 1626 * ((w2 - w1) mod 1626) + 1626 * 1626 * ((w3 - w2) mod 1626).
(** the big-endian 32-bit numbers of the entropy *)
Fixpoint numbers (e : list Z) : list Z :=
  match e with a :: b :: c :: d :: rest => be_value [a; b; c; d] :: numbers rest | _ => [] end.
(** the values of the words, three by three *)
Fixpoint old_values (indexes : list Z) : list Z :=
  match indexes with a :: b :: c :: rest => old_value a b c :: old_values rest | _ => [] end.
(** '%08x': at least eight hexadecimal digits, more only if needed *)
Definition hex_digits (n : nat) (v : Z) : list Z := map (fun i => to_base16_character ((v / 16 ^ (Z.of_nat (n - 1 - i))) mod 16)) (seq 0 n).
Definition format_08x (v : Z) : list Z := if v <? 2 ^ 32 then hex_digits 8 v else hex_digits 9 v.

(** * The word lists *)
Lemma v1_checked : match enter_all (fun a _ b _ => negb (language_eqb a b)) (map (fun d => (identifier d, words_of d)) v1_dictionaries) Leaf with Some _ => true | None => false end = true.
Proof. vm_compute. reflexivity. Qed.
Lemma v1_lengths : forallb (fun d => len (words_of d) =? 1626) v1_dictionaries = true.
Proof. vm_compute. reflexivity. Qed.
Global Opaque words_v1_en words_v1_pt.
Lemma v1_ok d : In d v1_dictionaries -> dictionary_ok d /\ len (words_of d) = 1626 /\ to_dictionary v1_dictionaries (identifier d) = Some d /\ identifier d <> none.
Proof.
  intros I. split; [|split; [|]].
  - split.
    + pose proof v1_checked as H. destruct (enter_all _ _ Leaf) as [t|] eqn:E; [|discriminate]. destruct (enter_all_ok _ _ _ _ E) as [_ K].
      apply In_nth_error in I. destruct I as [k Ek].
      assert (Ek' : nth_error (map (fun d => (identifier d, words_of d)) v1_dictionaries) k = Some (identifier d, words_of d)) by (rewrite nth_error_map, Ek; reflexivity).
      assert (NR : forall l, negb (language_eqb l l) = false) by (intros []; reflexivity).
      apply NoDup_nth_error. intros i j Hi Eij. destruct (nth_error (words_of d) i) as [w|] eqn:Ei; [|apply nth_error_Some in Hi; contradiction].
      destruct (Nat.lt_trichotomy i j) as [L|[L|L]]; [exfalso|exact L|exfalso].
      * destruct (K k _ _ Ek' j w (eq_sym Eij)) as (_ & Q & _). specialize (Q i L Ei). rewrite NR in Q. discriminate.
      * destruct (K k _ _ Ek' i w Ei) as (_ & Q & _). specialize (Q j L (eq_sym Eij)). rewrite NR in Q. discriminate.
    + unfold v1_dictionaries in I. cbn [In] in I. destruct I as [<-|[<-|[]]]; discriminate.
  - pose proof v1_lengths as H. rewrite forallb_forall in H. apply Z.eqb_eq. apply (H d I).
  - unfold v1_dictionaries in *. cbn [In] in I. destruct I as [<-|[<-|[]]]; (split; [reflexivity|discriminate]).
Qed.
Lemma v1_in id d : to_dictionary v1_dictionaries id = Some d -> In d v1_dictionaries /\ identifier d = id.
Proof.
  unfold to_dictionary. intros H. apply find_some in H. destruct H as [I E]. split; [exact I|]. destruct (identifier d), id; try discriminate E; reflexivity.
Qed.
Lemma v1_at_all d idx : In d v1_dictionaries -> Forall (fun i => 0 <= i < 1626) idx ->
  dict_at_all d idx = map (fun i => nth (Z.to_nat i) (words_of d) ""%string) idx /\ dict_index_all d (dict_at_all d idx) = idx /\
  dict_contains_all d (dict_at_all d idx) = true.
Proof.
  intros I F. destruct (v1_ok d I) as (D & L & _). unfold dict_at_all, dict_index_all, dict_contains_all.
  induction F as [|i idx Hi F (IH1 & IH2 & IH3)]; [repeat split|]. cbn [map forallb]. rewrite IH1 in *. rewrite IH2, IH3.
  rewrite (index_at d i D) by lia. rewrite at_nth by lia. split; [reflexivity|]. split; [reflexivity|].
  rewrite Bool.andb_true_r. unfold dict_contains. rewrite <- at_nth by lia. rewrite (index_at d i D) by lia. lia.
Qed.
Lemma v1_index_all d ws : In d v1_dictionaries -> dict_contains_all d ws = true ->
  Forall (fun i => 0 <= i < 1626) (dict_index_all d ws) /\ dict_at_all d (dict_index_all d ws) = ws /\ len (dict_index_all d ws) = len ws.
Proof.
  intros I F. destruct (v1_ok d I) as (D & L & _). unfold dict_at_all, dict_index_all, dict_contains_all in *.
  rewrite forallb_forall in F. split; [|split; [|unfold len; rewrite map_length; reflexivity]].
  - apply Forall_map, Forall_forall. intros w Hw. specialize (F w Hw). unfold dict_contains in F. destruct (index_ok d w D) as [[R _]|[R _]]; lia.
  - rewrite map_map. rewrite <- (map_id ws) at 2. apply map_ext_in. intros w Hw. specialize (F w Hw). unfold dict_contains in F. apply at_index; [exact D|lia].
Qed.

(** * Arithmetic *)
Lemma fits_small v : - 2 ^ 40 < v < 2 ^ 40 -> fits i64 v.
Proof. intros H. apply fits_signed; [reflexivity|]. cbn. lia. Qed.
Lemma to_triple_ok v : 0 <= v < 2 ^ 40 -> to_triple v = Some (old_triple v).
Proof.
  intros H. unfold to_triple, size0, size1, size2. rewrite !floored_divide_eq by (first [reflexivity|discriminate|apply fits_small; lia|intros; discriminate|intros [? ?]; lia|lia]).
  cbn [obind]. unfold old_triple. rewrite Z.div_1_r, Z.add_0_r, Z.div_div by lia. reflexivity.
Qed.
Lemma from_triple_ok a b c : 0 <= a < 1626 -> 0 <= b < 1626 -> 0 <= c < 1626 -> from_triple a b c = Some (old_value a b c).
Proof.
  intros Ha Hb Hc. unfold from_triple, size0, size1, size2. rewrite !floored_modulo_eq by (first [reflexivity|discriminate|apply fits_small; lia|intros; discriminate|intros [? ?]; lia|lia]).
  cbn [obind]. unfold old_value. f_equal. rewrite Z.sub_0_r, (Z.mod_small a) by lia. lia.
Qed.
Lemma triple_range v : Forall (fun i => 0 <= i < 1626) (old_triple v).
Proof. unfold old_triple. repeat constructor; apply Z.mod_pos_bound; lia. Qed.
Lemma value_triple v : 0 <= v < 1626 ^ 3 -> match old_triple v with [a; b; c] => old_value a b c = v | _ => False end.
Proof.
  intros H. unfold old_triple, old_value. set (w1 := v mod 1626). set (q := v / 1626). set (w2 := (q + w1) mod 1626).
  rewrite !Zminus_mod_idemp_l. replace (q + w1 - w1) with q by lia. replace (q / 1626 + w2 - w2) with (q / 1626) by lia.
  assert (Q : 0 <= q < 1626 * 1626) by (unfold q; split; [apply Z.div_pos; lia|apply Z.div_lt_upper_bound; lia]).
  rewrite (Z.mod_small (q / 1626)) by (split; [apply Z.div_pos; lia|apply Z.div_lt_upper_bound; lia]).
  pose proof (Z.div_mod v 1626 ltac:(lia)). pose proof (Z.div_mod q 1626 ltac:(lia)). fold q w1 in H0. lia.
Qed.
Lemma value_range a b c : 0 <= a < 1626 -> 0 <= old_value a b c < 1626 ^ 3.
Proof.
  intros Ha. unfold old_value. pose proof (Z.mod_pos_bound (b - a) 1626 ltac:(lia)). pose proof (Z.mod_pos_bound (c - b) 1626 ltac:(lia)). lia.
Qed.
Lemma triple_value a b c : 0 <= a < 1626 -> 0 <= b < 1626 -> 0 <= c < 1626 -> old_triple (old_value a b c) = [a; b; c].
Proof.
  intros Ha Hb Hc. unfold old_triple, old_value. set (x := (b - a) mod 1626). set (y := (c - b) mod 1626).
  assert (Hx : 0 <= x < 1626) by (apply Z.mod_pos_bound; lia). assert (Hy : 0 <= y < 1626) by (apply Z.mod_pos_bound; lia).
  assert (E1 : (a + 1626 * x + 1626 * 1626 * y) mod 1626 = a) by (symmetry; apply (Z.mod_unique _ 1626 (x + 1626 * y)); lia).
  assert (E2 : (a + 1626 * x + 1626 * 1626 * y) / 1626 = x + 1626 * y) by (symmetry; apply (Z.div_unique _ 1626 _ a); lia).
  assert (E3 : (x + 1626 * y) / 1626 = y) by (symmetry; apply (Z.div_unique _ 1626 _ x); lia).
  cbv zeta. rewrite E1, E2, E3.
  assert (E4 : (x + 1626 * y + a) mod 1626 = b).
  { replace (x + 1626 * y + a) with (x + a + y * 1626) by lia. rewrite Z.mod_add by lia. unfold x. rewrite Zplus_mod_idemp_l. replace (b - a + a) with b by lia. apply Z.mod_small. lia. }
  rewrite E4. unfold y. rewrite Zplus_mod_idemp_l. replace (c - b + b) with c by lia. rewrite (Z.mod_small c) by lia. reflexivity.
Qed.

(** * Groups *)
Lemma be4_range a b c d : bytes_ok [a; b; c; d] -> 0 <= be_value [a; b; c; d] < 2 ^ 32.
Proof. intros B. unfold be_value. pose proof (le_value_range (rev [a; b; c; d])) as R. apply R. apply Forall_rev. exact B. Qed.
Lemma numbers_len e : len e mod 4 = 0 -> 4 * len (numbers e) = len e.
Proof.
  revert e. apply RadixProofs4.quad_ind; [reflexivity|]. intros a b c d l IH. cbn [numbers]. rewrite !len_cons. lia.
Qed.
Lemma numbers_range e : len e mod 4 = 0 -> bytes_ok e -> Forall (fun v => 0 <= v < 2 ^ 32) (numbers e).
Proof.
  revert e. apply (RadixProofs4.quad_ind (fun e => bytes_ok e -> Forall (fun v => 0 <= v < 2 ^ 32) (numbers e))); [constructor|].
  intros a b c d l IH B. change (a :: b :: c :: d :: l) with ([a; b; c; d] ++ l) in B. apply Forall_app in B. destruct B as [B1 B2].
  cbn [numbers]. constructor; [apply be4_range; exact B1|apply IH; exact B2].
Qed.
Lemma indexes_ok e : len e mod 4 = 0 -> bytes_ok e -> v1_indexes e = Some (flat_map old_triple (numbers e)).
Proof.
  revert e. apply (RadixProofs4.quad_ind (fun e => bytes_ok e -> v1_indexes e = Some (flat_map old_triple (numbers e)))); [reflexivity|].
  intros a b c d l IH B. change (a :: b :: c :: d :: l) with ([a; b; c; d] ++ l) in B. apply Forall_app in B. destruct B as [B1 B2].
  cbn [v1_indexes numbers flat_map]. pose proof (be4_range _ _ _ _ B1). rewrite to_triple_ok by lia. cbn [obind]. rewrite (IH B2). reflexivity.
Qed.
Lemma numbers_bytes e : len e mod 4 = 0 -> bytes_ok e -> flat_map (be_bytes 4) (numbers e) = e.
Proof.
  revert e. apply (RadixProofs4.quad_ind (fun e => bytes_ok e -> flat_map (be_bytes 4) (numbers e) = e)); [reflexivity|].
  intros a b c d l IH B. change (a :: b :: c :: d :: l) with ([a; b; c; d] ++ l) in B. apply Forall_app in B. destruct B as [B1 B2].
  cbn [numbers flat_map]. rewrite (IH B2). pose proof (be_bytes_value [a; b; c; d] B1) as E. cbn [length] in E. rewrite E. reflexivity.
Qed.
Lemma bytes_numbers vs : Forall (fun v => 0 <= v < 2 ^ 32) vs -> numbers (flat_map (be_bytes 4) vs) = vs.
Proof.
  induction 1 as [|v vs Hv F IH]; [reflexivity|]. cbn [flat_map].
  assert (E : exists a b c d, be_bytes 4 v = [a; b; c; d]) by (unfold be_bytes; cbn [le_bytes rev app]; eauto). destruct E as (a & b & c & d & E).
  rewrite E. cbn [app numbers]. rewrite IH. f_equal. rewrite <- E. apply be_value_bytes_small. cbn [Z.of_nat Pos.of_succ_nat Pos.succ]. lia.
Qed.
Lemma bytes_numbers_ok vs : bytes_ok (flat_map (be_bytes 4) vs) /\ len (flat_map (be_bytes 4) vs) = 4 * len vs.
Proof.
  induction vs as [|v vs [IH1 IH2]]; [split; [constructor|reflexivity]|]. cbn [flat_map]. split.
  - apply Forall_app. split; [apply Forall_rev; apply le_bytes_ok|exact IH1].
  - rewrite len_app, len_cons, IH2. unfold len at 1. unfold be_bytes. rewrite rev_length, le_bytes_length. lia.
Qed.
Lemma three_ind (P : list Z -> Prop) : P [] -> (forall a b c l, P l -> P (a :: b :: c :: l)) -> forall l, len l mod 3 = 0 -> P l.
Proof.
  intros H0 H3. assert (G : forall n l, (length l <= n)%nat -> len l mod 3 = 0 -> P l).
  { induction n as [|n IH]; intros l L E; [destruct l; [exact H0|cbn in L; lia]|].
    destruct l as [|a [|b [|c l]]]; [exact H0|discriminate..|]. apply H3. apply IH; [cbn in L; lia|].
    rewrite !len_cons in E. replace (1 + (1 + (1 + len l))) with (len l + 1 * 3) in E by lia. rewrite Z.mod_add in E by lia. exact E. }
  intros l. apply (G (length l)). lia.
Qed.
Lemma values_triples ns : Forall (fun v => 0 <= v < 2 ^ 32) ns -> old_values (flat_map old_triple ns) = ns /\ Forall (fun i => 0 <= i < 1626) (flat_map old_triple ns) /\ len (flat_map old_triple ns) = 3 * len ns.
Proof.
  induction 1 as [|v ns Hv F (IH1 & IH2 & IH3)]; [repeat split; constructor|]. cbn [flat_map]. pose proof (value_triple v ltac:(lia)) as V. pose proof (triple_range v) as R.
  destruct (old_triple v) as [|a [|b [|c [|]]]]; try contradiction. split; [cbn [app old_values]; rewrite V, IH1; reflexivity|].
  split; [apply Forall_app; split; assumption|]. rewrite len_app, IH3. change (len [a; b; c]) with 3. rewrite len_cons. lia.
Qed.
Lemma triples_values idx : len idx mod 3 = 0 -> Forall (fun i => 0 <= i < 1626) idx ->
  flat_map old_triple (old_values idx) = idx /\ Forall (fun v => 0 <= v < 1626 ^ 3) (old_values idx) /\ len idx = 3 * len (old_values idx).
Proof.
  revert idx. apply (three_ind (fun idx => Forall (fun i => 0 <= i < 1626) idx ->
    flat_map old_triple (old_values idx) = idx /\ Forall (fun v => 0 <= v < 1626 ^ 3) (old_values idx) /\ len idx = 3 * len (old_values idx))).
  - intros _. repeat split; constructor.
  - intros a b c l IH F. pose proof (Forall_inv F) as Ha. pose proof (Forall_inv (Forall_inv_tail F)) as Hb. pose proof (Forall_inv (Forall_inv_tail (Forall_inv_tail F))) as Hc.
    destruct (IH (Forall_inv_tail (Forall_inv_tail (Forall_inv_tail F)))) as (I1 & I2 & I3). cbv beta in *. cbn [old_values flat_map]. rewrite triple_value by assumption. rewrite I1.
    split; [reflexivity|]. split; [constructor; [apply value_range; exact Ha|exact I2]|]. rewrite !len_cons. lia.
Qed.
Lemma decode_ok idx : len idx mod 3 = 0 -> Forall (fun i => 0 <= i < 1626) idx ->
  v1_decode idx = Some (flat_map (be_bytes 4) (map (fun v => v mod 2 ^ 32) (old_values idx)), map (fun v => 2 ^ 32 <=? v) (old_values idx)).
Proof.
  revert idx. apply (three_ind (fun idx => Forall (fun i => 0 <= i < 1626) idx ->
    v1_decode idx = Some (flat_map (be_bytes 4) (map (fun v => v mod 2 ^ 32) (old_values idx)), map (fun v => 2 ^ 32 <=? v) (old_values idx)))); [reflexivity|].
  intros a b c l IH F. pose proof (Forall_inv F) as Ha. pose proof (Forall_inv (Forall_inv_tail F)) as Hb. pose proof (Forall_inv (Forall_inv_tail (Forall_inv_tail F))) as Hc.
  specialize (IH (Forall_inv_tail (Forall_inv_tail (Forall_inv_tail F)))). cbv beta in *. cbn [v1_decode]. rewrite from_triple_ok by assumption. cbn [obind]. rewrite IH. cbn [obind fst snd].
  cbn [old_values map flat_map]. f_equal. f_equal. f_equal. set (v := old_value a b c). destruct (Z.ltb_spec (2 ^ 32 - 1) v), (Z.leb_spec (2 ^ 32) v); (reflexivity || lia).
Qed.
(** * Text *)
Lemma hex_bytes v : 0 <= v < 2 ^ 32 -> encode_base16 (be_bytes 4 v) = hex_digits 8 v.
Proof.
  intros H. unfold be_bytes. cbn [le_bytes rev app]. unfold encode_base16, hex_digits. cbn [flat_map app seq map Nat.sub].
  assert (HI : forall x, 0 <= x -> to_base16_hi_character (x mod 256) = to_base16_character ((x / 16) mod 16)).
  { intros x Hx. unfold to_base16_hi_character. f_equal. rewrite Z.shiftr_div_pow2 by lia. change (2 ^ 4) with 16.
    pose proof (Z.div_mod x 256 ltac:(lia)). pose proof (Z.mod_pos_bound x 256 ltac:(lia)).
    replace (x / 16) with (x mod 256 / 16 + x / 256 * 16).
    - rewrite Z.mod_add by lia. symmetry. apply Z.mod_small. split; [apply Z.div_pos; lia|apply Z.div_lt_upper_bound; lia].
    - rewrite <- Z.div_add by lia. f_equal. lia. }
  assert (LO : forall x, to_base16_lo_character (x mod 256) = to_base16_character (x mod 16)).
  { intros x. unfold to_base16_lo_character. f_equal. change 15 with (Z.ones 4). rewrite Z.land_ones by lia. change (2 ^ 4) with 16.
    rewrite (Z.div_mod x 256) at 2 by lia. replace (256 * (x / 256) + x mod 256) with (x mod 256 + (16 * (x / 256)) * 16) by lia. rewrite Z.mod_add by lia. reflexivity. }
  assert (P1 : 0 <= v / 256) by (apply Z.div_pos; lia). assert (P2 : 0 <= v / 256 / 256) by (apply Z.div_pos; lia). assert (P3 : 0 <= v / 256 / 256 / 256) by (apply Z.div_pos; lia).
  rewrite !HI, !LO by lia. rewrite !Z.div_div by lia. cbn [Z.of_nat Pos.of_succ_nat Pos.succ]. rewrite Z.pow_0_r, Z.div_1_r. reflexivity.
Qed.
Lemma hex_overflow v : 2 ^ 32 <= v < 1626 ^ 3 -> 49 :: encode_base16 (be_bytes 4 (v mod 2 ^ 32)) = hex_digits 9 v.
Proof.
  intros H. assert (E : v mod 2 ^ 32 = v - 2 ^ 32) by (symmetry; apply (Z.mod_unique _ (2 ^ 32) 1); lia). rewrite E. rewrite hex_bytes by lia.
  unfold hex_digits. cbn [seq map Nat.sub Z.of_nat Pos.of_succ_nat Pos.succ].
  assert (T : v / 16 ^ 8 = 1) by (symmetry; apply (Z.div_unique _ _ 1 (v - 2 ^ 32)); lia). rewrite T. change (49 :: ?l) with (to_base16_character (1 mod 16) :: l). f_equal.
  assert (Dg : forall k, 0 <= k <= 7 -> ((v - 2 ^ 32) / 16 ^ k) mod 16 = (v / 16 ^ k) mod 16).
  { intros k Hk. assert (X : 2 ^ 32 = 16 ^ (7 - k) * 16 * 16 ^ k) by (change 16 with (16 ^ 1) at 2; rewrite <- !Z.pow_add_r by lia; replace (7 - k + 1 + k) with 8 by lia; reflexivity).
    rewrite X. replace (v - 16 ^ (7 - k) * 16 * 16 ^ k) with (v + (- (16 ^ (7 - k) * 16)) * 16 ^ k) by lia. rewrite Z.div_add by lia.
    replace (v / 16 ^ k + - (16 ^ (7 - k) * 16)) with (v / 16 ^ k + (- 16 ^ (7 - k)) * 16) by lia. apply Z.mod_add. lia. }
  rewrite !Dg by lia. reflexivity.
Qed.
Lemma v1_hex_ok vs : Forall (fun v => 0 <= v < 1626 ^ 3) vs ->
  v1_hex (flat_map (be_bytes 4) (map (fun v => v mod 2 ^ 32) vs)) (map (fun v => 2 ^ 32 <=? v) vs) = flat_map format_08x vs.
Proof.
  induction 1 as [|v vs Hv F IH]; [reflexivity|]. cbn [map flat_map v1_hex].
  assert (L : length (be_bytes 4 (v mod 2 ^ 32)) = 4%nat) by (unfold be_bytes; rewrite rev_length, le_bytes_length; reflexivity).
  rewrite firstn_app, skipn_app, L. rewrite firstn_all2, skipn_all2 by lia. rewrite Nat.sub_diag, firstn_O, skipn_O, app_nil_r. cbn [app]. rewrite IH.
  rewrite app_assoc. f_equal. unfold format_08x. destruct (Z.leb_spec (2 ^ 32) v) as [C|C], (Z.ltb_spec v (2 ^ 32)) as [C'|C']; try lia.
  - apply hex_overflow. lia.
  - cbn [app]. rewrite Z.mod_small by lia. apply hex_bytes. lia.
Qed.

(** * Theorems *)
Definition v1_entropy_ok (e : list Z) : Prop := bytes_ok e /\ (len e = 16 \/ len e = 32).
Lemma v1_size (e : list Z) : v1_valid_entropy_size (len e) = true <-> len e = 16 \/ len e = 32.
Proof. unfold v1_valid_entropy_size. lia. Qed.
Lemma mod4 (n : Z) : n = 16 \/ n = 32 -> n mod 4 = 0. Proof. intros [->| ->]; reflexivity. Qed.
Lemma mod3 (n : Z) : n = 12 \/ n = 24 -> n mod 3 = 0. Proof. intros [->| ->]; reflexivity. Qed.

(** Entropy to words: Electrum's. *)
Theorem C69_from_entropy e id m : bytes_ok e ->
  (v1_from_entropy e id = Some m <->
   (len e = 16 \/ len e = 32) /\ v1_entropy m = e /\ v1_overflows m = [] /\ v1_lingo m = id /\
   exists d, In d v1_dictionaries /\ identifier d = id /\
     v1_words m = map (fun i => nth (Z.to_nat i) (words_of d) ""%string) (flat_map old_triple (numbers e))).
Proof.
  intros B. unfold v1_from_entropy.
  assert (W : forall d, In d v1_dictionaries -> len e = 16 \/ len e = 32 -> v1_encoder e (identifier d) =
     Some (map (fun i => nth (Z.to_nat i) (words_of d) ""%string) (flat_map old_triple (numbers e)))).
  { intros d I L. unfold v1_encoder. rewrite indexes_ok by (try apply mod4; assumption). cbn [omap]. f_equal. unfold dicts_at.
    destruct (v1_ok d I) as (_ & _ & -> & _). destruct (values_triples (numbers e)) as (_ & R & _); [apply numbers_range; [apply mod4; exact L|exact B]|].
    apply (v1_at_all d _ I R). }
  split.
  - intros H. destruct (v1_valid_entropy_size (len e)) eqn:V; [|discriminate]. apply v1_size in V. cbn [negb] in H. unfold dicts_exists in H.
    destruct (to_dictionary v1_dictionaries id) as [d|] eqn:T; [|discriminate]. apply v1_in in T. destruct T as [I <-]. cbn [negb] in H. rewrite (W d I V) in H. cbn [obind] in H.
    split; [exact V|]. assert (X : m = mkelectrum e [] (map (fun i => nth (Z.to_nat i) (words_of d) ""%string) (flat_map old_triple (numbers e))) (identifier d)) by congruence.
    subst m. cbn [v1_entropy v1_overflows v1_lingo v1_words]. repeat (split; [reflexivity|]). exists d. auto.
  - intros (L & <- & O & <- & d & I & Ed & Ew). rewrite (proj2 (v1_size _) L). cbn [negb]. unfold dicts_exists. rewrite <- Ed. destruct (v1_ok d I) as (_ & _ & -> & _). cbn [negb].
    rewrite (W d I L). cbn [obind]. destruct m as [e o ws l]. cbn [v1_entropy v1_overflows v1_lingo v1_words] in *. subst. reflexivity.
Qed.
Print Assumptions C69_from_entropy.

(** Words to entropy, for a given language: any 12 or 24 words of the list are
    accepted, with their values (three words each) as entropy and the values
    that exceed 32 bits flagged. *)
Theorem C69_from_words normal ws id m : id <> none ->
  (v1_from_words normal ws id = Some m <->
   (len ws = 12 \/ len ws = 24) /\ v1_words m = map normal ws /\ v1_lingo m = id /\
   exists d, In d v1_dictionaries /\ identifier d = id /\ (forall w, In w (map normal ws) -> In w (words_of d)) /\
     let values := old_values (map (dict_index d) (map normal ws)) in
     v1_entropy m = flat_map (be_bytes 4) (map (fun v => v mod 2 ^ 32) values) /\ v1_overflows m = map (fun v => 2 ^ 32 <=? v) values).
Proof.
  intros N. set (ts := map normal ws). assert (Lt : len ts = len ws) by (unfold ts, len; rewrite map_length; reflexivity).
  assert (NB : language_eqb id none = false) by (destruct id; try reflexivity; contradiction).
  assert (RB : forall l, language_eqb l l = true) by (intros []; reflexivity).
  assert (VC : v1_valid_word_count (len ws) = true <-> len ws = 12 \/ len ws = 24) by (unfold v1_valid_word_count; lia).
  assert (CA : forall d, In d v1_dictionaries -> dict_contains_all d ts = true <-> forall w, In w ts -> In w (words_of d)).
  { intros d I. unfold dict_contains_all. rewrite forallb_forall. destruct (v1_ok d I) as (D & _). split; intros H w Hw; apply (contains_ok d w D); apply H; exact Hw. }
  assert (DE : forall d, In d v1_dictionaries -> dict_contains_all d ts = true -> len ws = 12 \/ len ws = 24 -> v1_decoder ts (identifier d) =
    let values := old_values (map (dict_index d) ts) in Some (flat_map (be_bytes 4) (map (fun v => v mod 2 ^ 32) values), map (fun v => 2 ^ 32 <=? v) values)).
  { intros d I C L. unfold v1_decoder, dicts_index. destruct (v1_ok d I) as (_ & _ & -> & _). destruct (v1_index_all d ts I C) as (R & _ & Ln).
    apply decode_ok; [|exact R]. fold (dict_index_all d ts). rewrite Ln, Lt. apply mod3. exact L. }
  unfold v1_from_words. fold ts. unfold dicts_contains. rewrite NB. cbn [negb]. cbv zeta in *. split.
  - intros H. destruct (v1_valid_word_count (len ws)); [|discriminate]. assert (L := proj1 VC eq_refl). cbn [negb] in H. split; [exact L|].
    destruct (to_dictionary v1_dictionaries id) as [d|] eqn:T; [|discriminate H]. apply v1_in in T. destruct T as [I <-].
    destruct (dict_contains_all d ts) eqn:C; [|discriminate H]. rewrite NB, RB in H. cbn [negb andb] in H. rewrite (DE d I C L) in H. cbn [obind fst snd] in H.
    destruct m as [e o w l]. cbn [v1_entropy v1_overflows v1_lingo v1_words]. assert (Q1 := f_equal (fun x => match x with Some y => v1_words y | None => [] end) H).
    assert (Q2 := f_equal (fun x => match x with Some y => v1_lingo y | None => none end) H). assert (Q3 := f_equal (fun x => match x with Some y => v1_entropy y | None => [] end) H).
    assert (Q4 := f_equal (fun x => match x with Some y => v1_overflows y | None => [] end) H). cbv beta iota in Q1, Q2, Q3, Q4. cbn [v1_entropy v1_overflows v1_lingo v1_words] in *.
    split; [auto|]. split; [auto|]. exists d. split; [exact I|]. split; [reflexivity|]. split; [apply (CA d I); exact C|]. auto.
  - intros (L & W & Lg & d & I & Ed & A & E & O). rewrite (proj2 VC L). cbn [negb]. rewrite <- Ed in *. destruct (v1_ok d I) as (_ & _ & -> & _).
    apply (CA d I) in A. rewrite A, NB, RB. cbn [negb andb]. rewrite (DE d I A L). cbn [obind fst snd]. destruct m as [e o w l]. cbn [v1_entropy v1_overflows v1_lingo v1_words] in *. subst. reflexivity.
Qed.
Print Assumptions C69_from_words.

Lemma v1_unnormal normal (ws : list string) d : (forall d w, In d v1_dictionaries -> In w (words_of d) -> normal w = w) -> In d v1_dictionaries ->
  (forall w, In w ws -> In w (words_of d)) -> map normal ws = ws.
Proof. intros Hn I A. rewrite <- (map_id ws) at 2. apply map_ext_in. intros w Hw. apply (Hn d w I). apply A. exact Hw. Qed.
Lemma Forall_nth_in (d : dictionary) (idx : list Z) : In d v1_dictionaries -> Forall (fun i => 0 <= i < 1626) idx ->
  forall w, In w (map (fun i => nth (Z.to_nat i) (words_of d) ""%string) idx) -> In w (words_of d).
Proof.
  intros I F w Hw. apply in_map_iff in Hw. destruct Hw as (i & <- & Hi). rewrite Forall_forall in F. specialize (F i Hi). destruct (v1_ok d I) as (_ & L & _).
  apply nth_In. unfold len in L. lia.
Qed.
(** Entropy survives the trip through words. *)
Theorem C69_round_trip normal e id m : bytes_ok e -> (forall d w, In d v1_dictionaries -> In w (words_of d) -> normal w = w) ->
  v1_from_entropy e id = Some m ->
  exists m', v1_from_words normal (v1_words m) id = Some m' /\ v1_entropy m' = e /\ v1_words m' = v1_words m /\ v1_overflow m' = false.
Proof.
  intros B Hn H. apply (C69_from_entropy e id m B) in H. destruct H as (L & E & _ & Lg & d & I & Ed & W).
  assert (NR := numbers_range e (mod4 _ L) B). destruct (values_triples _ NR) as (V & R & Ln). destruct (v1_at_all d _ I R) as (A1 & A2 & _).
  assert (WI := Forall_nth_in d _ I R). rewrite <- W in WI. assert (T := v1_unnormal normal _ d Hn I WI).
  assert (LW : len (v1_words m) = 12 \/ len (v1_words m) = 24).
  { rewrite W. unfold len at 1 2. rewrite map_length. fold (len (flat_map old_triple (numbers e))). rewrite Ln. pose proof (numbers_len e (mod4 _ L)). lia. }
  assert (IX : map (dict_index d) (v1_words m) = flat_map old_triple (numbers e)) by (rewrite W, <- A1; exact A2).
  exists (mkelectrum e (map (fun v => 2 ^ 32 <=? v) (numbers e)) (v1_words m) id). split.
  - apply C69_from_words; [rewrite <- Ed; apply (v1_ok d I)|]. rewrite T. cbn [v1_entropy v1_overflows v1_lingo v1_words]. split; [exact LW|]. split; [reflexivity|]. split; [reflexivity|].
    exists d. split; [exact I|]. split; [exact Ed|]. split; [exact WI|]. cbv zeta. rewrite IX, V. split; [|reflexivity].
    rewrite <- (numbers_bytes e (mod4 _ L) B) at 1. f_equal. rewrite <- (map_id (numbers e)) at 1. apply map_ext_in. intros v Hv. symmetry. apply Z.mod_small.
    rewrite Forall_forall in NR. apply NR. exact Hv.
  - split; [reflexivity|]. split; [reflexivity|]. unfold v1_overflow. cbn [v1_overflows]. clear -NR. induction NR as [|v l Hv F IH]; [reflexivity|]. cbn [map existsb]. rewrite IH. lia.
Qed.
Print Assumptions C69_round_trip.

(** Words survive the trip through entropy exactly when no value overflows; with
    an overflow they are not the words of any entropy. *)
Theorem C69_words_round_trip normal ws id m : id <> none -> v1_from_words normal ws id = Some m ->
  (v1_overflow m = false -> exists m', v1_from_entropy (v1_entropy m) id = Some m' /\ v1_words m' = v1_words m) /\
  (v1_overflow m = true -> forall e m', bytes_ok e -> v1_from_entropy e id = Some m' -> v1_words m' <> v1_words m).
Proof.
  intros N H. apply (C69_from_words normal ws id m N) in H. destruct H as (L & W & Lg & d & I & Ed & A & E & O). set (ts := map normal ws) in *.
  assert (Lt : len ts = len ws) by (unfold ts, len; rewrite map_length; reflexivity).
  assert (CA : dict_contains_all d ts = true).
  { unfold dict_contains_all. rewrite forallb_forall. intros w Hw. apply (contains_ok d w (proj1 (v1_ok d I))). apply A. exact Hw. }
  destruct (v1_index_all d ts I CA) as (R & AT & Ln). unfold dict_index_all in *. set (idx := map (dict_index d) ts) in *.
  destruct (triples_values idx) as (TV & VR & L3); [rewrite Ln, Lt; apply mod3; exact L|exact R|].
  assert (OE : v1_overflow m = existsb (fun v => 2 ^ 32 <=? v) (old_values idx)).
  { unfold v1_overflow. rewrite O. clear. induction (old_values idx) as [|v l IH]; [reflexivity|]. cbn [map existsb]. rewrite IH. reflexivity. }
  split; intros Ov; rewrite OE in Ov.
  - assert (SR : Forall (fun v => 0 <= v < 2 ^ 32) (old_values idx)).
    { clear -VR Ov. induction VR as [|v l Hv F IH]; [constructor|]. cbn [existsb] in Ov. apply Bool.orb_false_iff in Ov. destruct Ov as [O1 O2]. constructor; [lia|apply IH; exact O2]. }
    assert (ME : map (fun v => v mod 2 ^ 32) (old_values idx) = old_values idx).
    { rewrite <- (map_id (old_values idx)) at 2. apply map_ext_in. intros v Hv. rewrite Forall_forall in SR. apply Z.mod_small. apply SR. exact Hv. }
    rewrite ME in E. destruct (bytes_numbers_ok (old_values idx)) as [B Lb].
    exists (mkelectrum (v1_entropy m) [] (v1_words m) id). split; [|reflexivity]. apply C69_from_entropy; [rewrite E; exact B|]. cbn [v1_entropy v1_overflows v1_lingo v1_words].
    split; [rewrite E, Lb; lia|]. split; [reflexivity|]. split; [reflexivity|]. split; [reflexivity|]. exists d. split; [exact I|]. split; [exact Ed|].
    rewrite W, E, bytes_numbers, TV by exact SR. rewrite <- AT at 1. apply (v1_at_all d idx I R).
  - intros e m' B He X. apply (C69_from_entropy e id m' B) in He. destruct He as (Le & _ & _ & _ & d' & I' & Ed' & W').
    assert (d' = d). { destruct (v1_ok d I) as (_ & _ & T1 & _). destruct (v1_ok d' I') as (_ & _ & T2 & _). rewrite Ed in T1. rewrite Ed' in T2. congruence. } subst d'.
    assert (NR := numbers_range e (mod4 _ Le) B). destruct (values_triples _ NR) as (V & R' & _). destruct (v1_at_all d _ I R') as (A1 & A2 & _).
    assert (IX : idx = flat_map old_triple (numbers e)). { unfold idx. rewrite <- W, <- X, W', <- A1. exact A2. }
    rewrite IX, V in Ov. apply existsb_exists in Ov. destruct Ov as (v & Hv & Ov). rewrite Forall_forall in NR. specialize (NR v Hv). lia.
Qed.
Print Assumptions C69_words_round_trip.

(** The seed text is the concatenation of the values in Electrum's format. *)
Theorem C69_seed_text normal ws id m : id <> none -> v1_from_words normal ws id = Some m ->
  exists d, In d v1_dictionaries /\ identifier d = id /\
  seed_entropy (v1_entropy m) (v1_overflows m) = flat_map format_08x (old_values (map (dict_index d) (map normal ws))).
Proof.
  intros N H. apply (C69_from_words normal ws id m N) in H. destruct H as (L & W & Lg & d & I & Ed & A & E & O). exists d. split; [exact I|]. split; [exact Ed|].
  set (ts := map normal ws) in *. assert (Lt : len ts = len ws) by (unfold ts, len; rewrite map_length; reflexivity).
  assert (CA : dict_contains_all d ts = true).
  { unfold dict_contains_all. rewrite forallb_forall. intros w Hw. apply (contains_ok d w (proj1 (v1_ok d I))). apply A. exact Hw. }
  destruct (v1_index_all d ts I CA) as (R & AT & Ln). unfold dict_index_all in *. set (idx := map (dict_index d) ts) in *.
  destruct (triples_values idx) as (TV & VR & L3); [rewrite Ln, Lt; apply mod3; exact L|exact R|].
  unfold seed_entropy. assert (LO : len (v1_overflows m) = len (old_values idx)) by (rewrite O; unfold len; rewrite map_length; reflexivity).
  assert (LE : len (v1_entropy m) = 4 * len (old_values idx)).
  { rewrite E. destruct (bytes_numbers_ok (map (fun v => v mod 2 ^ 32) (old_values idx))) as [_ ->]. unfold len. rewrite map_length. reflexivity. }
  destruct (v1_overflows m) as [|o os] eqn:Om; [change (len (@nil bool)) with 0 in LO; lia|]. rewrite <- Om in *. rewrite LO, LE. replace (len (old_values idx) * 4 =? 4 * len (old_values idx)) with true by lia.
  cbn [negb]. rewrite E, O. apply v1_hex_ok. exact VR.
Qed.
Print Assumptions C69_seed_text.

(** Stretching: 100000 rounds of SHA-256 over the previous digest and the text. *)
Theorem C69_stretch checked s8 widths seed : 0 < len seed < 2 ^ 59 ->
  strecher checked s8 widths seed = Nat.iter (Z.to_nat 100000) (fun x => SHA256 (x ++ seed)) seed.
Proof.
  intros Hs. unfold strecher. destruct (lib_hashed _ _ _ _ (lib_sha256 s8 widths)) as [Ha _]. generalize (Z.to_nat 100000). intros n.
  assert (G : forall m x, len x <= Z.max 32 (len seed) -> fold_left (fun streched _ => hash (sha_algorithm sha256 s8 widths) checked (streched ++ seed)) (seq m n) x = Nat.iter n (fun x => SHA256 (x ++ seed)) x).
  { induction n as [|n IH]; intros m x Hx; [reflexivity|]. cbn [seq fold_left]. rewrite (h_hash _ _ _ Ha) by (rewrite len_app; lia). rewrite IH.
    - clear. generalize (SHA256). intros f. induction n as [|n IH]; [reflexivity|]. change (f (Nat.iter n (fun x0 => f (x0 ++ seed)) (f (x ++ seed)) ++ seed) = f (Nat.iter (S n) (fun x0 => f (x0 ++ seed)) x ++ seed)). rewrite IH. reflexivity.
    - unfold len at 1. rewrite (h_length _ _ _ Ha). lia. }
  apply G. lia.
Qed.
Print Assumptions C69_stretch.

(** Without the language, a portuguese sentence of words that are also english
    is silently read as english: another entropy. *)
Theorem C69_detect_refuted : exists e m m', v1_entropy_ok e /\ v1_from_entropy e pt = Some m /\
  v1_from_words (fun w => w) (v1_words m) none = Some m' /\ v1_overflow m' = false /\ v1_entropy m' <> e.
Proof.
  exists (flat_map (be_bytes 4) [1369; 1369; 1369; 1369]). eexists; eexists. split; [split; [repeat constructor; cbn; lia|left; reflexivity]|].
  split; [vm_compute; reflexivity|]. split; [vm_compute; reflexivity|]. split; [reflexivity|]. vm_compute. discriminate.
Qed.
Print Assumptions C69_detect_refuted.
(** Electrum's own example of an overflow: 'jaw inhale impossible' is 1003ca789 in
    hexadecimal. *)
Example C69_sat : v1_entropy_ok (repeat 7 16) /\
  match v1_from_words (fun w => w) ["hurry"; "idiot"; "prefer"; "sunset"; "mention"; "mist"; "jaw"; "inhale"; "impossible"; "kingdom"; "rare"; "squeeze"]%string en with
  | Some m => v1_overflow m = true /\ seed_entropy (v1_entropy m) (v1_overflows m) = chars "025d2f2d005036911003ca78900ca155c"%string
  | None => False
  end.
Proof. split; [split; [repeat constructor; cbn; lia|left; reflexivity]|]. vm_compute. split; reflexivity. Qed.
