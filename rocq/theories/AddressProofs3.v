From Coq Require Import String.
From Verif Require Import Base Bytes BitStreamSpec BitStreamModel RadixModel RadixSpec RadixProofs RadixProofs3 RadixProofs4 BitStreamProofs BitStreamProofs2 AddressModel BechField BechProofs AddressSpec AddressProofs AddressProofs2.

(** * Packed programs *)
Lemma bit8 p k : 0 <= k < 8 * len p -> nth (Z.to_nat k) (pack_bits 8 p) false = bit_at p k.
Proof. intros H. rewrite pack_bits_nth by lia. reflexivity. Qed.
Lemma nth_eq_list (a b : list bool) : len a = len b -> (forall k, 0 <= k < len a -> nth (Z.to_nat k) a false = nth (Z.to_nat k) b false) -> a = b.
Proof.
  intros L H. apply (nth_ext _ _ false false); [unfold len in L; lia|]. intros n Hn. specialize (H (Z.of_nat n)). rewrite Nat2Z.id in H. apply H. unfold len. lia.
Qed.
Lemma repeat_len {A} (x : A) n : len (repeat x n) = Z.of_nat n.
Proof. unfold len. rewrite repeat_length. reflexivity. Qed.
Lemma nth_repeat_false n m : nth n (repeat false m) false = false.
Proof. destruct (Nat.lt_ge_cases n m); [apply nth_repeat|apply nth_overflow; rewrite repeat_length; lia]. Qed.
Lemma bit_at_app_l a b k : 0 <= k < 8 * len a -> bit_at (a ++ b) k = bit_at a k.
Proof.
  intros H. unfold bit_at. f_equal. apply app_nth1. assert (k / 8 < len a) by (apply Z.div_lt_upper_bound; lia).
  assert (0 <= k / 8) by (apply Z.div_pos; lia). unfold len in *. lia.
Qed.
Lemma snoc_last (l : list Z) : 0 < len l -> l = removelast l ++ [last l 0].
Proof. intros H. apply app_removelast_last. intros ->. change (len (@nil Z)) with 0 in H. lia. Qed.
Lemma snoc_ok (p : list Z) x : bytes_ok (p ++ [x]) -> bytes_ok p.
Proof. intros H. apply bytes_ok_app in H. apply H. Qed.
Lemma pack_holds u p : 2 <= len p -> base32_pack u = p <-> exists pad, 0 <= pad <= 7 /\ holds_bytes u p pad.
Proof.
  intros Hp. pose proof (pack_packed 5 u ltac:(lia)) as PK. unfold base32_pack.
  set (out := bout (bit_flush (fold_left (fun a v => write_bits v 5 a) u bit_writer))) in *.
  pose proof (pack_bits_len 5 u ltac:(lia)) as PL. pose proof (len_nonneg u) as Lu.
  split.
  - destruct PK as (P1 & P2 & P3). rewrite PL in P2. destruct (Z.eqb_spec ((len u * 5) mod 8) 0) as [M|M].
    + intros <-. assert (L8 : 8 * len out = 5 * len u).
      { rewrite P2. pose proof (Z.div_mod (5 * len u) 8 ltac:(lia)) as D. rewrite (Z.mul_comm 5), M in D.
        replace (5 * len u + 7) with (7 + (len u * 5 / 8) * 8) by lia. rewrite Z.div_add by lia. change (7 / 8) with 0. lia. }
      exists 0. split; [lia|]. split; [exact P1|]. split; [lia|]. cbn [Z.to_nat repeat]. rewrite app_nil_r.
      change (pack_bits 5 u = pack_bits 8 out). apply nth_eq_list; [rewrite !pack_bits_len by lia; lia|].
      intros k Hk. rewrite PL in Hk. rewrite bit8 by lia. symmetry. apply P3. lia.
    + destruct (Z.eqb_spec (last out 0) 0) as [Z0|N0]; [|intros <-; change (len (@nil Z)) with 0 in Hp; lia]. intros <-.
      assert (LO : len out = 5 * len u / 8 + 1).
      { rewrite P2. pose proof (Z.div_mod (5 * len u) 8 ltac:(lia)) as D. pose proof (Z.mod_pos_bound (5 * len u) 8 ltac:(lia)). rewrite (Z.mul_comm (len u)) in M.
        symmetry. apply (Z.div_unique _ _ _ ((5 * len u) mod 8 - 1)); lia. }
      pose proof (Z.div_pos (5 * len u) 8 ltac:(lia) ltac:(lia)) as Q. pose proof (snoc_last out ltac:(lia)) as SN. rewrite Z0 in SN.
      set (p := removelast out) in *. assert (LP : len p = 5 * len u / 8) by (rewrite SN, len_app in LO; change (len [0]) with 1 in LO; lia).
      pose proof (Z.div_mod (5 * len u) 8 ltac:(lia)) as D. pose proof (Z.mod_pos_bound (5 * len u) 8 ltac:(lia)) as MB.
      exists ((5 * len u) mod 8). split; [lia|]. split; [apply (snoc_ok p 0); rewrite <- SN; exact P1|]. split; [lia|].
      change (pack_bits 5 u = pack_bits 8 p ++ repeat false (Z.to_nat ((5 * len u) mod 8))).
      apply nth_eq_list; [rewrite len_app, repeat_len, !pack_bits_len by lia; lia|].
      intros k Hk. rewrite PL in Hk. rewrite <- P3 by lia. rewrite SN. destruct (Z.lt_ge_cases k (8 * len p)) as [C|C].
      * rewrite app_nth1 by (pose proof (pack_bits_len 8 p ltac:(lia)); unfold len in *; lia). rewrite bit8 by lia. apply bit_at_app_l. lia.
      * rewrite app_nth2 by (pose proof (pack_bits_len 8 p ltac:(lia)); unfold len in *; lia). rewrite nth_repeat_false. apply bit_at_zero. exact C.
  - intros (pad & Hpad & B & L & E). change (pack_bits 5 u = pack_bits 8 p ++ repeat false (Z.to_nat pad)) in E.
    assert (NB : forall k, 0 <= k -> nth (Z.to_nat k) (pack_bits 5 u) false = if k <? 8 * len p then bit_at p k else false).
    { intros k Hk. rewrite E. pose proof (pack_bits_len 8 p ltac:(lia)) as L8. destruct (Z.ltb_spec k (8 * len p)).
      - rewrite app_nth1 by (unfold len in *; lia). apply bit8. lia.
      - rewrite app_nth2 by (unfold len in *; lia). apply nth_repeat_false. }
    destruct (Z.eq_dec pad 0) as [->|NP].
    + assert (EO : out = p).
      { apply (packed_unique (pack_bits 5 u)); [exact PK|]. split; [exact B|]. split.
        - rewrite PL. apply (Z.div_unique _ _ _ 7); lia.
        - intros k Hk. rewrite NB by lia. replace (k <? 8 * len p) with true by lia. reflexivity. }
      rewrite EO. replace ((len u * 5) mod 8) with 0; [reflexivity|]. replace (len u * 5) with (len p * 8) by lia. rewrite Z.mod_mul by lia. reflexivity.
    + assert (EO : out = p ++ [0]).
      { apply (packed_unique (pack_bits 5 u)); [exact PK|]. split; [apply bytes_ok_app; split; [exact B|constructor; [split; lia|constructor]]|]. split.
        - rewrite PL, len_app. change (len [0]) with 1. apply (Z.div_unique _ _ _ (pad - 1)); lia.
        - intros k Hk. rewrite NB by lia. rewrite len_app in Hk. change (len [0]) with 1 in Hk. destruct (Z.ltb_spec k (8 * len p)) as [C|C]; [apply bit_at_app_l; lia|apply bit_at_zero; exact C]. }
      assert (M : (len u * 5) mod 8 = pad).
      { replace (len u * 5) with (pad + len p * 8) by lia. rewrite Z.mod_add by lia. apply Z.mod_small. lia. }
      rewrite EO, M, last_last, removelast_last. replace (pad =? 0) with false by lia. reflexivity.
Qed.
Lemma unpack_holds p : bytes_ok p -> 2 <= len p -> len p < 2 ^ 64 -> exists pad, 0 <= pad <= 4 /\ holds_bytes (base32_unpack p) p pad.
Proof.
  intros B H1 H2. pose proof (base32_pack_unpack p B H2) as E. apply pack_holds in E; [|exact H1]. destruct E as (pad & Hp & Hb).
  exists pad. split; [|exact Hb]. destruct Hb as (_ & L & _). rewrite base32_unpack_len in L by exact H2. pose proof (cover_bounds (8 * len p) 5 ltac:(lia) ltac:(lia)). lia.
Qed.

(** * Splitting *)
Lemma split_last_spec sep l : match split_last sep l with
  | Some (a, b) => l = a ++ sep :: b /\ ~ In sep b
  | None => ~ In sep l end.
Proof.
  induction l as [|c r IH]; cbn [split_last]; [exact (fun h => h)|]. destruct (split_last sep r) as [[a b]|].
  - destruct IH as [-> N]. split; [reflexivity|exact N].
  - destruct (Z.eqb_spec c sep) as [->|N]; [split; [reflexivity|exact IH]|]. intros [->|I]; [congruence|contradiction].
Qed.
Lemma split_last_app sep a b : ~ In sep b -> split_last sep (a ++ sep :: b) = Some (a, b).
Proof.
  intros N. induction a as [|c a IH]; cbn [app split_last].
  - pose proof (split_last_spec sep b) as P. destruct (split_last sep b) as [[x y]|]; [destruct P as [-> _]; exfalso; apply N, in_elt|]. rewrite Z.eqb_refl. reflexivity.
  - rewrite IH. reflexivity.
Qed.

(** * Character conditions *)
Lemma is_ascii_spec l : Forall (fun c => 0 <= c) l -> is_ascii l = true <-> ascii l.
Proof.
  intros P. unfold is_ascii, ascii. rewrite forallb_forall, !Forall_forall. rewrite Forall_forall in P. split; intros H c I; specialize (H c I); specialize (P c I); cbv beta in *; lia.
Qed.
Lemma mixed_spec l : has_mixed_ascii_case l = false <-> Forall (fun c => ~ upper_letter c) l \/ Forall (fun c => ~ lower_letter c) l.
Proof.
  unfold has_mixed_ascii_case, upper_letter, lower_letter.
  assert (G : forall f (P : Z -> Prop), (forall c, f c = true <-> P c) -> existsb f l = false <-> Forall (fun c => ~ P c) l).
  { intros f P F. rewrite Forall_forall. split.
    - intros H c I PC. apply F in PC. assert (existsb f l = true) by (apply existsb_exists; exists c; auto). congruence.
    - intros H. apply not_true_iff_false. intros K. apply existsb_exists in K. destruct K as (c & I & FC). apply (H c I), F, FC. }
  rewrite andb_false_iff, (G is_ascii_lower (fun c => 97 <= c <= 122)), (G is_ascii_upper (fun c => 65 <= c <= 90)); [tauto| |];
    intros c; unfold is_ascii_upper, is_ascii_lower, is_between; rewrite andb_true_iff; lia.
Qed.
Lemma list_eqb_spec a b : list_eqb a b = true <-> a = b.
Proof. unfold list_eqb. destruct (list_eq_dec Z.eq_dec a b); split; congruence. Qed.
Lemma strict_prefix_cases : mainnet = codes "bc"%string /\ testnet = codes "tb"%string.
Proof. split; reflexivity. Qed.
Lemma parse_prefix_spec prefix strict : Forall (fun c => 0 <= c < 256) prefix ->
  parse_prefix prefix strict = true <-> prefix_rule prefix /\ (strict = true -> prefix = codes "bc"%string \/ prefix = codes "tb"%string).
Proof.
  intros P. unfold parse_prefix, prefix_rule.
  destruct (is_ascii prefix) eqn:A; cbn [negb].
  2:{ split; [discriminate|]. intros ((_ & F & _) & _). exfalso. rewrite <- not_true_iff_false in A. apply A. apply is_ascii_spec.
      - eapply Forall_impl; [|exact P]. cbv beta. lia.
      - eapply Forall_impl; [|exact F]. cbv beta. lia. }
  apply is_ascii_spec in A; [|eapply Forall_impl; [|exact P]; cbv beta; lia].
  rewrite ascii_to_lower_eq. destruct (list_eqb (map lower prefix) prefix) eqn:LE; cbn [negb].
  2:{ split; [discriminate|]. intros ((_ & _ & E) & _). apply list_eqb_spec in E. congruence. }
  apply list_eqb_spec in LE. change (90 - 2 - 4 - 6) with 78.
  destruct (Z.ltb_spec (len prefix) 1); [split; [discriminate|lia]|].
  destruct (Z.gtb_spec (len prefix) 78); [split; [discriminate|lia]|].
  destruct (has_invalid_prefix_character prefix) eqn:I.
  { split; [discriminate|]. intros ((_ & F & _) & _). exfalso. apply existsb_exists in I. destruct I as (c & Ic & E). unfold ascii in A. rewrite Forall_forall in F, A. specialize (F c Ic). specialize (A c Ic). cbv beta in *.
    unfold signed_char in E. destruct (c <? 128) eqn:Q; lia. }
  assert (F : Forall (fun c => 33 <= c <= 126) prefix).
  { apply Forall_forall. intros c Ic. assert (E : (signed_char c <? 33) || (signed_char c >? 126) = false).
    { apply not_true_iff_false. intros E. assert (has_invalid_prefix_character prefix = true) by (apply existsb_exists; exists c; auto). congruence. }
    unfold ascii in A. rewrite Forall_forall in A. specialize (A c Ic). cbv beta in A. unfold signed_char in E. destruct (c <? 128) eqn:Q; lia. }
  destruct strict; cbn [andb].
  - destruct strict_prefix_cases as [<- <-]. pose proof (list_eqb_spec prefix mainnet) as S1. pose proof (list_eqb_spec prefix testnet) as S2.
    destruct (list_eqb prefix mainnet), (list_eqb prefix testnet); cbn [negb andb]; split; intros K; try reflexivity; try discriminate; repeat split; try lia; try assumption.
    + intros _. left. apply S1. reflexivity.
    + intros _. left. apply S1. reflexivity.
    + intros _. right. apply S2. reflexivity.
    + destruct K as [_ K]. destruct (K eq_refl) as [K'|K']; [apply S1 in K'|apply S2 in K']; discriminate.
  - split; intros K; [|reflexivity]. repeat split; try lia; try assumption; discriminate.
Qed.
Lemma parse_program_spec v program strict : 0 <= v ->
  valid_type (parse_program v program strict) = true <-> program_rule v program /\ (strict = true -> v <= 1).
Proof.
  intros Hv. unfold parse_program, program_rule, is_valid_version, is_valid_program.
  destruct (Z.leb_spec v 16); cbn [negb orb]; [|split; [discriminate|lia]].
  destruct (Z.geb_spec (len program) 2); cbn [andb negb orb]; [|split; [discriminate|lia]].
  destruct (Z.leb_spec (len program) 40); cbn [negb]; [|split; [discriminate|lia]].
  destruct (Z.eqb_spec v 0).
  - destruct (Z.eqb_spec (len program) 20); [split; [intros _; repeat split; lia|reflexivity]|].
    destruct (Z.eqb_spec (len program) 32); [split; [intros _; repeat split; lia|reflexivity]|]. split; [discriminate|lia].
  - destruct (Z.eqb_spec v 1).
    + destruct (Z.eqb_spec (len program) 32); [split; [intros _; repeat split; lia|reflexivity]|]. split; [discriminate|lia].
    + destruct strict; split; [discriminate|lia|intros _; repeat split; lia|reflexivity].
Qed.
Lemma alphabet32_eq : alphabet32 = encode32. Proof. reflexivity. Qed.
Lemma spells32 payload u : spells alphabet32 payload u <-> digits_ok 32 u /\ payload = encode_base32_chunk u.
Proof. unfold spells, encode_base32_chunk. rewrite alphabet32_eq. change (len encode32) with 32. tauto. Qed.
Lemma no_separator u : digits_ok 32 u -> ~ In 49 (encode_base32_chunk u).
Proof.
  intros D I. unfold encode_base32_chunk in I. apply in_map_iff in I. destruct I as (v & E & I). unfold digits_ok in D. rewrite Forall_forall in D. specialize (D v I). cbv beta in D.
  assert (C : forallb (fun v => negb (nth (Z.to_nat v) encode32 0 =? 49)) (range 32) = true) by (vm_compute; reflexivity).
  pose proof (forall_range _ 32 C v D) as C'. cbv beta in C'. rewrite E in C'. discriminate.
Qed.
