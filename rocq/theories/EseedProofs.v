(** Entropy of electrum.cpp: trimming, masking and spelling. *)
From Coq Require Import String PeanoNat.
From Verif Require Import Base Bytes MathModel StreamModel BitProofs BitStreamModel BitStreamSpec BitStreamProofs BitStreamProofs2
  RadixModel RadixProofs4 ShaSpec ShaModel AccModel KdfSpec KdfModel KdfProofs KdfProps WordsModel WordsProofs WordsData MnemonicSpec MnemonicModel MnemonicProofs ElectrumModel EseedModel EseedSpec.

Lemma repeat_nth n k : nth k (repeat false n) false = false.
Proof. destruct (Nat.lt_ge_cases k n); [apply nth_repeat|apply nth_overflow; rewrite repeat_length; lia]. Qed.
Lemma padded_packed bl e : padded bl e <-> packed bl e.
Proof.
  split.
  - intros (B & n & Hn & E). assert (L : 8 * len e = len bl + Z.of_nat n) by (rewrite <- bits_of_len, E, len_app; unfold len at 2; rewrite repeat_length; lia).
    split; [exact B|]. split; [apply (Z.div_unique _ 8 (len e) (7 - Z.of_nat n)); lia|]. intros k Hk. rewrite <- bits_of_nth by lia. rewrite E. destruct (Z.lt_ge_cases k (len bl)) as [C|C].
    + apply app_nth1. unfold len in C. lia.
    + rewrite app_nth2 by (unfold len in C; lia). rewrite repeat_nth. symmetry. apply nth_overflow. unfold len in C. lia.
  - intros (B & L & H). split; [exact B|]. assert (R : len bl <= 8 * len e < len bl + 8) by (rewrite L; pose proof (Z.div_mod (len bl + 7) 8 ltac:(lia)); pose proof (Z.mod_pos_bound (len bl + 7) 8 ltac:(lia)); lia).
    exists (Z.to_nat (8 * len e - len bl)). split; [lia|]. apply pack_bits_ext.
    + pose proof (bits_of_len e) as Q. unfold len in Q, R |- *. rewrite app_length, repeat_length. lia.
    + intros k Hk. rewrite bits_of_len in Hk. rewrite bits_of_nth by lia. rewrite H by lia. destruct (Z.lt_ge_cases k (len bl)) as [C|C].
      * symmetry. apply app_nth1. unfold len in C. lia.
      * rewrite app_nth2 by (unfold len in C; lia). rewrite repeat_nth. apply nth_overflow. unfold len in C. lia.
Qed.
Lemma padded_unique bl a b : padded bl a -> padded bl b -> a = b.
Proof. rewrite !padded_packed. apply packed_unique. Qed.

(** the number of whole words *)
Lemma whole_len e : len (whole e) = 11 * (8 * len e / 11).
Proof.
  unfold whole, len at 1. rewrite firstn_length. pose proof (bits_of_len e) as Q. unfold len in Q at 1. assert (D : Z.of_nat (length (bits_of e) / 11) = 8 * len e / 11) by (rewrite Nat2Z.inj_div, Q; reflexivity).
  pose proof (Z.mul_div_le (8 * len e) 11 ltac:(lia)). lia.
Qed.
Lemma firstn_nth {A} (d : A) n : forall l k, (k < n)%nat -> nth k (firstn n l) d = nth k l d.
Proof. induction n as [|n IH]; intros l k H; [lia|]. destruct l as [|x l]; [destruct k; reflexivity|]. destruct k as [|k]; [reflexivity|]. cbn [firstn nth]. apply IH. lia. Qed.
Lemma whole_nth e k : 0 <= k < 11 * (8 * len e / 11) -> nth (Z.to_nat k) (whole e) false = bit_at e k.
Proof.
  intros H. pose proof (whole_len e) as L. unfold whole in *. pose proof (Z.mul_div_le (8 * len e) 11 ltac:(lia)). rewrite firstn_nth.
  - apply bits_of_nth. lia.
  - unfold len in L at 1. rewrite firstn_length in L. lia.
Qed.
(** 256-264: what is left after dropping a byte *)
Lemma usable e : 1 <= len e -> let s := usable_size e in let u := 8 * s - 11 * (8 * len e / 11) in
  0 <= u < 8 /\ (s = len e \/ s = len e - 1) /\ (8 * s) mod 11 = u /\ 8 * s / 11 = 8 * len e / 11.
Proof.
  intros H. cbv zeta. unfold usable_size, unused_bytes, unused_bits. replace (len e * 8) with (8 * len e) by lia. set (t := 8 * len e). pose proof (Z.div_mod t 11 ltac:(lia)) as D. pose proof (Z.mod_pos_bound t 11 ltac:(lia)) as M.
  assert (C : t mod 11 / 8 = 0 /\ t mod 11 < 8 \/ t mod 11 / 8 = 1 /\ 8 <= t mod 11).
  { destruct (Z.lt_ge_cases (t mod 11) 8) as [c|c]; [left; split; [apply Z.div_small; lia|exact c]|right; split; [symmetry; apply (Z.div_unique _ 8 1 (t mod 11 - 8)); lia|exact c]]. }
  set (q := t / 11) in *. set (m := t mod 11) in *. assert (U : 0 <= 8 * (len e - m / 8) - 11 * q < 8) by (unfold t in *; destruct C as [[-> c]|[-> c]]; lia).
  split; [exact U|]. split; [destruct C as [[-> c]|[-> c]]; lia|]. split; symmetry.
  - apply (Z.mod_unique _ 11 q); lia.
  - apply (Z.div_unique _ 11 q (8 * (len e - m / 8) - 11 * q)); lia.
Qed.
(** Masking leaves the whole words. *)
Lemma mask_len u h : h <> [] -> len (mask_last u h) = len h.
Proof. intros N. unfold mask_last. destruct (exists_last N) as (a & x & ->). rewrite removelast_last, !len_app. reflexivity. Qed.
Lemma mask_bit u h k : h <> [] -> 0 <= u < 8 -> 0 <= k < 8 * len h -> bit_at (mask_last u h) k = if k <? 8 * len h - u then bit_at h k else false.
Proof.
  intros N Hu Hk. unfold mask_last. destruct (exists_last N) as (a & x & ->). rewrite removelast_last, last_last. rewrite len_app in Hk. rewrite len_app. change (len [x]) with 1 in *. set (y := Z.land x (Z.shiftl 255 u) mod 256).
  destruct (Z.lt_ge_cases k (8 * len a)) as [C|C].
  - rewrite !BitStreamProofs2.bit_at_app_l by lia. replace (k <? 8 * (len a + 1) - u) with true by lia. reflexivity.
  - rewrite !bit_at_app_r by lia. set (i := k - 8 * len a). assert (Hi : 0 <= i < 8) by (unfold i; lia). unfold bit_at. rewrite Z.div_small, Z.mod_small by lia. cbn [nth Z.to_nat]. unfold y. change 256 with (2 ^ 8). rewrite Z.mod_pow2_bits_low by lia. rewrite Z.land_spec.
    change 255 with (Z.ones 8). rewrite Z.shiftl_spec by lia. destruct (Z.ltb_spec k (8 * (len a + 1) - u)) as [D|D].
    + rewrite Z.ones_spec_low by (unfold i in *; lia). apply Bool.andb_true_r.
    + rewrite Z.testbit_neg_r with (n := 7 - i - u) by (unfold i in *; lia). apply Bool.andb_false_r.
Qed.
Lemma mask_ok u h : bytes_ok h -> bytes_ok (mask_last u h).
Proof.
  intros B. unfold mask_last. apply Forall_app. split; [|constructor; [apply Z.mod_pos_bound; lia|constructor]].
  destruct h as [|x h]; [constructor|]. assert (N : x :: h <> []) by discriminate. destruct (exists_last N) as (a & y & E). rewrite E in *. rewrite removelast_last. apply Forall_app in B. apply B.
Qed.
Lemma masked e h u : h <> [] -> bytes_ok h -> 0 <= u < 8 -> 8 * len h = 11 * (8 * len e / 11) + u -> (forall k, 0 <= k < 8 * len h - u -> bit_at h k = bit_at e k) ->
  padded (whole e) (mask_last u h).
Proof.
  intros N B Hu L E. apply padded_packed. split; [apply mask_ok, B|]. rewrite mask_len by exact N. rewrite whole_len. split; [apply (Z.div_unique _ 8 (len h) (7 - u)); lia|].
  intros k Hk. rewrite mask_bit by assumption. destruct (Z.ltb_spec k (8 * len h - u)) as [C|C].
  - rewrite whole_nth by lia. apply E. lia.
  - symmetry. apply nth_overflow. pose proof (whole_len e) as W. unfold len in W at 1. lia.
Qed.
(** A masked entropy is spelled by its eleven bit fields. *)
Lemma pack_padded bl c n : padded bl c -> len bl = 11 * n -> 0 < n -> len c < 2 ^ 60 -> let idx := base2048_pack c in
  len idx = n /\ Forall (fun i => 0 <= i < 2048) idx /\ pack_bits 11 idx = bl.
Proof.
  intros P Lb Hn Hc. apply padded_packed in P. destruct P as (B & L & H). assert (R : len bl <= 8 * len c < len bl + 8) by (rewrite L; pose proof (Z.div_mod (len bl + 7) 8 ltac:(lia)); pose proof (Z.mod_pos_bound (len bl + 7) 8 ltac:(lia)); lia).
  set (z := 8 * len c - 11 * n). assert (Hz : 0 <= z < 8) by (unfold z; lia).
  assert (E : base2048_pack c = map (fun i => field c (11 * Z.of_nat i) 11) (seq 0 (Z.to_nat n))).
  { unfold base2048_pack. assert (C : cover (8 * len c) 11 = if z =? 0 then n else n + 1).
    { unfold cover. symmetry. destruct (Z.eqb_spec z 0) as [Q|Q]; [apply (Z.div_unique _ 11 n 10); lia|apply (Z.div_unique _ 11 (n + 1) (z - 1)); lia]. }
    rewrite unpack_fresh; [|lia| |rewrite C; assert (len c = Z.of_nat (length c)) by reflexivity; destruct (Z.eqb_spec z 0); lia].
    2:{ eapply Z.lt_trans; [exact Hc|]. reflexivity. }
    replace (len c * 8) with (8 * len c) by lia. assert (M : (8 * len c) mod 11 = z) by (symmetry; apply (Z.mod_unique _ 11 n); lia). rewrite M, C. destruct (Z.eqb_spec z 0) as [Q|Q]; [reflexivity|].
    replace (Z.to_nat (n + 1)) with (Z.to_nat n + 1)%nat by lia. rewrite seq_app, map_app. cbn [seq map Nat.add]. rewrite last_last, removelast_last.
    assert (F : field c (11 * Z.of_nat (Z.to_nat n)) 11 = 0).
    { apply Z.bits_inj_0. intros i. destruct (Z.lt_ge_cases i 0) as [I|I]; [apply Z.testbit_neg_r; exact I|]. destruct (Z.lt_ge_cases i 11) as [J|J].
      - rewrite field_testbit by lia. rewrite Z2Nat.id by lia. set (k := 11 * n + (11 - 1 - i)). destruct (Z.lt_ge_cases k (8 * len c)) as [K|K]; [|apply bit_at_past; lia].
        rewrite H by (unfold k in *; lia). apply nth_overflow. unfold len in Lb. unfold k. lia.
      - pose proof (field_range c (11 * Z.of_nat (Z.to_nat n)) 11 ltac:(lia)). apply (testbit_small _ 11); lia. }
    rewrite F. reflexivity. }
  cbv zeta. rewrite E. set (idx := map _ _). assert (Li : len idx = n) by (unfold idx, len; rewrite map_length, seq_length; lia). split; [exact Li|]. split.
  - unfold idx. apply Forall_map, Forall_forall. intros i _. pose proof (field_range c (11 * Z.of_nat i) 11 ltac:(lia)) as Q. change (2 ^ 11) with 2048 in Q. exact Q.
  - apply pack_bits_ext; [pose proof (pack_bits_len 11 idx ltac:(lia)) as Q; unfold len in *; lia|]. intros k Hk. rewrite pack_bits_len, Li in Hk by lia. unfold idx. rewrite unpack_bits_nth by lia. apply H. lia.
Qed.
