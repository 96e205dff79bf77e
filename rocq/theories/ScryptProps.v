(** C68: scrypt. *)
From Coq Require Import PeanoNat Permutation.
From Verif Require Import Base Bytes ShaModel ShaSpec ShaProofs2 ShaProofs6 AccModel AccProofs RmdModel RmdSpec
  KdfSpec KdfModel KdfProofs KdfProofs2 KdfProps ScryptSpec ScryptModel ScryptProofs.

Lemma pbkdf2_length p s c n : length (PBKDF2 SHA256 64 32 p s c n) = n.
Proof.
  pose proof (hashed_sha256 false []) as H. unfold PBKDF2. rewrite firstn_length_le; [reflexivity|].
  rewrite (concat_length 32).
  - rewrite map_length, seq_length. unfold ceil_div. pose proof (Nat.div_mod (n + 32 - 1) 32 ltac:(lia)) as D.
    pose proof (Nat.mod_upper_bound (n + 32 - 1) 32 ltac:(lia)). lia.
  - rewrite Forall_forall. intros b Hb. apply in_map_iff in Hb. destruct Hb as (i & <- & _).
    apply (F_length (sha_algorithm sha256 false []) SHA256 32 H).
Qed.
Lemma chunks_split {X} n k (l : list X) : (0 < n)%nat -> length l = (k * n)%nat -> chunks n k l = split n l /\ Forall (fun b => length b = n) (chunks n k l).
Proof.
  intros Hn L. destruct (chunks_concat n k l ltac:(lia)) as [E F]. split; [|exact F].
  rewrite <- E at 2. rewrite skipn_all2 by lia. rewrite app_nil_r. symmetry. apply split_app; assumption.
Qed.
Section Hash.
Variables k R P : nat.
Hypothesis (Hk : (1 <= k <= 63)%nat) (HR : (1 <= R)%nat).
Variables (checked s8 : bool) (widths : list nat).

(** For every work factor 2^k, r, p, every order in which the execution policy
    visits the p blocks, and every password and salt, the result is RFC 7914's. *)
Theorem C68_scrypt order size password salt :
  Permutation order (seq 0 P) -> len password < max_data -> len salt < max_data -> Z.of_nat (P * 128 * R) < max_data ->
  scrypt_hash (2 ^ k) R P checked s8 widths false order (fun _ => true) size password salt = Some (Scrypt password salt (2 ^ k) R P size).
Proof using Hk HR.
  intros HO Hp Hs Hb. unfold scrypt_hash, Scrypt. cbv zeta.
  rewrite !(C66_pbkdf2 _ SHA256 64%nat 32%nat (lib_sha256 s8 widths)) by (try assumption; lia).
  replace (P * (2 * R * 64))%nat with (P * 128 * R)%nat by lia.
  set (bytes := PBKDF2 SHA256 64 32 password salt 1 (P * 128 * R)).
  assert (LB : length bytes = (P * (128 * R))%nat) by (unfold bytes; rewrite pbkdf2_length; lia).
  replace (2 * R * 64)%nat with (128 * R)%nat by lia.
  destruct (chunks_split (128 * R) P bytes) as [EC FC]; [lia|exact LB|]. rewrite EC in *.
  set (bs := split (128 * R) bytes) in *.
  assert (Lbs : length bs = P) by (rewrite <- EC; apply chunks_length).
  assert (EM : map (fun b => chunks 64 (2 * R) b) bs = map (split 64) bs).
  { apply map_ext_in. intros b Hb'. rewrite Forall_forall in FC. apply chunks_split; [lia|]. rewrite (FC b Hb'). lia. }
  rewrite EM.
  assert (FS : Forall (shaped R) (map (split 64) bs)).
  { rewrite <- EM. rewrite Forall_forall in *. intros x Hx. apply in_map_iff in Hx. destruct Hx as (b & <- & Hb').
    split; [apply chunks_length|]. apply chunks_split; [lia|]. rewrite (FC b Hb'). lia. }
  destruct (visits_ok R HR k ltac:(lia) (map (split 64) bs) order) as (r & Er & Lr & Nr).
  - exact FS.
  - apply (Permutation_NoDup (Permutation_sym HO)). apply seq_NoDup.
  - intros i Hi. rewrite map_length, Lbs. apply (Permutation_in _ HO) in Hi. apply in_seq in Hi. lia.
  - rewrite Er. rewrite map_length, Lbs in Lr, Nr.
    assert (E : r = map (ROMix (2 ^ k)) (map (split 64) bs)).
    { apply (list_ext _ _ []); [rewrite !map_length; lia|]. intros j Hj. rewrite Lr in Hj.
      destruct (Nr j Hj) as [N1 _]. rewrite N1 by (apply (Permutation_in _ (Permutation_sym HO)); apply in_seq; lia).
      rewrite (nth_indep (map (ROMix _) _) [] (ROMix (2 ^ k) [])) by (rewrite !map_length; lia). rewrite map_nth. reflexivity. }
    rewrite E, !map_map. f_equal.
    assert (SL : length (concat (map (fun b => concat (ROMix (2 ^ k) (split 64 b))) bs)) = (P * (128 * R))%nat).
    { rewrite (concat_length (128 * R)); [rewrite map_length, Lbs; lia|]. rewrite Forall_forall in *. intros x Hx.
      apply in_map_iff in Hx. destruct Hx as (b & <- & Hb'). 
      assert (SB : shaped R (split 64 b)) by (apply FS, in_map, Hb').
      destruct (romix_ok R HR k ltac:(lia) _ SB) as [_ [L2 F2]]. rewrite (concat_length 64) by exact F2. rewrite L2. lia. }
    apply (C66_pbkdf2 _ SHA256 64%nat 32%nat (lib_sha256 s8 widths)); [exact Hp| |lia].
    unfold len. rewrite SL. replace (P * (128 * R))%nat with (P * 128 * R)%nat by lia. exact Hb.
Qed.

(** The documentation: "false if out of memory".  If no working set can be
    allocated the call still reports success, and its output is two rounds of
    PBKDF2 with none of the memory-hard mixing. *)
Theorem C68_out_of_memory_refuted order size password salt :
  Forall (fun i => (i < P)%nat) order -> len password < max_data -> len salt < max_data -> Z.of_nat (P * 128 * R) < max_data ->
  scrypt_hash (2 ^ k) R P checked s8 widths false order (fun _ => false) size password salt =
  Some (PBKDF2 SHA256 64 32 password (PBKDF2 SHA256 64 32 password salt 1 (P * 128 * R)) 1 size).
Proof using Hk HR.
  intros HO Hp Hs Hb. unfold scrypt_hash.
  rewrite !(C66_pbkdf2 _ SHA256 64%nat 32%nat (lib_sha256 s8 widths)) by (try assumption; lia).
  replace (P * (2 * R * 64))%nat with (P * 128 * R)%nat by lia. cbv zeta.
  set (bytes := PBKDF2 SHA256 64 32 password salt 1 (P * 128 * R)).
  assert (LB : length bytes = (P * (128 * R))%nat) by (unfold bytes; rewrite pbkdf2_length; lia).
  replace (2 * R * 64)%nat with (128 * R)%nat by lia.
  destruct (chunks_concat (128 * R) P bytes ltac:(lia)) as [EC FC].
  set (pr := map (fun b => chunks 64 (2 * R) b) (chunks (128 * R) P bytes)).
  assert (Lp : length pr = P) by (unfold pr; rewrite map_length, chunks_length; reflexivity).
  assert (Fold : forall order s, Forall (fun i => (i < P)%nat) order -> snd (fold_left (visit (2 ^ k) R (fun _ => false)) order (s, pr)) = pr).
  { clear order HO. induction order as [|i order IH]; intros s F; [reflexivity|]. pose proof (Forall_inv F) as Hi; pose proof (Forall_inv_tail F) as F'. cbv beta in Hi. cbn [fold_left].
    unfold visit at 2. destruct s; [|apply IH; assumption]. unfold romix.
    replace (upd i (nth i pr []) pr) with pr; [apply IH; assumption|].
    apply (list_ext _ _ []); [rewrite upd_length by lia; reflexivity|]. intros j Hj. rewrite upd_nth by lia. destruct (Nat.eqb_spec j i) as [->|]; reflexivity. }
  specialize (Fold order true HO). destruct (fold_left _ order (true, pr)) as [s pr']. cbn [snd] in Fold. rewrite Fold.
  assert (CB : concat (map (@concat Z) pr) = bytes).
  { unfold pr. rewrite map_map. rewrite (map_ext_in _ (fun b => b)).
    - rewrite map_id. rewrite <- EC at 2. rewrite skipn_all2 by lia. rewrite app_nil_r. reflexivity.
    - intros b Hb'. rewrite Forall_forall in FC. destruct (chunks_concat 64 (2 * R) b) as [E _]; [rewrite (FC b Hb'); lia|].
      rewrite <- E at 2. rewrite skipn_all2 by (rewrite (FC b Hb'); lia). rewrite app_nil_r. reflexivity. }
  rewrite CB. f_equal. apply (C66_pbkdf2 _ SHA256 64%nat 32%nat (lib_sha256 s8 widths)); [exact Hp| |lia].
  unfold len. rewrite LB. replace (P * (128 * R))%nat with (P * 128 * R)%nat by lia. exact Hb.
Qed.
End Hash.
Print Assumptions C68_scrypt.
Print Assumptions C68_out_of_memory_refuted.

(** BIP38's parameters meet the hypotheses, with the blocks visited in a mixed order. *)
Example C68_sat : (2 ^ 14 = 16384)%nat /\ Permutation [3; 0; 7; 5; 1; 2; 6; 4]%nat (seq 0 8) /\ Z.of_nat (8 * 128 * 8) < max_data.
Proof.
  split; [reflexivity|]. split; [|reflexivity]. apply NoDup_Permutation; [|apply seq_NoDup|].
  - repeat constructor; cbn; intuition discriminate.
  - intros x. cbn. intuition lia.
Qed.
(** RFC 7914 section 8. *)
Example C68_salsa : Salsa20_8
  [0x7e; 0x87; 0x9a; 0x21; 0x4f; 0x3e; 0xc9; 0x86; 0x7c; 0xa9; 0x40; 0xe6; 0x41; 0x71; 0x8f; 0x26;
   0xba; 0xee; 0x55; 0x5b; 0x8c; 0x61; 0xc1; 0xb5; 0x0d; 0xf8; 0x46; 0x11; 0x6d; 0xcd; 0x3b; 0x1d;
   0xee; 0x24; 0xf3; 0x19; 0xdf; 0x9b; 0x3d; 0x85; 0x14; 0x12; 0x1e; 0x4b; 0x5a; 0xc5; 0xaa; 0x32;
   0x76; 0x02; 0x1d; 0x29; 0x09; 0xc7; 0x48; 0x29; 0xed; 0xeb; 0xc6; 0x8d; 0xb8; 0xb8; 0xc2; 0x5e] =
  [0xa4; 0x1f; 0x85; 0x9c; 0x66; 0x08; 0xcc; 0x99; 0x3b; 0x81; 0xca; 0xcb; 0x02; 0x0c; 0xef; 0x05;
   0x04; 0x4b; 0x21; 0x81; 0xa2; 0xfd; 0x33; 0x7d; 0xfd; 0x7b; 0x1c; 0x63; 0x96; 0x68; 0x2f; 0x29;
   0xb4; 0x39; 0x31; 0x68; 0xe3; 0xc9; 0xe6; 0xbc; 0xfe; 0x6b; 0xc5; 0xb7; 0xa0; 0x6d; 0x96; 0xba;
   0xe4; 0x24; 0xcc; 0x10; 0x2c; 0x91; 0x74; 0x5c; 0x24; 0xad; 0x67; 0x3d; 0xc7; 0x61; 0x8f; 0x81].
Proof. vm_compute. reflexivity. Qed.
