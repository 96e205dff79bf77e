From Coq Require Import String.
From Verif Require Import Base Bytes BitStreamSpec RadixModel RadixSpec RadixProofs RadixProofs3 RadixProofs4 BitStreamProofs BitStreamProofs2 AddressModel BechField BechProofs BechProofs2 BechProofs3 AddressSpec AddressProofs.

(** * Model checksum and residues *)
Definition ascii (l : list Z) : Prop := Forall (fun c => 0 <= c < 128) l.
Lemma to_lower_eq c : to_lower_char c = lower c.
Proof. unfold to_lower_char, lower, is_ascii_upper, is_between. reflexivity. Qed.
Lemma ascii_to_lower_eq l : ascii_to_lower l = map lower l.
Proof. unfold ascii_to_lower. apply map_ext, to_lower_eq. Qed.
Lemma lower_ascii c : 0 <= c < 128 -> 0 <= lower c < 128.
Proof. intros H. unfold lower. destruct ((65 <=? c) && (c <=? 90)) eqn:E; lia. Qed.
Lemma lower_lower c : lower (lower c) = lower c.
Proof. unfold lower. destruct ((65 <=? c) && (c <=? 90)) eqn:E; [|rewrite E; reflexivity]. replace ((65 <=? c + 32) && (c + 32 <=? 90)) with false by lia. reflexivity. Qed.
Lemma map_lower_ascii l : ascii l -> ascii (map lower l).
Proof. intros H. apply Forall_map. eapply Forall_impl; [|exact H]. apply lower_ascii. Qed.
Lemma expand_eq prefix : ascii prefix -> bech32_expand_prefix prefix = expand (map lower prefix).
Proof.
  intros H. unfold bech32_expand_prefix, expand. rewrite ascii_to_lower_eq. cbv zeta. f_equal.
  apply map_lower_ascii in H. induction H as [|c l Hc _ IH]; [reflexivity|]. cbn [map]. f_equal; [|exact IH].
  unfold u5. rewrite Z.shiftr_div_pow2 by lia. change (2 ^ 5) with 32. apply Z.mod_small. split; [apply Z.div_pos; lia|apply Z.div_lt_upper_bound; lia].
Qed.
Lemma expand_symbols p : ascii p -> symbols (expand p).
Proof.
  intros H. unfold expand. apply Forall_app. split.
  - apply Forall_map. eapply Forall_impl; [|exact H]. cbv beta. intros c Hc. split; [apply Z.div_pos; lia|apply Z.div_lt_upper_bound; lia].
  - apply Forall_app. split; [constructor; [lia|constructor]|]. apply Forall_map. eapply Forall_impl; [|exact H]. cbv beta. intros c Hc. apply Z.mod_pos_bound. lia.
Qed.
Lemma constant_range v : 0 <= bech32_constant v < 2 ^ 30.
Proof. unfold bech32_constant. destruct (v =? 0); lia. Qed.
Lemma residue_eq v : residue v = vlist (zv (bech32_constant v)).
Proof. unfold residue, bech32_constant. destruct (v =? 0); reflexivity. Qed.
Lemma verify_fold checked prefix v : ascii prefix -> symbols checked ->
  bech32_verify_checksum checked prefix v = true <-> vfold (zv 1) (map zg (expand (map lower prefix) ++ checked)) = zv (bech32_constant v).
Proof.
  intros A B. unfold bech32_verify_checksum. rewrite expand_eq by exact A.
  assert (SY : symbols (expand (map lower prefix) ++ checked)) by (apply Forall_app; split; [apply expand_symbols, map_lower_ascii, A|exact B]).
  destruct (checksum_zv _ SY) as [E R]. rewrite <- E. rewrite Z.eqb_eq. split; [congruence|]. apply zv_inj; [exact R|apply constant_range].
Qed.
Lemma verify_code checked prefix v : ascii prefix -> symbols checked ->
  bech32_verify_checksum checked prefix v = true <-> congruent (bech32_word (map lower prefix) checked) (residue v).
Proof.
  intros A B. rewrite verify_fold by assumption. rewrite residue_eq. unfold bech32_word. cbn [map]. change (zg 1) with G1.
  assert (C0 : congruent [G1] (vlist (zv 1))) by (exists []; intros n; rewrite times_nil, gadd_0; destruct n as [|[|[|[|[|[|[|n]]]]]]]; reflexivity).
  pose proof (fold_congruent (map zg (expand (map lower prefix) ++ checked)) _ _ C0) as C. cbn [app] in C. split.
  - intros <-. exact C.
  - intros C'. exact (congruent_unique _ _ _ C C').
Qed.

(** * The appended six symbols *)
Lemma fold_six a s5 s4 s3 s2 s1 s0 : vfold a [s5; s4; s3; s2; s1; s0] = vadd (vpow 6 a) (V s5 s4 s3 s2 s1 s0).
Proof.
  rewrite fold_linear. cbn [length]. f_equal. unfold vfold. cbn [fold_left]. unfold vstep at 6. rewrite vF_zero, vadd_zero_l.
  assert (E : forall x4 x3 x2 x1 x0 e, vstep (V G0 x4 x3 x2 x1 x0) e = V x4 x3 x2 x1 x0 e).
  { intros. unfold vstep, vF, vshift, vscale, vadd, vsym, gen. cbn [v5 v4 v3 v2 v1 v0].
    change (gmul G0 ?g) with G0. repeat (change (gmul G0 _) with G0). f_equal; change (gmul G0 ?g) with G0; rewrite ?(gadd_comm _ G0), ?gadd_0; reflexivity. }
  unfold vsym. rewrite !E. reflexivity.
Qed.
Lemma expand_checksum_eq c : 0 <= c < 2 ^ 30 -> bech32_expand_checksum c = map gz (vlist (zv c)).
Proof.
  intros H. unfold bech32_expand_checksum, vlist, zv. cbn [map v5 v4 v3 v2 v1 v0]. unfold coord, u5.
  rewrite !gz_zg by (apply Z.mod_pos_bound; lia). rewrite !Z.shiftr_div_pow2 by lia. reflexivity.
Qed.
Lemma map_gz_zg l : symbols l -> map gz (map zg l) = l.
Proof. induction 1 as [|d l Hd _ IH]; [reflexivity|]. cbn [map]. rewrite gz_zg by exact Hd. f_equal. exact IH. Qed.
Lemma map_zg_gz l : map zg (map gz l) = l.
Proof. induction l as [|d l IH]; [reflexivity|]. cbn [map]. rewrite zg_gz. f_equal. exact IH. Qed.
Lemma checksum_six x : symbols x -> forall v, exists c, 0 <= c < 2 ^ 30 /\ Z.lxor (bech32_checksum (x ++ repeat 0 6)) (bech32_constant v) = c /\
  zv c = vadd (vpow 6 (vfold (zv 1) (map zg x))) (zv (bech32_constant v)).
Proof.
  intros X v. eexists. split; [|split; [reflexivity|]].
  - apply lxor_range; [lia| |apply constant_range]. apply checksum_zv. apply Forall_app. split; [exact X|]. repeat constructor; lia.
  - rewrite zv_lxor. f_equal. destruct (checksum_zv (x ++ repeat 0 6)) as [E _].
    { apply Forall_app. split; [exact X|]. repeat constructor; lia. }
    rewrite E. rewrite map_app. unfold vfold at 1. rewrite fold_left_app. fold (vfold (zv 1) (map zg x)).
    change (map zg (repeat 0 6)) with [G0; G0; G0; G0; G0; G0].
    change (fold_left vstep [G0; G0; G0; G0; G0; G0] ?a) with (vfold a [G0; G0; G0; G0; G0; G0]). rewrite fold_six. apply vadd_zero_r.
Qed.
Lemma six_list (l : list Z) : len l = 6 -> exists a b c d e f, l = [a; b; c; d; e; f].
Proof.
  unfold len. intros H. do 6 (destruct l; [cbn in H; lia|]). destruct l; [|cbn in H; lia]. do 6 eexists. reflexivity.
Qed.
Lemma verify_exact data check prefix v : ascii prefix -> symbols data -> symbols check -> len check = 6 ->
  bech32_verify_checksum (data ++ check) prefix v = true <-> data ++ check = bech32_append_checksum data prefix v.
Proof.
  intros A D K L. rewrite verify_fold; [|exact A|apply Forall_app; auto]. unfold bech32_append_checksum. cbv zeta. rewrite expand_eq by exact A.
  set (x := expand (map lower prefix) ++ data).
  assert (X : symbols x) by (apply Forall_app; split; [apply expand_symbols, map_lower_ascii, A|exact D]).
  destruct (checksum_six x X v) as (c & R & -> & E). rewrite expand_checksum_eq by exact R.
  replace (expand (map lower prefix) ++ data ++ check) with (x ++ check) by (unfold x; rewrite app_assoc; reflexivity).
  rewrite map_app. unfold vfold. rewrite fold_left_app. fold (vfold (zv 1) (map zg x)). set (a := vfold (zv 1) (map zg x)) in *.
  destruct (six_list check L) as (s5 & s4 & s3 & s2 & s1 & s0 & ->). cbn [map].
  change (fold_left vstep ?l a) with (vfold a l). rewrite fold_six. rewrite E.
  assert (Q : forall x y z : vec, vadd x y = z <-> y = vadd x z).
  { intros p q r. split.
    - intros <-. rewrite vadd_assoc, vadd_self, vadd_zero_l. reflexivity.
    - intros ->. rewrite vadd_assoc, vadd_self, vadd_zero_l. reflexivity. }
  rewrite Q. rewrite <- E. assert (B : forall p q : list Z, data ++ p = data ++ q <-> p = q) by (intros; split; [apply app_inv_head|congruence]).
  rewrite B. destruct (zv c) as [c5 c4 c3 c2 c1 c0]. unfold vlist. cbn [map v5 v4 v3 v2 v1 v0].
  assert (G : forall s g, 0 <= s < 32 -> (zg s = g <-> s = gz g)).
  { intros s g Hs. split; [intros <-; symmetry; apply gz_zg, Hs|intros ->; apply zg_gz]. }
  inversion K as [|? ? K5 K']; subst. inversion K' as [|? ? K4 K'']; subst. inversion K'' as [|? ? K3 K3']; subst. inversion K3' as [|? ? K2 K2']; subst.
  inversion K2' as [|? ? K1 K1']; subst. inversion K1' as [|? ? K0 _]; subst.
  split.
  - intros H. injection H as H5 H4 H3 H2 H1 H0. apply G in H5, H4, H3, H2, H1, H0; try assumption. congruence.
  - intros H. injection H as H5 H4 H3 H2 H1 H0. f_equal; apply G; assumption.
Qed.
Lemma append_symbols data prefix v : ascii prefix -> symbols data ->
  exists check, bech32_append_checksum data prefix v = data ++ check /\ symbols check /\ len check = 6.
Proof.
  intros A D. unfold bech32_append_checksum. cbv zeta. eexists. split; [reflexivity|]. split; [|reflexivity].
  unfold bech32_expand_checksum. apply Forall_map. apply Forall_forall. intros i _. cbv beta. unfold u5. apply Z.mod_pos_bound. lia.
Qed.

(** * Substitutions *)
Lemma subs_sup a : forall b, symbols a -> symbols b -> len a = len b -> length (sup (diff (map zg a) (map zg b))) = substitutions a b.
Proof.
  induction a as [|x a IH]; intros [|y b] A B L; try reflexivity. inversion A as [|? ? Hx A']; subst. inversion B as [|? ? Hy B']; subst.
  rewrite !len_cons in L. unfold diff. cbn [map combine]. fold (diff (map zg a) (map zg b)). cbn [sup substitutions fst snd].
  specialize (IH b A' B' ltac:(lia)). destruct (Z.eqb_spec x y) as [->|N].
  - rewrite gadd_self. exact IH.
  - destruct (gnz (gadd (zg x) (zg y))) eqn:E; [cbn [length]; rewrite IH; reflexivity|]. exfalso. apply N.
    assert (Z0 : gadd (zg x) (zg y) = G0) by (destruct (gadd (zg x) (zg y)); cbn in E; congruence).
    rewrite <- (gz_zg x Hx), <- (gz_zg y Hy). f_equal. rewrite <- (gadd_0 (zg y)), <- Z0, <- gadd_assoc, gadd_self, gadd_comm. symmetry. apply gadd_0.
Qed.
Lemma fold_prefix_diff p a b : length a = length b ->
  vadd (vfold (zv 1) (p ++ a)) (vfold (zv 1) (p ++ b)) = vsum (sup (diff a b)).
Proof.
  intros L. unfold vfold. rewrite !fold_left_app. fold (vfold (zv 1) p). change (fold_left vstep ?l ?x) with (vfold x l).
  rewrite fold_diff by exact L. rewrite vadd_self. apply fold_sup.
Qed.
Lemma diff_length a b : length a = length b -> length (diff a b) = length a.
Proof. intros H. unfold diff. rewrite map_length, combine_length. lia. Qed.
Lemma zg_len (l : list Z) : length (map zg l) = Z.to_nat (len l).
Proof. rewrite map_length. unfold len. lia. Qed.
Lemma detect_same prefix a b v w : ascii prefix -> symbols a -> symbols b -> len a = len b -> len a <= 89 ->
  (1 <= substitutions a b <= 4)%nat -> bech32_constant v = bech32_constant w ->
  bech32_verify_checksum a prefix v = true -> bech32_verify_checksum b prefix w = false.
Proof.
  intros P A B L N SB EC H. apply not_true_iff_false. intros K.
  rewrite verify_fold in H by assumption. rewrite verify_fold in K by assumption. rewrite map_app in H, K.
  assert (LL : length (map zg a) = length (map zg b)) by (rewrite !zg_len; lia).
  pose proof (fold_prefix_diff (map zg (expand (map lower prefix))) _ _ LL) as F. rewrite H, K, EC, vadd_self in F. symmetry in F. revert F.
  apply four_errors.
  - eapply falling_le; [|apply sup_falling]. rewrite diff_length, zg_len by exact LL. lia.
  - rewrite subs_sup by assumption. exact SB.
Qed.
Lemma detect_change prefix a b v w : ascii prefix -> symbols a -> symbols b -> len a = len b -> len a <= 71 ->
  (substitutions a b <= 3)%nat -> bech32_constant v <> bech32_constant w ->
  bech32_verify_checksum a prefix v = true -> bech32_verify_checksum b prefix w = false.
Proof.
  intros P A B L N SB EC H. apply not_true_iff_false. intros K.
  rewrite verify_fold in H by assumption. rewrite verify_fold in K by assumption. rewrite map_app in H, K.
  assert (LL : length (map zg a) = length (map zg b)) by (rewrite !zg_len; lia).
  pose proof (fold_prefix_diff (map zg (expand (map lower prefix))) _ _ LL) as F. rewrite H, K in F.
  assert (C : vadd (zv (bech32_constant v)) (zv (bech32_constant w)) = zv change_constant).
  { unfold bech32_constant in *. destruct (v =? 0), (w =? 0); try congruence; reflexivity. }
  rewrite C in F. symmetry in F. revert F. apply constant_errors.
  - eapply falling_le; [|apply sup_falling]. rewrite diff_length, zg_len by exact LL. lia.
  - rewrite subs_sup by assumption. exact SB.
Qed.
