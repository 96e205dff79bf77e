(** * C76: which scripts are batched, and the condition of a threshold. *)
From Verif Require Import Base Bytes StateModel OpModel ChainModel ValidModel PatternModel BatchModel.

Lemma last_shape {A} (d : A) (s : list A) : (1 <= length s)%nat -> s = firstn (length s - 1) s ++ [last s d].
Proof.
  intros H. destruct (@exists_last _ s) as (l & x & ->); [intros ->; cbn in H; lia|]. rewrite last_last, app_length. cbn [length]. replace (length l + 1 - 1)%nat with (length l) by lia.
  rewrite firstn_app, firstn_all, Nat.sub_diag, firstn_O, app_nil_r. reflexivity.
Qed.
(** The multisig scripts that are captured: m, one to sixteen public keys, n, checkmultisig. *)
Definition multisig_script (s : script) : Prop := exists m keys n check, s = m :: keys ++ [n; check] /\
  code check = 174 /\ 1 <= len keys <= 16 /\ code n = 80 + len keys /\ 81 <= code m <= code n /\ Forall (fun o => is_public_key (data o) = true) keys.
Theorem C76_multisig_script s : is_multisig_standard_pattern s = true <-> multisig_script s.
Proof.
  unfold is_multisig_standard_pattern, multisig_script. split.
  - destruct (_ || negb _) eqn:B; [discriminate|]. cbv zeta. assert (L : 4 <= len s) by lia. assert (Lc : code (last s (mkop 0 [] false)) = 174) by lia. clear B.
    destruct (negb (is_positive_op (code (nth_op 0 s))) || negb (is_positive_op (code (nth_op (length s - 2) s)))) eqn:P; [discriminate|]. destruct (_ || negb (_ =? len s - 3)) eqn:Q; [discriminate|]. intros K.
    destruct s as [|m t]; [unfold len in L; cbn in L; lia|]. assert (Lt : (3 <= length t)%nat) by (unfold len in L; cbn [length] in L; lia).
    pose proof (last_shape (mkop 0 [] false) t ltac:(lia)) as E1. set (u := firstn (length t - 1) t) in *. assert (Lu : length u = (length t - 1)%nat) by (unfold u; rewrite firstn_length; lia).
    pose proof (last_shape (mkop 0 [] false) u ltac:(lia)) as E2. set (keys := firstn (length u - 1) u) in *. assert (Lk : length keys = (length t - 2)%nat) by (unfold keys; rewrite firstn_length; lia).
    assert (El : last (m :: t) (mkop 0 [] false) = last t (mkop 0 [] false)) by (destruct t; [cbn in Lt; lia|reflexivity]). rewrite El in Lc. set (check := last t (mkop 0 [] false)) in *. set (n := last u (mkop 0 [] false)) in *.
    clearbody keys n check u. subst u. assert (Et : t = keys ++ [n; check]) by (rewrite E1, <- app_assoc; reflexivity). clear E1 El Lu. subst t.
    assert (N2 : nth_op (length (m :: keys ++ [n; check]) - 2) (m :: keys ++ [n; check]) = n).
    { unfold nth_op. cbn [length]. rewrite app_length. cbn [length]. replace (S (length keys + 2) - 2)%nat with (S (length keys)) by lia. cbn [nth]. rewrite app_nth2, Nat.sub_diag by lia. reflexivity. }
    rewrite N2 in P, Q. change (nth_op 0 (m :: keys ++ [n; check])) with m in P, Q.
    assert (Lz : len (m :: keys ++ [n; check]) = len keys + 3) by (unfold len; cbn [length]; rewrite app_length; cbn [length]; lia). rewrite Lz in Q.
    exists m, keys, n, check. split; [reflexivity|]. split; [exact Lc|]. unfold is_positive_op in P. split; [lia|]. split; [lia|]. split; [lia|].
    cbn [length skipn] in K. rewrite app_length in K. cbn [length] in K. replace (S (length keys + 2) - 3)%nat with (length keys) in K by lia. rewrite firstn_app, firstn_all, Nat.sub_diag, firstn_O, app_nil_r in K. apply Forall_forall. rewrite forallb_forall in K. exact K.
  - intros (m & keys & n & check & -> & Hc & Hk & Hn & Hm & F).
    assert (Lz : len (m :: keys ++ [n; check]) = len keys + 3) by (unfold len; cbn [length]; rewrite app_length; cbn [length]; lia). rewrite Lz.
    assert (El : last (m :: keys ++ [n; check]) (mkop 0 [] false) = check) by (change (m :: keys ++ [n; check]) with ((m :: keys) ++ [n] ++ [check]); rewrite app_assoc; apply last_last). rewrite El, Hc.
    replace ((len keys + 3 <? 4) || negb (174 =? 174)) with false by lia. cbv zeta.
    assert (N2 : nth_op (length (m :: keys ++ [n; check]) - 2) (m :: keys ++ [n; check]) = n).
    { unfold nth_op. cbn [length]. rewrite app_length. cbn [length]. replace (S (length keys + 2) - 2)%nat with (S (length keys)) by lia. cbn [nth]. rewrite app_nth2, Nat.sub_diag by lia. reflexivity. }
    rewrite N2. change (nth_op 0 (m :: keys ++ [n; check])) with m. unfold is_positive_op.
    destruct (negb _ || negb _) eqn:P; [exfalso; lia|]. destruct (_ || negb (_ =? _)) eqn:Q; [exfalso; lia|].
    cbn [length skipn]. rewrite app_length. cbn [length]. replace (S (length keys + 2) - 3)%nat with (length keys) by lia. rewrite firstn_app, firstn_all, Nat.sub_diag, firstn_O, app_nil_r. apply forallb_forall. apply Forall_forall. exact F.
Qed.
(** The tapscripts with one signature that are captured: checksig alone; a 32 byte key
    and checksig; the same after a time lock; the same before an inscription. *)
Definition key_check (a b : op) : Prop := len (data a) = 32 /\ code b = 172.
Definition signature_script (s : script) : Prop :=
  (exists a, s = [a] /\ code a = 172) \/ (exists a b, s = [a; b] /\ key_check a b) \/
  (exists n lock drop a b, s = [n; lock; drop; a; b] /\ is_nonnegative_op (code n) = true /\ (code lock = 177 \/ code lock = 178) /\ code drop = 117 /\ key_check a b) \/
  (exists a b zero cond body close, s = a :: b :: zero :: cond :: body ++ [close] /\ key_check a b /\ code zero = 0 /\ code cond = 99 /\ code close = 104).
Theorem C76_signature_script s : is_key_path_pattern s || is_tapscript_single_pattern s || is_tapscript_timelock_pattern s || is_tapscript_inscription_pattern s = true <-> signature_script s.
Proof.
  assert (I : is_tapscript_inscription_pattern s = true <-> exists a b zero cond body close, s = a :: b :: zero :: cond :: body ++ [close] /\ key_check a b /\ code zero = 0 /\ code cond = 99 /\ code close = 104).
  { unfold is_tapscript_inscription_pattern, key_check. split.
    - intros H. rewrite !Bool.andb_true_iff, !Z.eqb_eq in H. destruct H as (((((L & H0) & H1) & H2) & H3) & H4). destruct s as [|a [|b [|zero [|cond t]]]]; try (unfold len in L; cbn in L; lia).
      assert (Lt : (1 <= length t)%nat) by (unfold len in L; cbn [length] in L; lia). pose proof (last_shape (mkop 0 [] false) t Lt) as E. exists a, b, zero, cond, (firstn (length t - 1) t), (last t (mkop 0 [] false)).
      split; [rewrite <- E; reflexivity|]. split; [split; assumption|]. split; [assumption|]. split; [assumption|]. destruct t; [cbn in Lt; lia|exact H4].
    - intros (a & b & zero & cond & body & close & -> & (H0 & H1) & H2 & H3 & H4). assert (El : last (a :: b :: zero :: cond :: body ++ [close]) (mkop 0 [] false) = close) by (change (a :: b :: zero :: cond :: body ++ [close]) with ((a :: b :: zero :: cond :: body) ++ [close]); apply last_last).
      rewrite El. unfold nth_op. cbn [nth]. rewrite H0, H1, H2, H3, H4. assert (L : len (a :: b :: zero :: cond :: body ++ [close]) > 4) by (unfold len; cbn [length]; rewrite app_length; cbn [length]; lia). replace (len _ >? 4) with true by lia. reflexivity. }
  rewrite !Bool.orb_true_iff, I. clear I. unfold signature_script, key_check. split.
  - intros [[[H|H]|H]|H]; [left|right; left|right; right; left|right; right; right; exact H].
    + unfold is_key_path_pattern in H. destruct s as [|a [|b s]]; try discriminate H. exists a. split; [reflexivity|lia].
    + unfold is_tapscript_single_pattern in H. destruct s as [|a [|b [|x s]]]; try discriminate H. exists a, b. split; [reflexivity|lia].
    + unfold is_tapscript_timelock_pattern in H. destruct s as [|n [|lock [|drop [|a [|b [|x s]]]]]]; try discriminate H. exists n, lock, drop, a, b. rewrite !Bool.andb_true_iff, Bool.orb_true_iff, !Z.eqb_eq in H. destruct H as ((((H1 & H2) & H3) & H4) & H5). split; [reflexivity|]. auto.
  - intros [(a & -> & H)|[(a & b & -> & H)|[(n & lock & drop & a & b & -> & H1 & H2 & H3 & H4 & H5)|H]]]; [left; left; left|left; left; right|left; right|right; exact H].
    + unfold is_key_path_pattern. lia.
    + unfold is_tapscript_single_pattern. lia.
    + unfold is_tapscript_timelock_pattern. rewrite H1, H3, H4, H5. cbn [andb]. rewrite !Bool.andb_true_r, Bool.orb_true_iff, !Z.eqb_eq. exact H2.
Qed.
(** A threshold is met by [k] signatures when the comparison that ends the script
    holds of k and the numbers before it. *)
Definition comparison (c k low high : Z) : Prop :=
  match c with
  | 172 | 156 => k = low   (* checksig after checksigverify; numequal *)
  | 158 => k <> low        (* numnotequal *)
  | 159 => k < low         (* lessthan *)
  | 160 => k > low         (* greaterthan *)
  | 161 => k <= low        (* lessthanorequal *)
  | 162 => k >= low        (* greaterthanorequal *)
  | 165 => low <= k < high (* within *)
  | _ => False
  end.
Theorem C76_condition c low high k : is_satisfied (Some (c, low, high)) k = true <-> comparison c k low high.
Proof.
  unfold is_satisfied. destruct (Z.eqb_spec c 172) as [->|N1]; [cbn [orb comparison]; apply Z.eqb_eq|]. destruct (Z.eqb_spec c 156) as [->|N2]; [cbn [orb comparison]; apply Z.eqb_eq|]. cbn [orb].
  destruct (Z.eqb_spec c 157) as [->|N3]; [cbn [comparison]; split; [discriminate|intros []]|].
  destruct (Z.eqb_spec c 158) as [->|N4]; [cbn [comparison]; lia|]. destruct (Z.eqb_spec c 159) as [->|N5]; [cbn [comparison]; lia|]. destruct (Z.eqb_spec c 160) as [->|N6]; [cbn [comparison]; lia|].
  destruct (Z.eqb_spec c 161) as [->|N7]; [cbn [comparison]; lia|]. destruct (Z.eqb_spec c 162) as [->|N8]; [cbn [comparison]; lia|]. destruct (Z.eqb_spec c 165) as [->|N9]; [cbn [comparison]; lia|].
  split; [discriminate|]. intros H. exfalso. revert H. unfold comparison.
  destruct c as [|p|p]; auto. do 8 (destruct p as [p|p|]; auto); lia.
Qed.
Print Assumptions C76_multisig_script.
Print Assumptions C76_signature_script.
Print Assumptions C76_condition.
(** One of two keys, and a time locked key. *)
Example C76_patterns_ex : is_multisig_standard_pattern [mkop 81 [] false; mkop 33 (2 :: repeat 1 32) false; mkop 33 (3 :: repeat 1 32) false; mkop 82 [] false; mkop 174 [] false] = true /\
  is_tapscript_timelock_pattern [mkop 81 [] false; mkop 178 [] false; mkop 117 [] false; mkop 32 (repeat 5 32) false; mkop 172 [] false] = true.
Proof. split; vm_compute; reflexivity. Qed.
