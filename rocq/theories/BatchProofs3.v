(** Batch verification: groups, and the failures of a batch. *)
From Verif Require Import Base Bytes MathModel StreamModel NumberModel StateModel OpModel ChainModel BlockModel ValidModel PatternModel InterpEnv InterpModel InterpTrace InterpEarly BatchModel BatchProofs BatchSpec.
From Coq Require Import Permutation.

Section Group.
Variables ve : list Z -> list Z -> list Z -> bool.
(** [ploop], without an environment *)
Fixpoint floop (hash : list Z) (keys sigs : list (list Z)) : list (list Z) :=
  match keys with
  | [] => sigs
  | key :: rest => match sigs with [] => [] | sig :: more => floop hash rest (if ve key hash sig then more else sigs) end
  end.
Lemma floop_nil hash keys : floop hash keys [] = [].
Proof. destruct keys; reflexivity. Qed.
Lemma floop_len hash keys : forall sigs, len sigs <= len keys + len (floop hash keys sigs).
Proof.
  induction keys as [|k keys IH]; intros sigs; cbn [floop]; [change (len (@nil (list Z))) with 0; lia|].
  pose proof (len_nonneg keys). destruct sigs as [|g sigs]; [rewrite len_cons; change (len (@nil (list Z))) with 0; lia|].
  destruct (ve k hash g); [specialize (IH sigs)|specialize (IH (g :: sigs))]; rewrite !len_cons in *; lia.
Qed.
Lemma group_floop hash keys : forall sigs, group_loop ve hash keys sigs = [] <-> floop hash keys sigs = [].
Proof.
  induction keys as [|k keys IH]; intros sigs; cbn [group_loop floop]; [reflexivity|].
  destruct sigs as [|g sigs]; [reflexivity|].
  destruct (len (k :: keys) >=? len (g :: sigs)) eqn:C; [apply IH|]. rewrite Z.geb_leb in C. apply Z.leb_gt in C. split; [discriminate|]. intros F.
  pose proof (floop_len hash (k :: keys) (g :: sigs)) as L. cbn [floop] in L. rewrite F in L. change (len (@nil (list Z))) with 0 in L. lia.
Qed.
Lemma floop_matching hash keys : forall sigs, floop hash keys sigs = [] <-> matching (fun k g => ve k hash g) keys sigs.
Proof.
  induction keys as [|k keys IH]; intros sigs; cbn [floop].
  - split; [intros ->; constructor|]. intros H. inversion H; reflexivity.
  - destruct sigs as [|g sigs]; [split; [constructor|reflexivity]|]. rewrite IH. destruct (ve k hash g) eqn:E; split; intros H.
    + apply match_take; assumption.
    + eapply matching_greedy; [|exact H]. exact E.
    + apply match_skip, H.
    + inversion H; subst; [congruence|assumption].
Qed.
Lemma verify_group_matching digest keys sigs : verify_group ve (digest, keys, sigs) = true <-> matching (fun k g => ve k digest g) keys sigs.
Proof.
  rewrite <- floop_matching, <- group_floop. cbn [verify_group]. destruct (group_loop _ _ _ _); split; congruence.
Qed.

(** The band *)
Variables (digest : list Z) (keys sigs : list (list Z)).
Notation n := (len keys).
Notation m := (len sigs).
Hypothesis sizes : 1 <= m <= n.
Hypothesis bound : n <= 16.
Definition in_band (i j : Z) : bool := (i <=? j) && (j <=? i + (n - m)).
Definition key_at (j : Z) : list Z := nth (Z.to_nat j) keys [].
Definition sig_at (i : Z) : list Z := nth (Z.to_nat i) sigs [].

(** first match *)
Definition hit (i j : Z) : bool := ve (key_at j) digest (sig_at i).
Lemma skipn_nth {A} (l : list A) k d : (k < length l)%nat -> skipn k l = nth k l d :: skipn (S k) l.
Proof. revert k. induction l as [|x l IH]; intros [|k] H; cbn in *; try lia; [reflexivity|]. apply IH. lia. Qed.
Lemma floop_step i k : 0 <= i < m -> 0 <= k < n ->
  floop digest (skipn (Z.to_nat k) keys) (skipn (Z.to_nat i) sigs) =
  floop digest (skipn (Z.to_nat (k + 1)) keys) (skipn (Z.to_nat (if hit i k then i + 1 else i)) sigs).
Proof.
  intros Hi Hk. rewrite (skipn_nth keys (Z.to_nat k) []) by (unfold len in *; lia). rewrite (skipn_nth sigs (Z.to_nat i) []) by (unfold len in *; lia).
  cbn [floop]. unfold hit, key_at, sig_at. replace (Z.to_nat (k + 1)) with (S (Z.to_nat k)) by lia.
  destruct (ve _ _ _); [replace (Z.to_nat (i + 1)) with (S (Z.to_nat i)) by lia; reflexivity|].
  rewrite <- (skipn_nth sigs (Z.to_nat i) []) by (unfold len in *; lia). reflexivity.
Qed.
Lemma skipn_len {A} (l : list A) k : 0 <= k <= len l -> len (skipn (Z.to_nat k) l) = len l - k.
Proof. intros H. unfold len in *. rewrite skipn_length. lia. Qed.
(** Too few keys are left. *)
Lemma floop_short i k : 0 <= i < m -> 0 <= k <= n -> n - k < m - i -> floop digest (skipn (Z.to_nat k) keys) (skipn (Z.to_nat i) sigs) <> [].
Proof.
  intros Hi Hk L E. pose proof (floop_len digest (skipn (Z.to_nat k) keys) (skipn (Z.to_nat i) sigs)) as F. rewrite E in F. rewrite !skipn_len in F by lia.
  change (len (@nil (list Z))) with 0 in F. lia.
Qed.
Variable masks : list Z.
Hypothesis masks_ok : forall i j, 0 <= i < m -> 0 <= j < n -> Z.testbit (nth (Z.to_nat i) masks 0) j = in_band i j && hit i j.
Lemma match_beyond i : 0 <= i < m -> forall fuel k, 0 <= k -> i + (n - m) < k -> fst (match_key (nth (Z.to_nat i) masks 0) n fuel k) = false.
Proof.
  intros Hi. induction fuel as [|fuel IH]; intros k Hk L; cbn [match_key]; [reflexivity|]. destruct (Z.ltb_spec k n) as [Lk|Lk]; [|reflexivity].
  rewrite masks_ok by lia. assert (B : in_band i k = false) by (unfold in_band; lia). rewrite B. cbn [andb]. apply IH; lia.
Qed.
(** One signature *)
Lemma match_key_ok i : 0 <= i < m -> forall fuel k, i <= k -> k <= n -> n - k <= Z.of_nat fuel ->
  let (found, k') := match_key (nth (Z.to_nat i) masks 0) n fuel k in
  if found : bool then k < k' <= n /\ floop digest (skipn (Z.to_nat k) keys) (skipn (Z.to_nat i) sigs) = floop digest (skipn (Z.to_nat k') keys) (skipn (Z.to_nat (i + 1)) sigs)
  else floop digest (skipn (Z.to_nat k) keys) (skipn (Z.to_nat i) sigs) <> [].
Proof.
  intros Hi. induction fuel as [|fuel IH]; intros k Hk Hn Hf; cbn [match_key].
  - apply floop_short; lia.
  - destruct (Z.ltb_spec k n) as [L|L]; [|apply floop_short; lia].
    rewrite masks_ok by lia. destruct (in_band i k) eqn:B.
    + cbn [andb]. rewrite (floop_step i k) by lia. destruct (hit i k).
      * split; [lia|reflexivity].
      * specialize (IH (k + 1) ltac:(lia) ltac:(lia) ltac:(lia)). destruct (match_key _ _ _ _) as [[] k']; [|exact IH]. split; [lia|apply IH].
    + cbn [andb]. assert (Sh : i + (n - m) < k). { clear - B Hk. unfold in_band in B. lia. }
      pose proof (match_beyond i Hi fuel (k + 1) ltac:(lia) ltac:(lia)) as N. destruct (match_key _ _ _ _) as [found k']. cbn [fst] in N. subst found. apply floop_short; lia.
Qed.
Lemma threshold_ok : forall cnt i k, 0 <= i -> i + Z.of_nat cnt = m -> i <= k <= n ->
  threshold_loop masks n (seq (Z.to_nat i) cnt) k = true <-> floop digest (skipn (Z.to_nat k) keys) (skipn (Z.to_nat i) sigs) = [].
Proof.
  induction cnt as [|cnt IH]; intros i k Hi Hm Hk; cbn [seq threshold_loop].
  - assert (E : skipn (Z.to_nat i) sigs = []). { apply skipn_all2. unfold len in *. lia. } rewrite E, floop_nil. split; reflexivity.
  - pose proof (match_key_ok i ltac:(lia) (Z.to_nat n) k ltac:(lia) ltac:(lia) ltac:(lia)) as M.
    destruct (match_key _ _ _ _) as [[] k'].
    + destruct M as [R ->]. replace (S (Z.to_nat i)) with (Z.to_nat (i + 1)) by lia. apply IH; lia.
    + split; [discriminate|]. intros E. contradiction.
Qed.
Lemma meets_ok : meets_threshold m n masks = verify_group ve (digest, keys, sigs).
Proof.
  unfold meets_threshold. destruct (Z.gtb_spec m n); [lia|].
  pose proof (threshold_ok (Z.to_nat m) 0 0 ltac:(lia) ltac:(lia) ltac:(lia)) as T. cbn [Z.to_nat skipn] in T.
  rewrite <- group_floop in T. cbn [verify_group]. destruct (threshold_loop _ _ _ _), (group_loop _ _ _ _); try reflexivity.
  - assert (X : l :: l0 = []) by (apply T; reflexivity). discriminate.
  - apply T; reflexivity.
Qed.
End Group.

(** The matrix *)
Definition sig_of (p : ecdsa_row * bool) : Z := r_pair (fst p) / 16.
Definition key_of (p : ecdsa_row * bool) : Z := r_pair (fst p) mod 16.
Definition marks (i j : Z) (p : ecdsa_row * bool) : bool := snd p && (sig_of p =? i) && (key_of p =? j).
Lemma set_success_ok l i j i' j' : length l = 16%nat -> 0 <= i < 16 -> 0 <= j -> 0 <= i' < 16 -> 0 <= j' ->
  length (set_success l (Z.to_nat i) j) = 16%nat /\
  Z.testbit (nth (Z.to_nat i') (set_success l (Z.to_nat i) j) 0) j' = Z.testbit (nth (Z.to_nat i') l 0) j' || ((i =? i') && (j =? j')).
Proof.
  intros L Hi Hj Hi' Hj'. unfold set_success. split.
  - rewrite !app_length, firstn_length, skipn_length. cbn [length]. lia.
  - destruct (Z.eqb_spec i i') as [<-|N].
    + rewrite app_nth2; rewrite firstn_length, Nat.min_l by lia; [|lia]. rewrite Nat.sub_diag. cbn [nth app]. rewrite Z.lor_spec, Z.pow2_bits_eqb by lia. reflexivity.
    + cbn [andb]. rewrite Bool.orb_false_r. f_equal. destruct (Z.lt_ge_cases i' i) as [C|C].
      * rewrite app_nth1 by (rewrite firstn_length; lia). rewrite <- (firstn_skipn (Z.to_nat i) l) at 2. rewrite app_nth1 by (rewrite firstn_length; lia). reflexivity.
      * rewrite app_nth2 by (rewrite firstn_length; lia). rewrite firstn_length, Nat.min_l by lia. rewrite app_nth2 by (cbn [length]; lia). cbn [length].
        rewrite <- (firstn_skipn (S (Z.to_nat i)) l) at 2. rewrite app_nth2 by (rewrite firstn_length; lia). rewrite firstn_length, Nat.min_l by lia. f_equal. lia.
Qed.
Lemma matrix_ok rows : Forall (fun p => 0 <= r_pair (fst p) < 256) rows -> forall l a b, length l = 16%nat ->
  exists l' a' b', fold_left matrix_step rows (l, a, b) = (l', a', b') /\ length l' = 16%nat /\
  (forall i j, 0 <= i < 16 -> 0 <= j -> Z.testbit (nth (Z.to_nat i) l' 0) j = Z.testbit (nth (Z.to_nat i) l 0) j || existsb (marks i j) rows) /\
  a <= a' /\ b <= b' /\ (forall p, In p rows -> sig_of p <= a' /\ key_of p <= b') /\
  (a' = a \/ exists p, In p rows /\ a' = sig_of p) /\ (b' = b \/ exists p, In p rows /\ b' = key_of p).
Proof.
  induction 1 as [|p rows Hp _ IH]; intros l a b L.
  - exists l, a, b. cbn. split; [reflexivity|]. split; [exact L|]. split; [intros; rewrite Bool.orb_false_r; reflexivity|]. split; [lia|]. split; [lia|]. split; [intros ? []|auto].
  - cbn [fold_left]. unfold matrix_step at 2. destruct p as [r good]. cbn [fst] in Hp.
    assert (Hs : 0 <= r_pair r / 16 < 16) by (split; [apply Z.div_pos; lia|apply Z.div_lt_upper_bound; lia]).
    assert (Hk : 0 <= r_pair r mod 16 < 16) by (apply Z.mod_pos_bound; lia).
    set (l1 := if good then set_success l (Z.to_nat (r_pair r / 16)) (r_pair r mod 16) else l).
    assert (L1 : length l1 = 16%nat /\ forall i j, 0 <= i < 16 -> 0 <= j -> Z.testbit (nth (Z.to_nat i) l1 0) j = Z.testbit (nth (Z.to_nat i) l 0) j || marks i j (r, good)).
    { unfold l1, marks, sig_of, key_of. cbn [fst snd]. destruct good; cbn [andb].
      - split; [apply (set_success_ok l _ _ 0 0); lia|]. intros i j Hi Hj. apply set_success_ok; assumption || lia.
      - split; [exact L|]. intros. rewrite Bool.orb_false_r. reflexivity. }
    destruct L1 as [L1 B1]. destruct (IH l1 (Z.max (r_pair r / 16) a) (Z.max (r_pair r mod 16) b) L1) as (l' & a' & b' & E & L' & B' & A1 & A2 & A3 & A4 & A5).
    exists l', a', b'. split; [exact E|]. split; [exact L'|]. split; [|split; [lia|split; [lia|split; [|split]]]].
    + intros i j Hi Hj. rewrite B', B1 by assumption. cbn [existsb]. rewrite Bool.orb_assoc. reflexivity.
    + intros q [<-|Hq]; [unfold sig_of, key_of; cbn [fst]; lia|]. apply A3, Hq.
    + destruct A4 as [->|(q & Hq & ->)]; [|right; exists q; split; [right; exact Hq|reflexivity]].
      destruct (Z.max_spec (r_pair r / 16) a) as [[_ ->]|[_ ->]]; [left; reflexivity|right; exists (r, good); split; [left; reflexivity|reflexivity]].
    + destruct A5 as [->|(q & Hq & ->)]; [|right; exists q; split; [right; exact Hq|reflexivity]].
      destruct (Z.max_spec (r_pair r mod 16) b) as [[_ ->]|[_ ->]]; [left; reflexivity|right; exists (r, good); split; [left; reflexivity|reflexivity]].
Qed.

Section Rows.
Variables ve : list Z -> list Z -> list Z -> bool.
Notation checked_row := (fun r => (r, verify_ecdsa_row ve r)).
Lemma in_band_list sigs keys i j : In (i, j) (band sigs keys) <-> (i < sigs /\ i <= j <= i + (keys - sigs))%nat.
Proof.
  unfold band. rewrite in_flat_map. split.
  - intros (x & Hx & Hp). apply in_map_iff in Hp. destruct Hp as (y & [= <- <-] & Hy). apply in_seq in Hx, Hy. lia.
  - intros H. exists i. split; [apply in_seq; lia|]. apply in_map_iff. exists j. split; [reflexivity|]. apply in_seq. lia.
Qed.
Lemma pair_split i j : 0 <= j < 16 -> (16 * i + j) / 16 = i /\ (16 * i + j) mod 16 = j.
Proof. intros H. split; [symmetry; apply (Z.div_unique _ 16 i j); lia|symmetry; apply (Z.mod_unique _ 16 i j); lia]. Qed.
Lemma group_rows_nonempty id ordinal g : group_ok g -> group_rows id ordinal g <> [].
Proof.
  destruct g as [[digest keys] sigs]. intros [H B] E. unfold group_rows in E. apply map_eq_nil in E.
  assert (I : In (0%nat, 0%nat) (band (length sigs) (length keys))) by (apply in_band_list; unfold len in *; lia). rewrite E in I. destruct I.
Qed.
Lemma group_success_ok id ordinal g chunk : group_ok g -> Permutation (group_rows id ordinal g) chunk ->
  group_success (map checked_row chunk) = verify_group ve g.
Proof.
  destruct g as [[digest keys] sigs]. intros [Hs Hb] P.
  assert (In_chunk : forall r, In r chunk <-> exists i j, (i < length sigs /\ i <= j <= i + (length keys - length sigs))%nat /\
      r = mkrow id (16 * Z.of_nat i + Z.of_nat j) ordinal digest (nth j keys []) (nth i sigs [])).
  { intros r. transitivity (In r (group_rows id ordinal (digest, keys, sigs))); [split; apply Permutation_in; [apply Permutation_sym|]; exact P|].
    unfold group_rows. rewrite in_map_iff. split.
    - intros ((i & j) & <- & H). apply in_band_list in H. exists i, j. auto.
    - intros (i & j & H & ->). exists (i, j). split; [reflexivity|]. apply in_band_list, H. }
  assert (M : let '(successes, max_sig, max_key) := fold_left matrix_step (map checked_row chunk) (repeat 0 16, 0, 0) in
              meets_threshold (max_sig + 1) (max_key + 1) successes = verify_group ve (digest, keys, sigs)).
  { assert (Rng : Forall (fun p => 0 <= r_pair (fst p) < 256) (map checked_row chunk)).
    { apply Forall_forall. intros p Hp. apply in_map_iff in Hp. destruct Hp as (r & <- & Hr). apply In_chunk in Hr. destruct Hr as (i & j & H & ->). cbn [fst r_pair]. unfold len in *. lia. }
    destruct (matrix_ok _ Rng (repeat 0 16) 0 0 eq_refl) as (l' & a' & b' & -> & L' & B' & _ & _ & A3 & A4 & A5).
    assert (Hrow : forall i j : nat, (i < length sigs)%nat -> (i <= j <= i + (length keys - length sigs))%nat ->
       exists p, In p (map checked_row chunk) /\ sig_of p = Z.of_nat i /\ key_of p = Z.of_nat j /\ snd p = ve (nth j keys []) digest (nth i sigs [])).
    { intros i j H1 H2. eexists (_, _). split; [apply in_map_iff; eexists; split; [reflexivity|]; apply In_chunk; exists i, j; split; [lia|reflexivity]|].
      unfold sig_of, key_of. cbn [fst snd r_pair]. destruct (pair_split (Z.of_nat i) (Z.of_nat j)) as [-> ->]; [unfold len in *; lia|]. auto. }
    assert (Hin : forall p, In p (map checked_row chunk) -> exists i j, (i < length sigs /\ i <= j <= i + (length keys - length sigs))%nat /\ sig_of p = Z.of_nat i /\ key_of p = Z.of_nat j /\ snd p = ve (nth j keys []) digest (nth i sigs [])).
    { intros p Hp. apply in_map_iff in Hp. destruct Hp as (r & <- & Hr). apply In_chunk in Hr. destruct Hr as (i & j & H & ->). exists i, j. split; [exact H|].
      unfold sig_of, key_of. cbn [fst snd r_pair]. destruct (pair_split (Z.of_nat i) (Z.of_nat j)) as [-> ->]; [unfold len in *; lia|]. auto. }
    assert (Ea : a' = len sigs - 1).
    { destruct (Hrow (length sigs - 1)%nat (length keys - 1)%nat) as (p & Hp & E1 & _); [unfold len in *; lia|unfold len in *; lia|]. destruct (A3 p Hp) as [X _].
      destruct A4 as [->|(q & Hq & ->)]; [unfold len in *; lia|]. destruct (Hin q Hq) as (i & j & H & E & _). unfold len in *. lia. }
    assert (Eb : b' = len keys - 1).
    { destruct (Hrow (length sigs - 1)%nat (length keys - 1)%nat) as (p & Hp & _ & E1 & _); [unfold len in *; lia|unfold len in *; lia|]. destruct (A3 p Hp) as [_ X].
      destruct A5 as [->|(q & Hq & ->)]; [unfold len in *; lia|]. destruct (Hin q Hq) as (i & j & H & _ & E & _). unfold len in *. lia. }
    rewrite Ea, Eb. replace (len sigs - 1 + 1) with (len sigs) by lia. replace (len keys - 1 + 1) with (len keys) by lia.
    apply meets_ok; [exact Hs|]. intros i j Hi Hj. rewrite B' by lia.
    assert (Z0 : Z.testbit (nth (Z.to_nat i) (repeat 0 16) 0) j = false).
    { assert (N : forall k m, nth k (repeat 0 m) 0 = 0) by (induction k; destruct m; cbn; auto). rewrite N. apply Z.testbit_0_l. }
    rewrite Z0. cbn [orb]. apply Bool.eq_iff_eq_true. rewrite existsb_exists, Bool.andb_true_iff. unfold marks. split.
    - intros (p & Hp & E). rewrite !Bool.andb_true_iff, !Z.eqb_eq in E. destruct E as ((E1 & E2) & E3). destruct (Hin p Hp) as (x & y & H & F1 & F2 & F3).
      split; [unfold in_band, len in *; lia|]. unfold hit, key_at, sig_at. rewrite <- E1, F3. f_equal; f_equal; lia.
    - intros [H1 H2]. unfold in_band in H1. destruct (Hrow (Z.to_nat i) (Z.to_nat j)) as (p & Hp & F1 & F2 & F3); [unfold len in *; lia|unfold len in *; lia|].
      exists p. split; [exact Hp|]. rewrite F1, F2, F3. unfold hit, key_at, sig_at in H2. rewrite H2. cbn [andb]. lia. }
  unfold group_success. destruct chunk as [|r [|r2 chunk]]; [exfalso| |cbn [map] in M |- *; destruct (fold_left _ _ _) as [[? ?] ?]; exact M].
  - apply (group_rows_nonempty id ordinal (digest, keys, sigs)); [split; assumption|]. apply Permutation_nil, Permutation_sym, P.
  - (* one row: one of one *)
    cbn [map snd]. cbn [map fold_left] in M.
    assert (R0 : In (mkrow id 0 ordinal digest (nth 0 keys []) (nth 0 sigs [])) [r]). { apply In_chunk. exists 0%nat, 0%nat. split; [unfold len in *; lia|reflexivity]. }
    assert (R1 : In (mkrow id (16 * Z.of_nat (length sigs - 1) + Z.of_nat (length keys - 1)) ordinal digest (nth (length keys - 1) keys []) (nth (length sigs - 1) sigs [])) [r]).
    { apply In_chunk. exists (length sigs - 1)%nat, (length keys - 1)%nat. split; [unfold len in *; lia|reflexivity]. }
    destruct R0 as [R0|[]]. destruct R1 as [R1|[]]. rewrite R0 in R1. apply (f_equal r_pair) in R1. cbn [r_pair] in R1. rewrite R0.
    destruct keys as [|k [|k2 keys]]; [unfold len in *; cbn [length] in *; lia| |cbn [length] in R1; lia].
    destruct sigs as [|g [|g2 sigs]]; [unfold len in *; cbn [length] in *; lia| |cbn [length] in R1; lia].
    unfold verify_ecdsa_row. cbn [nth r_point r_digest r_signature verify_group group_loop]. change (len [k] >=? len [g]) with true. cbv iota. destruct (ve k digest g); reflexivity.
Qed.
Lemma valid_group_ok g : valid_group ve g <-> verify_group ve g = true.
Proof. destruct g as [[digest keys] sigs]. symmetry. apply verify_group_matching. Qed.

(** ** The failures of a batch *)
Notation gkey := (fun r : ecdsa_row => (r_id r, r_group r)).
Lemma same_group_iff a b : same_group a b = true <-> gkey a = gkey b.
Proof. unfold same_group. rewrite Bool.andb_true_iff, !Z.eqb_eq. split; [intros [-> ->]; reflexivity|intros [= -> ->]; auto]. Qed.
Notation prow := (ecdsa_row * bool)%type.
Definition chunk_of (k : Z * Z) (c : list prow) : Prop := c <> [] /\ Forall (fun p => gkey (fst p) = k) c.
Lemma failures_within k rows : Forall (fun p => gkey (fst p) = k) rows -> forall current rest fails, chunk_of k current ->
  failures_loop (rows ++ rest) current fails = failures_loop rest (current ++ rows) fails.
Proof.
  induction 1 as [|p rows Hp _ IH]; intros current rest fails C; [rewrite app_nil_r; reflexivity|]. cbn [app failures_loop].
  destruct C as [N F]. destruct current as [|q current]; [congruence|]. assert (E : same_group (fst p) (fst q) = true). { apply same_group_iff. rewrite Hp. symmetry. exact (Forall_inv F). }
  rewrite E, IH; [rewrite <- app_assoc; reflexivity|]. split; [discriminate|]. apply Forall_app. split; [exact F|constructor; [exact Hp|constructor]].
Qed.
Definition fail_of (k : Z * Z) (c : list prow) : list Z := if group_success c then [] else if fst k =? terminal then [] else [fst k].
Lemma close_ok k c fails : chunk_of k c ->
  match c with [] => fails | first :: _ => if group_success c then fails else push_fail fails (r_id (fst first)) end = fails ++ fail_of k c.
Proof.
  intros [N F]. destruct c as [|p c]; [congruence|]. assert (E : r_id (fst p) = fst k) by (rewrite <- (Forall_inv F); reflexivity). unfold fail_of, push_fail. rewrite E.
  destruct (group_success _); [rewrite app_nil_r; reflexivity|]. destruct (_ =? terminal); [rewrite app_nil_r|]; reflexivity.
Qed.
Lemma failures_chunks : forall ks cs, Forall2 chunk_of ks cs -> forall k current fails, chunk_of k current -> NoDup (k :: ks) ->
  failures_loop (concat cs) current fails = fails ++ fail_of k current ++ concat (map (fun p => fail_of (fst p) (snd p)) (combine ks cs)).
Proof.
  induction 1 as [|k' c ks cs Hc _ IH]; intros k current fails C N.
  - cbn [concat combine map failures_loop]. rewrite (close_ok k _ _ C), !app_nil_r. reflexivity.
  - cbn [concat combine map fst snd]. destruct Hc as [Nc Fc]. destruct c as [|p c]; [congruence|]. cbn [app failures_loop]. rewrite (close_ok k _ _ C).
    destruct C as [N0 F0]. destruct current as [|q current]; [congruence|].
    assert (E : same_group (fst p) (fst q) = false).
    { apply Bool.not_true_iff_false. rewrite same_group_iff. intros E. assert (k' = k) by (rewrite <- (Forall_inv Fc), <- (Forall_inv F0); exact E). inversion N as [|? ? N1 _]; subst. apply N1. left. reflexivity. }
    rewrite E. inversion Fc as [|? ? Hp Fc']; subst. rewrite (failures_within (gkey (fst p)) c Fc'); [|split; [discriminate|constructor; [reflexivity|constructor]]].
    cbn [app]. inversion N as [|? ? N1 N2]; subst. rewrite (IH (gkey (fst p))); [|split; [discriminate|exact Fc]|exact N2].
    rewrite <- app_assoc. reflexivity.
Qed.
Lemma failures_all ks cs : Forall2 chunk_of ks cs -> NoDup ks -> failures_loop (concat cs) [] [] = concat (map (fun p => fail_of (fst p) (snd p)) (combine ks cs)).
Proof.
  intros F N. destruct F as [|k c ks cs Hc F]; [reflexivity|]. cbn [concat combine map fst snd]. destruct Hc as [Nc Fc]. destruct c as [|p c]; [congruence|]. cbn [app failures_loop].
  inversion Fc as [|? ? Hp Fc']; subst. rewrite (failures_within (gkey (fst p)) c Fc'); [|split; [discriminate|constructor; [reflexivity|constructor]]].
  cbn [app]. rewrite (failures_chunks ks cs F (gkey (fst p))); [reflexivity|split; [discriminate|exact Fc]|exact N].
Qed.

(** Tables *)
Notation entry := (Z * (Z * group))%type.
Definition entries (blocks : list (Z * list group)) : list entry := flat_map (fun b => map (fun g => (fst b, g)) (numbered 0 (snd b))) blocks.
Lemma numbered_in {A} (l : list A) : forall k x, 0 <= k -> k + len l <= 65536 -> In x (map fst (numbered k l)) -> k <= x < k + len l.
Proof.
  induction l as [|a l IH]; intros k x Hk Hl; cbn [numbered map]; [intros []|]. rewrite len_cons in *. pose proof (len_nonneg l). intros [<-|H'].
  - cbn [fst]. rewrite Z.mod_small by lia. lia.
  - apply IH in H'; lia.
Qed.
Lemma numbered_nodup {A} (l : list A) : forall k, 0 <= k -> k + len l <= 65536 -> NoDup (map fst (numbered k l)).
Proof.
  induction l as [|a l IH]; intros k Hk Hl; cbn [numbered map]; [constructor|]. rewrite len_cons in *. pose proof (len_nonneg l). constructor; [|apply IH; lia].
  cbn [fst]. rewrite Z.mod_small by lia. intros I. apply numbered_in in I; lia.
Qed.
Lemma numbered_snd {A} (l : list A) : forall k, map snd (numbered k l) = l.
Proof. induction l as [|a l IH]; intros k; cbn [numbered map]; [reflexivity|]. rewrite IH. reflexivity. Qed.
Notation ekey := (fun x : entry => (fst x, fst (snd x))).
Lemma NoDup_app {A} (a b : list A) : NoDup a -> NoDup b -> (forall x, In x a -> ~ In x b) -> NoDup (a ++ b).
Proof.
  induction a as [|x a IH]; intros Na Nb D; [exact Nb|]. cbn [app]. inversion Na; subst. constructor.
  - rewrite in_app_iff. intros [?|?]; [contradiction|]. apply (D x); [left; reflexivity|assumption].
  - apply IH; [assumption|assumption|]. intros y Hy. apply D. right. exact Hy.
Qed.
Lemma entries_nodup blocks : blocks_ok blocks -> NoDup (map ekey (entries blocks)).
Proof.
  intros [N F]. induction blocks as [|[id gs] blocks IH]; [constructor|]. cbn [entries flat_map fst snd]. rewrite map_app. cbn [map fst] in N. inversion N as [|? ? N1 N2]; subst. inversion F as [|? ? F1 F2]; subst. apply NoDup_app.
  - rewrite map_map. cbn [fst snd]. destruct F1 as (_ & L & _). cbn [snd] in L. pose proof (numbered_nodup gs 0 ltac:(lia) ltac:(lia)) as D.
    revert D. generalize (numbered 0 gs). intros l D. induction l as [|[o g] l IHl]; [constructor|]. cbn [map fst] in *. inversion D; subst. constructor; [|apply IHl; assumption].
    intros I. apply in_map_iff in I. destruct I as (y & [= E] & Hy). apply H1. apply in_map_iff. exists y. auto.
  - apply IH; assumption.
  - intros x Hx Hy. rewrite map_map in Hx. cbn [fst snd] in Hx. apply in_map_iff in Hx, Hy. destruct Hx as (g & <- & _). destruct Hy as (y & E & Hy). injection E as E _.
    apply in_flat_map in Hy. destruct Hy as ([id' gs'] & Hb & Hy). apply in_map_iff in Hy. destruct Hy as (g' & <- & _). cbn [fst] in E. subst id'. apply N1. apply in_map_iff. exists (id, gs'). auto.
Qed.
Lemma entries_in blocks x : In x (entries blocks) -> exists gs, In (fst x, gs) blocks /\ In (snd (snd x)) gs.
Proof.
  intros H. apply in_flat_map in H. destruct H as ([id gs] & Hb & Hx). apply in_map_iff in Hx. destruct Hx as (g & <- & Hg). cbn [fst snd] in *. exists gs. split; [exact Hb|].
  rewrite <- (numbered_snd gs 0). apply in_map, Hg.
Qed.
Lemma in_entries blocks id gs g : In (id, gs) blocks -> In g gs -> exists o, In (id, (o, g)) (entries blocks).
Proof.
  intros Hb Hg. rewrite <- (numbered_snd gs 0) in Hg. apply in_map_iff in Hg. destruct Hg as ([o g'] & E & Hg). cbn [snd] in E. subst g'. exists o.
  apply in_flat_map. exists (id, gs). split; [exact Hb|]. apply in_map_iff. exists (o, g). auto.
Qed.
Lemma entry_ok blocks x : blocks_ok blocks -> In x (entries blocks) -> group_ok (snd (snd x)) /\ fst x <> terminal.
Proof.
  intros [_ F] Hx. apply entries_in in Hx. destruct Hx as (gs & Hb & Hg). rewrite Forall_forall in F. destruct (F _ Hb) as (T & _ & G). cbn [fst snd] in *. rewrite Forall_forall in G. auto.
Qed.
Lemma rows_key id o g r : In r (group_rows id o g) -> gkey r = (id, o).
Proof. destruct g as [[digest keys] sigs]. unfold group_rows. intros H. apply in_map_iff in H. destruct H as (p & <- & _). reflexivity. Qed.
Lemma combine_checked {A} (f : A -> bool) l : combine l (map f l) = map (fun r => (r, f r)) l.
Proof. induction l as [|x l IH]; [reflexivity|]. cbn [map combine]. rewrite IH. reflexivity. Qed.
Lemma table_chunks (es : list entry) chunks : Forall2 (fun g chunk => Permutation (group_rows (fst g) (fst (snd g)) (snd (snd g))) chunk) es chunks ->
  (forall x, In x es -> group_ok (snd (snd x)) /\ fst x <> terminal) ->
  Forall2 chunk_of (map ekey es) (map (map checked_row) chunks) /\
  concat (map (fun p => fail_of (fst p) (snd p)) (combine (map ekey es) (map (map checked_row) chunks))) =
  concat (map (fun x => if verify_group ve (snd (snd x)) then [] else [fst x]) es).
Proof.
  induction 1 as [|[id [o g]] chunk es chunks P _ IH]; intros H; [split; [constructor|reflexivity]|]. destruct IH as [IH1 IH2]; [intros x Hx; apply H; right; exact Hx|].
  destruct (H _ (or_introl eq_refl)) as [Gok T]. cbn [fst snd] in *. split; cbn [map combine concat fst snd].
  - constructor; [|exact IH1]. split.
    + intros E. apply map_eq_nil in E. subst chunk. apply (group_rows_nonempty id o g Gok), Permutation_nil, Permutation_sym, P.
    + apply Forall_forall. intros p Hp. apply in_map_iff in Hp. destruct Hp as (r & <- & Hr). cbn [fst]. apply rows_key with g. eapply Permutation_in; [apply Permutation_sym, P|exact Hr].
  - rewrite IH2. f_equal. unfold fail_of. rewrite (group_success_ok id o g chunk Gok P). cbn [fst]. destruct (verify_group ve g); [reflexivity|].
    destruct (Z.eqb_spec id terminal); [contradiction|reflexivity].
Qed.
Lemma all_rows_valid id o g chunk : group_ok g -> Permutation (group_rows id o g) chunk -> forallb (verify_ecdsa_row ve) chunk = true -> verify_group ve g = true.
Proof.
  destruct g as [[digest keys] sigs]. intros [Hs _] P A. rewrite forallb_forall in A. apply valid_group_ok. cbn [valid_group].
  assert (D : forall i, (i < length sigs)%nat -> ve (nth i keys []) digest (nth i sigs []) = true).
  { intros i Hi. apply (A (mkrow id (16 * Z.of_nat i + Z.of_nat i) o digest (nth i keys []) (nth i sigs []))). eapply Permutation_in; [exact P|].
    apply in_map_iff. exists (i, i). split; [reflexivity|]. apply in_band_list. unfold len in *. lia. }
  assert (L : (length sigs <= length keys)%nat) by (unfold len in *; lia). clear - D L. revert keys D L. induction sigs as [|g sigs IH]; intros keys D L; [constructor|].
  destruct keys as [|k keys]; [cbn in L; lia|]. apply match_take; [apply (D 0%nat); cbn; lia|]. apply IH; [|cbn in L; lia]. intros i Hi. apply (D (S i)). cbn. lia.
Qed.
Lemma forallb_id_map {A} (f : A -> bool) l : forallb (fun b => b) (map f l) = forallb f l.
Proof. induction l as [|x l IH]; [reflexivity|]. cbn. rewrite IH. reflexivity. Qed.
Lemma ecdsa_batch_ok blocks rows : blocks_ok blocks -> table blocks rows ->
  NoDup (ecdsa_batch_verify ve rows) /\
  forall id, In id (ecdsa_batch_verify ve rows) <-> exists gs g, In (id, gs) blocks /\ In g gs /\ ~ valid_group ve g.
Proof.
  intros B (chunks & -> & F). change (flat_map _ blocks) with (entries blocks) in F.
  pose proof (entries_nodup _ B) as N.
  assert (O' : forall x, In x (entries blocks) -> group_ok (snd (snd x)) /\ fst x <> terminal) by (intros x; apply entry_ok, B).
  destruct (table_chunks _ _ F O') as [C E].
  assert (S1 : forall id, In id (concat (map (fun x : entry => if verify_group ve (snd (snd x)) then [] else [fst x]) (entries blocks))) <-> exists gs g, In (id, gs) blocks /\ In g gs /\ ~ valid_group ve g).
  { intros id. rewrite in_concat. split.
    - intros (l & Hl & Hi). apply in_map_iff in Hl. destruct Hl as (x & <- & Hx). destruct (verify_group ve (snd (snd x))) eqn:V; [destruct Hi|]. destruct Hi as [<-|[]].
      destruct (entries_in _ _ Hx) as (gs & Hb & Hg). exists gs, (snd (snd x)). split; [exact Hb|]. split; [exact Hg|]. rewrite valid_group_ok, V. discriminate.
    - intros (gs & g & Hb & Hg & V). destruct (in_entries _ _ _ _ Hb Hg) as (o & Hx). exists [id]. split; [|left; reflexivity]. apply in_map_iff. exists (id, (o, g)). split; [|exact Hx].
      cbn [fst snd]. rewrite valid_group_ok in V. apply Bool.not_true_iff_false in V. rewrite V. reflexivity. }
  unfold ecdsa_batch_verify, batch_results, ecdsa_failures. cbv zeta. rewrite forallb_id_map.
  destruct (forallb (verify_ecdsa_row ve) (concat chunks)) eqn:A.
  - split; [constructor|]. intros id. rewrite <- S1. cbn [In].
    assert (Em : concat (map (fun x : entry => if verify_group ve (snd (snd x)) then [] else [fst x]) (entries blocks)) = []).
    { clear S1 C E N. revert O' A. induction F as [|x chunk es cs P _ IH]; intros O' A; [reflexivity|]. cbn [map concat] in *. rewrite forallb_app in A. apply Bool.andb_true_iff in A. destruct A as [A1 A2].
      rewrite (all_rows_valid _ _ _ _ (proj1 (O' x (or_introl eq_refl))) P A1). apply IH; [|exact A2]. intros y Hy. apply O'. right. exact Hy. }
    rewrite Em. reflexivity.
  - rewrite combine_checked. destruct (map (verify_ecdsa_row ve) (concat chunks)) as [|b bs] eqn:Mp.
    + apply map_eq_nil in Mp. rewrite Mp in A. discriminate A.
    + split; [apply NoDup_nodup|]. intros id. rewrite nodup_In, concat_map, (failures_all _ _ C N), E. apply S1.
Qed.
End Rows.

Section Schnorr.
Variables vs : list Z -> list Z -> list Z -> bool.
Lemma schnorr_fold (rows : list (Z * row)) : forall fails id, In id (fold_left (fun fails p => if snd p : bool then fails else push_fail fails (fst (fst p))) (map (fun r => (r, verify_row vs (snd r))) rows) fails) <->
  In id fails \/ (id <> terminal /\ exists r, In (id, r) rows /\ verify_row vs r = false).
Proof.
  induction rows as [|[id' r] rows IH]; intros fails id; cbn [map fold_left fst snd]; [split; [auto|intros [?|(_ & ? & [] & _)]; assumption]|].
  rewrite IH. unfold push_fail. destruct (verify_row vs r) eqn:V; [|destruct (Z.eqb_spec id' terminal) as [->|T]; rewrite ?in_app_iff].
  - split; intros [H|(T & r' & H & V')]; auto; right; (split; [exact T|]); exists r'; (split; [|exact V']); [right; exact H|]. destruct H as [[= <- <-]|H]; [congruence|exact H].
  - split; intros [H|(T & r' & H & V')]; auto; right; (split; [exact T|]); exists r'; (split; [|exact V']); [right; exact H|]. destruct H as [[= <- <-]|H]; [congruence|exact H].
  - cbn [In]. split.
    + intros [[H|[<-|[]]]|(T' & r' & H & V')]; [auto| |]; right; (split; [assumption|]); [exists r; auto|exists r'; auto].
    + intros [H|(T' & r' & [[= <- <-]|H] & V')]; [auto|auto|]. right. split; [exact T'|]. exists r'. auto.
Qed.
Lemma schnorr_batch_ok rows : NoDup (schnorr_batch_verify vs rows) /\
  forall id, In id (schnorr_batch_verify vs rows) <-> id <> terminal /\ exists r, In (id, r) rows /\ ~ valid_row vs r.
Proof.
  assert (VR : forall r, valid_row vs r <-> verify_row vs r = true) by (intros [[d p] g]; reflexivity).
  unfold schnorr_batch_verify, batch_results, schnorr_failures. cbv zeta. rewrite forallb_id_map. destruct (forallb _ rows) eqn:A.
  - split; [constructor|]. intros id. split; [intros []|]. intros (_ & r & H & V). apply V, VR. rewrite forallb_forall in A. apply (A (id, r) H).
  - rewrite combine_checked. destruct (map _ rows) as [|b bs] eqn:Mp; [apply map_eq_nil in Mp; rewrite Mp in A; discriminate A|].
    split; [apply NoDup_nodup|]. intros id. rewrite nodup_In, schnorr_fold. split.
    + intros [[]|(T & r & H & V)]. split; [exact T|]. exists r. split; [exact H|]. rewrite VR, V. discriminate.
    + intros (T & r & H & V). right. split; [exact T|]. exists r. split; [exact H|]. rewrite VR in V. apply Bool.not_true_iff_false, V.
Qed.
End Schnorr.
