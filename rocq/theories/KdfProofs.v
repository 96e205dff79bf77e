(** HMAC, PBKDF2 and HKDF of the model against their specifications. *)
From Coq Require Import PeanoNat.
From Verif Require Import Base Bytes ShaModel ShaSpec ShaProofs2 ShaProofs6 AccModel AccProofs RmdModel KdfSpec KdfModel.

(** In-place xor of a prefix. *)
Lemma xor_loop k : forall i (pad key : list Z), (i + k <= length pad)%nat ->
  let out := fold_left (fun pad i => upd i (Z.lxor (nth i pad 0) (nth i key 0)) pad) (seq i k) pad in
  length out = length pad /\
  forall j, nth j out 0 = if (Nat.leb i j && Nat.ltb j (i + k))%bool then Z.lxor (nth j pad 0) (nth j key 0) else nth j pad 0.
Proof.
  induction k as [|k IH]; intros i pad key Hk; cbn [seq fold_left].
  - split; [reflexivity|]. intros j. destruct (Nat.leb_spec i j), (Nat.ltb_spec j (i + 0)); cbn [andb]; try reflexivity; lia.
  - set (pad' := upd i _ pad). assert (L' : length pad' = length pad) by (apply upd_length; lia).
    destruct (IH (S i) pad' key ltac:(lia)) as [L N]. cbv zeta in *. split; [rewrite L; exact L'|].
    intros j. rewrite N. unfold pad'. rewrite upd_nth by lia.
    destruct (Nat.eqb_spec j i) as [->|Hj].
    + replace (Nat.leb (S i) i) with false by (symmetry; apply Nat.leb_gt; lia).
      replace (Nat.leb i i) with true by (symmetry; apply Nat.leb_le; lia).
      replace (Nat.ltb i (i + S k)) with true by (symmetry; apply Nat.ltb_lt; lia). reflexivity.
    + destruct (Nat.leb_spec (S i) j), (Nat.leb_spec i j), (Nat.ltb_spec j (S i + k)), (Nat.ltb_spec j (i + S k));
        cbn [andb]; try reflexivity; lia.
Qed.
Lemma xor_bytes_length a b : length (xor_bytes a b) = Nat.min (length a) (length b).
Proof. unfold xor_bytes. rewrite map_length, combine_length. reflexivity. Qed.
Lemma xor_bytes_nth a b j : (j < length a)%nat -> (j < length b)%nat -> nth j (xor_bytes a b) 0 = Z.lxor (nth j a 0) (nth j b 0).
Proof.
  unfold xor_bytes. revert b j. induction a as [|x a IH]; intros [|y b] [|j] Ha Hb; cbn [length] in *; try lia; [reflexivity|].
  cbn [combine map nth]. apply IH; lia.
Qed.
Lemma xor_n_eq c n key : (length key <= n)%nat ->
  xor_n (repeat c n) key = xor_bytes (key ++ repeat 0 (n - length key)) (repeat c n).
Proof.
  intros L. unfold xor_n.
  destruct (xor_loop (length key) 0 (repeat c n) key) as [E N]; [rewrite repeat_length; lia|]. cbv zeta in *.
  rewrite repeat_length in E.
  apply (list_ext _ _ 0).
  - rewrite E, xor_bytes_length, app_length, !repeat_length. lia.
  - intros j Hj. rewrite E in Hj. rewrite N. rewrite xor_bytes_nth by (rewrite ?app_length, ?repeat_length; lia).
    cbn [Nat.add]. replace (Nat.leb 0 j) with true by reflexivity. cbn [andb].
    rewrite Z.lxor_comm. destruct (Nat.ltb_spec j (length key)) as [H|H].
    + rewrite app_nth1 by lia. reflexivity.
    + rewrite app_nth2 by lia. rewrite nth_repeat. reflexivity.
Qed.
Lemma xor_into_eq a b : length a = length b -> xor_into a b = xor_bytes a b.
Proof.
  intros L. unfold xor_into. destruct (xor_loop (length a) 0 a b) as [E N]; [lia|]. cbv zeta in *.
  apply (list_ext _ _ 0); [rewrite E, xor_bytes_length; lia|].
  intros j Hj. rewrite E in Hj. rewrite N, xor_bytes_nth by lia.
  replace (Nat.ltb j (0 + length a)) with true by (symmetry; apply Nat.ltb_lt; lia). reflexivity.
Qed.

Lemma ceil_eq a b : (0 < b)%nat -> ceilinged a b = ceil_div a b.
Proof.
  intros Hb. unfold ceilinged, ceil_div. pose proof (Nat.div_mod a b ltac:(lia)) as D.
  pose proof (Nat.mod_upper_bound a b ltac:(lia)) as M.
  destruct (Nat.eqb_spec (a mod b) 0) as [E|E].
  - apply (Nat.div_unique (a + b - 1) b (a / b + 0) (b - 1)); lia.
  - apply (Nat.div_unique (a + b - 1) b (a / b + 1) (a mod b - 1)); lia.
Qed.

(** Copying blocks with a short last one is cutting their concatenation. *)
Lemma cut_blocks (G : nat -> list Z) h size : (0 < h)%nat -> (forall i, (1 <= i)%nat -> length (G i) = h) ->
  let l := ceil_div size h in
  flat_map (fun i => firstn (if Nat.eqb i l then (size - (l - 1) * h)%nat else h) (G i)) (seq 1 l)
    = firstn size (concat (map G (seq 1 l))).
Proof.
  intros Hh LG. cbv zeta. rewrite <- ceil_eq by exact Hh. unfold ceilinged.
  pose proof (Nat.div_mod size h ltac:(lia)) as D. pose proof (Nat.mod_upper_bound size h ltac:(lia)) as M.
  set (l := (size / h + _)%nat).
  assert (Hl : (l = 0 /\ size = 0)%nat \/ (0 < l /\ (l - 1) * h < size <= l * h)%nat).
  { unfold l. destruct (Nat.eqb_spec (size mod h) 0) as [E|E].
    - destruct (size / h)%nat as [|q]; [left; lia|right; split; [lia|]]. replace (S q + 0 - 1)%nat with q by lia. nia.
    - right. split; [lia|]. replace (size / h + 1 - 1)%nat with (size / h)%nat by lia. nia. }
  clearbody l. clear D M. destruct Hl as [[-> ->]|[H0 Hs]]; [reflexivity|].
  assert (FM : forall k, (k < l)%nat ->
    flat_map (fun i => firstn (if Nat.eqb i l then (size - (l - 1) * h)%nat else h) (G i)) (seq 1 k) = concat (map G (seq 1 k)) /\
    length (concat (map G (seq 1 k))) = (k * h)%nat).
  { induction k as [|k IH]; intros Hk; [split; reflexivity|]. destruct (IH ltac:(lia)) as [E1 E2].
    rewrite seq_S, flat_map_app, map_app, concat_app, E1. cbn [flat_map map concat]. rewrite !app_nil_r.
    replace (Nat.eqb (1 + k) l) with false by (symmetry; apply Nat.eqb_neq; lia).
    rewrite firstn_all2 by (rewrite LG; lia). split; [reflexivity|]. rewrite app_length, E2, LG by lia. lia. }
  assert (ES : seq 1 l = seq 1 (S (l - 1))) by (f_equal; lia). rewrite ES. rewrite !seq_S, flat_map_app, map_app, concat_app.
  destruct (FM (l - 1)%nat ltac:(lia)) as [-> L2]. cbn [flat_map map concat]. rewrite !app_nil_r.
  replace (Nat.eqb (1 + (l - 1)) l) with true by (symmetry; apply Nat.eqb_eq; lia).
  rewrite firstn_app, L2. f_equal. rewrite firstn_all2 by lia. reflexivity.
Qed.

Section Kdf.
Variable A : algorithm.
Variable Hf : list Z -> list Z.
Variable hlen : nat.
(** What the accumulator gives for a hash function. *)
Record hashed : Prop := {
  h_block : (hlen <= block_bytes A)%nat /\ (0 < hlen)%nat /\ (block_bytes A <= 128)%nat;
  h_length : forall m, length (Hf m) = hlen;
  h_hash : forall checked d, len d < 2 ^ 61 - 2 ^ 40 -> hash A checked d = Hf d;
  h_holds : exists holds : acc -> list Z -> Prop,
    holds (construct A) [] /\
    (forall checked a m d, holds a m -> len m + len d < 2 ^ 61 - 8 -> holds (snd (write A checked a d)) (m ++ d)) /\
    (forall checked a m, holds a m -> len m < 2 ^ 61 - 2 ^ 40 -> fst (flush A checked a) = Hf m) }.
Hypothesis Ha : hashed.
Variable checked : bool.
Notation B := (block_bytes A).
Notation HM := (HMAC Hf B).
Notation limit := (2 ^ 61 - 2 ^ 40 - 1024).

Lemma small_lens : len (@nil Z) = 0 /\ 2 ^ 61 = 2305843009213693952 /\ 2 ^ 40 = 1099511627776.
Proof using. clear. repeat split. Qed.

Lemma key_length key : length (hmac_key Hf B key) = B.
Proof using Ha.
  destruct (h_block Ha) as (Hb & _ & _). unfold hmac_key. cbv zeta. rewrite app_length, repeat_length.
  destruct (Nat.leb_spec (length key) B); [lia|]. rewrite (h_length Ha). lia.
Qed.

Theorem hmac_spec : exists holds : hmac -> list Z -> list Z -> Prop,
  (forall key, len key < limit -> holds (hmac_make A checked key) key []) /\
  (forall h key m d, holds h key m -> len m + len d < limit -> holds (hmac_write A checked h d) key (m ++ d)) /\
  (forall h key m, holds h key m -> len m < limit -> hmac_flush A checked h = HM key m).
Proof using Ha.
  destruct (h_holds Ha) as (holds & H0 & HW & HF). destruct (h_block Ha) as (Hb & Hb0 & Hb1).
  destruct small_lens as (N0 & N61 & N40).
  exists (fun h key m => holds (inner_ h) (xor_bytes (hmac_key Hf B key) (repeat 0x36 B) ++ m) /\
                         holds (outer_ h) (xor_bytes (hmac_key Hf B key) (repeat 0x5c B))).
  assert (LX : forall key c, len (xor_bytes (hmac_key Hf B key) (repeat c B)) = Z.of_nat B).
  { intros. unfold len. rewrite xor_bytes_length, key_length, repeat_length. lia. }
  split; [|split].
  - intros key Hk.
    assert (G : forall k, (length k <= B)%nat -> k ++ repeat 0 (B - length k) = hmac_key Hf B key ->
      let h := xor_key A checked (mkhmac (construct A) (construct A)) k in
      holds (inner_ h) (xor_bytes (hmac_key Hf B key) (repeat 0x36 B) ++ []) /\
      holds (outer_ h) (xor_bytes (hmac_key Hf B key) (repeat 0x5c B))).
    { intros k Lk Ek. cbv zeta. unfold xor_key. cbn [inner_ outer_]. rewrite !xor_n_eq, Ek by exact Lk. rewrite app_nil_r.
      split; apply (HW checked _ []); try exact H0; rewrite N0, LX; lia. }
    unfold hmac_make. cbv zeta. destruct (Z.leb_spec (len key) (Z.of_nat B)) as [L|L].
    + apply G; [unfold len in L; lia|]. unfold hmac_key. cbv zeta.
      replace (Nat.leb (length key) B) with true by (symmetry; apply Nat.leb_le; unfold len in L; lia). reflexivity.
    + rewrite (h_hash Ha) by lia. apply G; [rewrite (h_length Ha); exact Hb|]. unfold hmac_key. cbv zeta.
      replace (Nat.leb (length key) B) with false by (symmetry; apply Nat.leb_gt; unfold len in L; lia). reflexivity.
  - intros h key m d [HI HO] Hl. unfold hmac_write. cbn [inner_ outer_]. split; [|exact HO].
    rewrite app_assoc. apply HW; [exact HI|]. rewrite len_app, LX. lia.
  - intros h key m [HI HO] Hl. unfold hmac_flush, HMAC. pose proof (len_nonneg m).
    pose proof (HF checked _ _ HI) as E. destruct (flush A checked (inner_ h)) as [digest a']. cbn [fst] in E.
    rewrite E by (rewrite len_app, LX; lia). apply (HF checked). 2:{ rewrite len_app, LX. unfold len. rewrite (h_length Ha). lia. }
    apply HW; [exact HO|]. rewrite LX. unfold len. rewrite (h_length Ha). lia.
Qed.
Lemma HM_length key m : length (HM key m) = hlen. Proof using Ha. apply (h_length Ha). Qed.

Theorem hmac_code_ok data key : len data < limit -> len key < limit -> hmac_code A checked data key = HM key data.
Proof using Ha.
  intros Hd Hk. destruct hmac_spec as (holds & H0 & HW & HF). unfold hmac_code.
  apply HF; [|exact Hd]. apply (HW _ _ []); [apply H0; exact Hk|]. change (len (@nil Z)) with 0. lia.
Qed.

(** * PBKDF2 *)
Lemma U_length P S_ i j : length (U Hf B P S_ i j) = hlen.
Proof using Ha. destruct j; cbn [U]; apply HM_length. Qed.
Lemma xor_sum_length a rest : length a = hlen -> Forall (fun u => length u = hlen) rest -> length (xor_sum a rest) = hlen.
Proof using. clear. revert a. induction rest as [|u rest IH]; intros a La F; cbn [xor_sum]; [exact La|].
  inversion F; subst. apply IH; [rewrite xor_bytes_length; lia|assumption]. Qed.
Lemma F_length P S_ c i : length (F_block Hf B P S_ c i) = hlen.
Proof using Ha.
  unfold F_block. apply xor_sum_length; [apply U_length|]. apply Forall_forall. intros u Hu. apply in_map_iff in Hu.
  destruct Hu as (j & <- & _). apply U_length.
Qed.
Lemma small_digest (m : list Z) : length m = hlen -> len m < limit.
Proof using Ha. intros L. unfold len. rewrite L. destruct (h_block Ha) as (Hb & _ & Hb1). destruct small_lens as (_ & N61 & N40). lia. Qed.

Theorem pbkd_ok size password salt count : len password < limit -> len salt + 4 < limit -> (1 <= count)%nat ->
  pbkd_key A checked hlen size password salt count = PBKDF2 Hf B hlen password salt count size.
Proof using Ha.
  intros Hp Hs Hc. destruct hmac_spec as (holds & H0 & HW & HF). destruct (h_block Ha) as (Hb & Hb0 & Hb1).
  pose proof (len_nonneg salt) as NS.
  assert (HP : holds (hmac_make A checked password) password []) by (apply H0; exact Hp).
  assert (HPS : holds (hmac_write A checked (hmac_make A checked password) salt) password salt).
  { apply (HW _ _ []); [exact HP|]. change (len (@nil Z)) with 0. lia. }
  assert (Step : forall u, length u = hlen -> hmac_flush A checked (hmac_write A checked (hmac_make A checked password) u) = HM password u).
  { intros u Lu. pose proof (small_digest u Lu). apply HF; [|exact H]. apply (HW _ _ []); [exact HP|]. change (len (@nil Z)) with 0. lia. }
  assert (Blk : forall i, pbkd_block A checked (hmac_make A checked password)
      (hmac_write A checked (hmac_make A checked password) salt) count i = F_block Hf B password salt count (Z.of_nat i)).
  { intros i. unfold pbkd_block, F_block. cbv zeta.
    assert (E1 : hmac_flush A checked (hmac_write A checked (hmac_write A checked (hmac_make A checked password) salt)
        (be_bytes 4 (Z.of_nat i))) = U Hf B password salt (Z.of_nat i) 0).
    { cbn [U]. apply HF; [apply HW; [exact HPS|]|]; rewrite ?len_app; unfold len at 2; rewrite be_bytes_length; lia. }
    rewrite E1.
    assert (L : forall k j t, length t = hlen ->
      snd (fold_left (fun (p : list Z * list Z) (_ : nat) =>
        let u := hmac_flush A checked (hmac_write A checked (hmac_make A checked password) (fst p)) in (u, xor_into (snd p) u))
        (seq (2 + j) k) (U Hf B password salt (Z.of_nat i) j, t))
      = xor_sum t (map (U Hf B password salt (Z.of_nat i)) (seq (1 + j) k))).
    { induction k as [|k IH]; intros j t Lt; cbn [seq fold_left map xor_sum]; [reflexivity|].
      cbv zeta. cbn [fst snd]. rewrite Step by apply U_length.
      change (HM password (U Hf B password salt (Z.of_nat i) j)) with (U Hf B password salt (Z.of_nat i) (S j)).
      rewrite xor_into_eq by (rewrite U_length; exact Lt).
      apply (IH (S j)). rewrite xor_bytes_length, U_length. lia. }
    apply (L (count - 1)%nat 0%nat). apply U_length. }
  unfold pbkd_key, PBKDF2. cbv zeta. rewrite ceil_eq by exact Hb0.
  rewrite <- (cut_blocks (fun i => F_block Hf B password salt count (Z.of_nat i)) hlen size Hb0) by (intros; apply F_length).
  cbv zeta. apply flat_map_ext. intros i. rewrite Blk. reflexivity.
Qed.

(** * HKDF *)
Notation TT := (T Hf B).
Theorem hkdf_ok fuel size key info : (size <= 254 * hlen)%nat -> (256 <= fuel)%nat -> len key < limit -> len info + 200 < limit ->
  hkdf_expand A checked hlen fuel size key info = Some (HKDF_expand Hf B hlen key info size).
Proof using Ha.
  intros Hsz Hf_ Hk Hi. destruct hmac_spec as (holds & H0 & HW & HF). destruct (h_block Ha) as (Hb & Hb0 & Hb1).
  pose proof (len_nonneg info) as NI.
  assert (Step : forall n t, (n < 255)%nat -> t = TT key info n -> 
    hmac_flush A checked (hmac_write A checked (hmac_write A checked
      (if Z.of_nat (S n) =? 1 then hmac_make A checked key else hmac_write A checked (hmac_make A checked key) t) info) [Z.of_nat (S n)])
    = TT key info (S n)).
  { intros n t Hn ->. cbn [T]. rewrite app_assoc.
    assert (LT : len (TT key info n) <= 128).
    { destruct n; [cbn [T]; change (len (@nil Z)) with 0; lia|]. cbn [T]. unfold len. rewrite HM_length. lia. }
    apply HF; [apply HW; [apply HW|]|].
    - destruct (Z.eqb_spec (Z.of_nat (S n)) 1) as [E|E].
      + assert (n = 0%nat) by lia. subst n. apply H0. exact Hk.
      + apply (HW _ _ []); [apply H0; exact Hk|]. change (len (@nil Z)) with 0. lia.
    - lia.
    - rewrite len_app. change (len [Z.of_nat (S n)]) with 1. lia.
    - rewrite !len_app. change (len [Z.of_nat (S n)]) with 1. lia. }
  unfold hkdf_expand, HKDF_expand. cbv zeta. rewrite !ceil_eq by exact Hb0.
  rewrite <- (cut_blocks (TT key info) hlen size Hb0).
  2:{ intros [|i] Hi0; [lia|]. cbn [T]. apply HM_length. }
  cbv zeta. set (l := ceil_div size hlen). set (r := (size - (l - 1) * hlen)%nat).
  assert (Hl : (l <= 254)%nat).
  { unfold l, ceil_div. apply Nat.lt_succ_r. apply Nat.div_lt_upper_bound; [lia|]. lia. }
  clearbody l.
  assert (L : forall k n fuel t out, (n + k = l)%nat -> (k < fuel)%nat -> t = TT key info n \/ n = 0%nat ->
    hkdf_loop A checked hlen fuel l r key info (Z.of_nat (S n)) t out =
    Some (out ++ flat_map (fun i => firstn (if Nat.eqb i l then r else hlen) (TT key info i)) (seq (S n) k))).
  { induction k as [|k IH]; intros n [|fuel'] t out En Hfu Et; try lia; cbn [hkdf_loop].
    - replace (Z.of_nat (S n) <=? Z.of_nat l) with false by (symmetry; apply Z.leb_gt; lia).
      cbn [seq flat_map]. rewrite app_nil_r. reflexivity.
    - replace (Z.of_nat (S n) <=? Z.of_nat l) with true by (symmetry; apply Z.leb_le; lia).
      assert (E : hmac_flush A checked (hmac_write A checked (hmac_write A checked
        (if Z.of_nat (S n) =? 1 then hmac_make A checked key else hmac_write A checked (hmac_make A checked key) t) info) [Z.of_nat (S n)])
        = TT key info (S n)).
      { destruct Et as [Et|Et]; [apply Step; [lia|exact Et]|]. subst n. apply (Step 0%nat []); [lia|reflexivity]. }
      cbv zeta. rewrite E. replace ((Z.of_nat (S n) + 1) mod 256) with (Z.of_nat (S (S n))) by (rewrite Z.mod_small; lia).
      rewrite (IH (S n)) by (lia || (left; reflexivity)). cbn [seq flat_map]. rewrite <- app_assoc. do 3 f_equal.
      replace (Z.of_nat (S n) =? Z.of_nat l) with (Nat.eqb (S n) l); [reflexivity|].
      destruct (Nat.eqb_spec (S n) l), (Z.eqb_spec (Z.of_nat (S n)) (Z.of_nat l)); lia || reflexivity. }
  rewrite (L l 0%nat); [reflexivity|lia|lia|right; reflexivity].
Qed.

(** At 255 blocks the byte counter never passes the block count. *)
Theorem hkdf_never fuel : forall remain key info block t out, 0 <= block < 256 ->
  hkdf_loop A checked hlen fuel 255 remain key info block t out = None.
Proof using.
  clear. induction fuel as [|fuel IH]; intros remain key info block t out Hb; cbn [hkdf_loop]; [reflexivity|].
  change (Z.of_nat 255) with 255. replace (block <=? 255) with true by (symmetry; apply Z.leb_le; lia).
  apply IH. apply Z.mod_pos_bound. lia.
Qed.
End Kdf.
