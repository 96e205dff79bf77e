(** In-place merkle hashing and the simple (one block) hash. *)
From Coq Require Import PeanoNat.
From Verif Require Import Base Bytes MathModel BitProofs BechProofs ShaModel ShaSpec ShaProofs ShaProofs2 ShaProofs3
  ShaProofs4 ShaProofs5 ShaProofs6 AccModel AccProofs ShaProofs7 ShaProofs8.
From Verif Require BlockModel.

Lemma skipn_write_at {X} i (v l : list X) : (i + length v <= length l)%nat ->
  skipn (i + length v) (write_at i v l) = skipn (i + length v) l /\
  firstn (i + length v) (write_at i v l) = firstn i l ++ v.
Proof.
  intros H. unfold write_at.
  assert (Lf : length (firstn i l) = i) by (rewrite firstn_length; lia).
  rewrite app_assoc. assert (L : length (firstn i l ++ v) = (i + length v)%nat) by (rewrite app_length; lia).
  rewrite <- L at 1 4. rewrite skipn_app, skipn_all, Nat.sub_diag.
  rewrite firstn_app, firstn_all, Nat.sub_diag, firstn_O, app_nil_r. split; reflexivity.
Qed.
Lemma skipn_more {X} i j (a b : list X) : (i <= j)%nat -> skipn i a = skipn i b -> skipn j a = skipn j b.
Proof. intros H E. replace j with ((j - i) + i)%nat by lia. rewrite <- !skipn_skipn, E. reflexivity. Qed.

Section Merkle.
Variable A : sha.
Variable mix : list Z -> list Z -> list Z.
Hypothesis So : sound A mix.
Variables (s8 : bool) (widths : list nat).
Hypothesis N8 : state_words A = 8%nat.
Notation AL := (sha_algorithm A s8 widths).
Notation f := (fun st block => mix st (words_of A block)).
Notation MD := (MD AL f).
Definition DD (b : list Z) : list Z := MD (MD b).
Definition is_digest (d : list Z) : Prop := length d = half_size A.

Lemma MD_length m : len m < 2 ^ 61 - 2 ^ 40 -> is_digest (MD m).
Proof using So N8.
  intros Hm. pose proof (sha_md A mix So s8 widths) as M.
  destruct (write_holds AL f _ M true (construct AL) [] m (holds_construct AL f _ M)) as (a' & E & Ha).
  { change (len (@nil Z)) with 0. clear - Hm. change (2 ^ 61) with 2305843009213693952 in *. change (2 ^ 40) with 1099511627776 in *. lia. }
  change ([] ++ m) with m in Ha. pose proof (pad_holds AL f _ M true a' m Ha Hm) as Hp.
  destruct (holds_full AL f _ M _ _ Hp) as (S1 & S2 & _).
  { rewrite len_app. apply (padded_length AL f _ M). }
  unfold AccProofs.MD. rewrite <- S1. cbn [sha_algorithm normalize].
  apply (words_of_output A mix So N8). exact S2.
Qed.
Lemma half_bound (m : list Z) : (length m <= block_size A)%nat -> len m < 2 ^ 61 - 2 ^ 40.
Proof using So.
  clear N8. intros H. unfold len. destruct (s_bytes _ _ So) as [[E _]|[E _]]; unfold block_size in H; rewrite E in H;
    change (2 ^ 61) with 2305843009213693952; change (2 ^ 40) with 1099511627776; lia.
Qed.
Lemma DD_length m : (length m <= block_size A)%nat -> is_digest (DD m).
Proof using So N8.
  intros H. apply MD_length. apply half_bound. rewrite MD_length by (apply half_bound; exact H).
  unfold half_size, block_size. lia.
Qed.

Definition pairs (l : list (list Z)) : list (list Z) := map (@concat Z) (chunks 2 (length l / 2) l).

Lemma pairs_blocks l : Forall is_digest l -> Forall (is_blk A) (pairs l) /\ length (pairs l) = (length l / 2)%nat.
Proof using.
  clear. intros F. unfold pairs. split; [|rewrite map_length; apply ShaProofs6.chunks_length].
  assert (G : forall k l, Forall is_digest l -> (2 * k <= length l)%nat -> Forall (is_blk A) (map (@concat Z) (chunks 2 k l))).
  { induction k as [|k IH]; intros l0 F0 H; cbn [chunks map]; [constructor|].
    destruct l0 as [|a [|b l0]]; cbn [length] in H; try lia. inversion F0 as [|? ? Ha F1]; subst. inversion F1 as [|? ? Hb F2]; subst.
    cbn [firstn skipn concat]. constructor; [|apply IH; [exact F2|lia]].
    unfold is_blk. rewrite app_nil_r, app_length, Ha, Hb. unfold half_size, block_size. lia. }
  apply G; [exact F|]. pose proof (Nat.div_mod (length l) 2 ltac:(lia)). lia.
Qed.
Lemma merkle_hash_pairs l : BlockModel.merkle_hash DD l = map DD (pairs l).
Proof using.
  clear. unfold pairs. remember (length l) as k eqn:Ek. assert (H : (length l <= k)%nat) by lia. rewrite Ek. clear Ek.
  revert l H. induction k as [|k IH]; intros l H.
  - destruct l; [reflexivity|cbn [length] in H; lia].
  - destruct l as [|a [|b l]]; [reflexivity|reflexivity|]. cbn [length] in H. cbn [BlockModel.merkle_hash length].
    replace (S (S (length l)) / 2)%nat with (S (length l / 2)) by (change (S (S (length l))) with (2 + length l)%nat;
      replace (2 + length l)%nat with (length l + 1 * 2)%nat by lia; rewrite Nat.div_add by lia; lia).
    cbn [chunks firstn skipn map concat]. rewrite app_nil_r, IH by lia. reflexivity.
Qed.

(** The in-place invariant: [next] pairs are done, the rest is untouched. *)
Definition done (l : list (list Z)) (next : nat) (d : list (list Z)) : Prop :=
  length d = length l /\ (next <= length l / 2)%nat /\
  firstn next d = map DD (firstn next (pairs l)) /\ skipn next d = skipn next l.

Lemma done_start l : done l 0 l.
Proof using. clear. split; [reflexivity|]. split; [lia|]. split; reflexivity. Qed.

Lemma done_write l next d v : done l next d -> Forall is_digest l -> (next + length v <= length l / 2)%nat ->
  v = map DD (firstn (length v) (skipn next (pairs l))) -> done l (next + length v) (write_at next v d).
Proof using.
  clear. intros (L & Hn & Hf & Hs) Fl Hv Ev. pose proof (Nat.div_mod (length l) 2 ltac:(lia)) as DM.
  assert (R : (next + length v <= length d)%nat) by lia.
  destruct (skipn_write_at next v d R) as [E1 E2].
  split; [rewrite write_at_length; [exact L|exact R]|]. split; [exact Hv|]. split.
  - rewrite E2, Hf. set (c := length v) in *. rewrite Ev. rewrite <- map_app. f_equal.
    rewrite firstn_skipn_comm.
    replace (firstn next (pairs l)) with (firstn next (firstn (next + c) (pairs l))) by (rewrite firstn_firstn, Nat.min_l by lia; reflexivity).
    apply firstn_skipn.
  - rewrite E1. apply (skipn_more next); [lia|exact Hs].
Qed.

Lemma group_eq l next k d : done l next d -> (next + k <= length l / 2)%nat ->
  map (@concat Z) (chunks 2 k (skipn (2 * next) d)) = firstn k (skipn next (pairs l)).
Proof using.
  clear. intros (L & Hn & Hf & Hs) Hk.
  rewrite (skipn_more next (2 * next) d l ltac:(lia) Hs).
  rewrite (chunks_group 2 next k (length l / 2) l Hk). unfold pairs. rewrite skipn_map, firstn_map. reflexivity.
Qed.

Lemma merkle_loop_ok l k : Forall is_digest l -> (0 < k)%nat -> forall fuel next xb d, done l next d -> xok A k xb ->
  let (next', d') := merkle_loop A fuel k next xb d in done l next' d'.
Proof using So N8.
  intros Fl Hk. induction fuel as [|fu IH]; intros next xb d Hd Hx; cbn [merkle_loop]; [exact Hd|].
  pose proof Hd as (L & Hn & _). rewrite L.
  destruct (Nat.leb_spec (next + k) (length l / 2)) as [C|C]; [|exact Hd].
  rewrite (group_eq l next k d Hd C).
  destruct (pairs_blocks l Fl) as [Fp Lp].
  set (g := firstn k (skipn next (pairs l))).
  assert (Lg : length g = k) by (unfold g; rewrite firstn_length, skipn_length; lia).
  assert (Fg : Forall (is_blk A) g).
  { apply Forall_forall. intros x Hin. rewrite Forall_forall in Fp. apply Fp.
    rewrite <- (firstn_skipn next (pairs l)). apply in_or_app. right.
    rewrite <- (firstn_skipn k (skipn next (pairs l))). apply in_or_app. left. exact Hin. }
  destruct (merkle_lanes_ok A mix So s8 widths N8 k xb g Hk Hx Lg Fg) as [E1 E2].
  destruct (merkle_lanes A k xb g) as [o xb']. cbn [fst snd] in E1, E2.
  assert (Lo : length o = k) by (rewrite E1, map_length; exact Lg).
  apply IH; [|exact E2]. rewrite <- Lo at 1. apply done_write; [exact Hd|exact Fl|lia|].
  rewrite Lo. exact E1.
Qed.
Lemma merkle_pass_ok l p k : Forall is_digest l -> (0 < k)%nat -> done l (fst p) (snd p) ->
  done l (fst (merkle_pass A p k)) (snd (merkle_pass A p k)).
Proof using So N8.
  intros Fl Hk Hd. unfold merkle_pass.
  pose proof (merkle_loop_ok l k Fl Hk (length (snd p)) (fst p) (repeat (repeat 0 k) (rounds A)) (snd p) Hd) as Q.
  assert (Hx : xok A k (repeat (repeat 0 k) (rounds A))).
  { split; [apply repeat_length|]. apply Forall_forall. intros x Hx. apply repeat_spec in Hx. subst x. apply repeat_length. }
  specialize (Q Hx). destruct (merkle_loop _ _ _ _ _ _). exact Q.
Qed.

Lemma nth_skip {X} i j (a b : list X) d : (i <= j)%nat -> skipn i a = skipn i b -> nth j a d = nth j b d.
Proof using.
  clear. intros H E. replace j with (i + (j - i))%nat by lia. revert E. generalize (j - i)%nat. clear H. intros m E.
  assert (G : forall i (l : list X), nth (i + m) l d = nth m (skipn i l) d).
  { clear. induction i as [|i IH]; intros l; [reflexivity|]. destruct l; cbn [Nat.add nth skipn]; [destruct m; reflexivity|apply IH]. }
  rewrite !G, E. reflexivity.
Qed.

Lemma pairs_nth l i : (i < length l / 2)%nat -> firstn 1 (skipn i (pairs l)) = [nth (2 * i) l [] ++ nth (2 * i + 1) l []].
Proof using.
  clear. intros Hi. unfold pairs. rewrite skipn_map, skipn_chunks.
  replace (length l / 2 - i)%nat with (S (length l / 2 - i - 1)) by lia. cbn [chunks map firstn]. f_equal.
  pose proof (Nat.div_mod (length l) 2 ltac:(lia)) as DM.
  assert (G : forall j (l : list (list Z)), (j + 1 < length l)%nat -> concat (firstn 2 (skipn j l)) = nth j l [] ++ nth (j + 1) l []).
  { clear. induction j as [|j IH]; intros l H.
    - destruct l as [|a [|b l]]; cbn [length] in H; try lia. cbn. rewrite app_nil_r. reflexivity.
    - destruct l as [|a l]; cbn [length] in H; [lia|]. cbn [skipn Nat.add nth]. apply IH. lia. }
  apply G. lia.
Qed.

Lemma merkle_normal_ok l next d : Forall is_digest l -> done l next d -> merkle_normal A s8 d next = map DD (pairs l).
Proof using So N8.
  intros Fl Hd. unfold merkle_normal. pose proof Hd as (L & Hn & _). rewrite L.
  set (g := fun d i => upd i _ d).
  assert (G : forall m next d, (next + m = length l / 2)%nat -> done l next d -> done l (length l / 2) (fold_left g (seq next m) d)).
  { clear next d Hd L Hn. induction m as [|m IH]; intros next d E Hd; cbn [seq fold_left].
    - replace (length l / 2)%nat with next by lia. exact Hd.
    - apply IH; [lia|]. unfold g. pose proof Hd as (L & Hn & Hf & Hs).
      pose proof (Nat.div_mod (length l) 2 ltac:(lia)) as DM.
      rewrite !(nth_skip next _ d l []) by (lia || exact Hs).
      assert (Dg : forall j, (j < length l)%nat -> length (nth j l []) = half_size A).
      { intros j Hj. rewrite Forall_forall in Fl. apply Fl. apply nth_In. exact Hj. }
      rewrite (double_halves_ok A mix So s8 widths N8) by (apply Dg; lia).
      set (v := [DD (nth (2 * next) l [] ++ nth (2 * next + 1) l [])]).
      replace (upd next (MD (MD (nth (2 * next) l [] ++ nth (2 * next + 1) l []))) d) with (write_at next v d).
      2:{ unfold v, write_at, upd. change (length [DD (nth (2 * next) l [] ++ nth (2 * next + 1) l [])]) with 1%nat.
          rewrite (Nat.add_1_r next). reflexivity. }
      replace (S next) with (next + length v)%nat by (cbn [v length]; lia).
      apply done_write; [exact Hd|exact Fl|cbn [v length]; lia|].
      change (length v) with 1%nat. rewrite pairs_nth by lia. reflexivity. }
  destruct (G (length l / 2 - next)%nat next d ltac:(lia) Hd) as (_ & _ & E & _). rewrite E.
  f_equal. apply firstn_all2. destruct (pairs_blocks l Fl) as [_ ->]. lia.
Qed.

Theorem merkle_hash_ok l : Forall is_digest l -> Forall (fun k => (0 < k)%nat) widths ->
  merkle_hash A s8 widths l = BlockModel.merkle_hash DD l.
Proof using So N8.
  intros Fl Fw. rewrite merkle_hash_pairs. unfold merkle_hash.
  assert (G : forall ws p, Forall (fun k => (0 < k)%nat) ws -> done l (fst p) (snd p) ->
    done l (fst (fold_left (merkle_pass A) ws p)) (snd (fold_left (merkle_pass A) ws p))).
  { induction ws as [|k ws IH]; intros p Fws Hp; cbn [fold_left]; [exact Hp|]. inversion Fws; subst.
    apply IH; [assumption|]. apply merkle_pass_ok; assumption. }
  specialize (G widths (0%nat, l) Fw (done_start l)).
  destruct (fold_left (merkle_pass A) widths (0%nat, l)) as [next d]. cbn [fst snd] in G.
  apply merkle_normal_ok; assumption.
Qed.

Lemma merkle_hash_digests l : Forall is_digest l -> Forall is_digest (BlockModel.merkle_hash DD l).
Proof using So N8.
  intros Fl. rewrite merkle_hash_pairs. destruct (pairs_blocks l Fl) as [Fp _].
  apply Forall_forall. intros x Hx. apply in_map_iff in Hx. destruct Hx as (b & <- & Hb).
  apply DD_length. rewrite Forall_forall in Fp. rewrite (Fp b Hb). lia.
Qed.

Theorem merkle_root_ok l : Forall is_digest l -> Forall (fun k => (0 < k)%nat) widths -> half_size A = 32%nat ->
  merkle_root A s8 widths l = BlockModel.merkle_root DD l.
Proof using So N8.
  intros Fl Fw H32. unfold merkle_root, BlockModel.merkle_root.
  destruct l as [|d l]; [rewrite H32; reflexivity|].
  replace (len (d :: l) =? 0) with false by (symmetry; apply Z.eqb_neq; rewrite len_cons; pose proof (len_nonneg l); lia).
  generalize (length (d :: l)) as fuel. intros fuel. generalize dependent (d :: l). clear d l.
  induction fuel as [|fuel IH]; intros l Fl; [reflexivity|]. cbn [merkle_rounds BlockModel.root_loop].
  replace (len l =? 1) with (Nat.eqb (length l) 1)
    by (unfold len; destruct (Nat.eqb_spec (length l) 1), (Z.eqb_spec (Z.of_nat (length l)) 1); lia || reflexivity).
  destruct (Nat.eqb (length l) 1); [reflexivity|].
  assert (E : (if Nat.odd (length l) then l ++ [last l []] else l) = BlockModel.pad_odd l).
  { unfold BlockModel.pad_odd, BlockModel.back, len.
    replace (Z.odd (Z.of_nat (length l))) with (Nat.odd (length l)); [reflexivity|].
    symmetry. rewrite <- Z.negb_even, <- Nat.negb_even. f_equal.
    destruct (Nat.even (length l)) eqn:Ev.
    - apply Nat.even_spec in Ev. destruct Ev as [m ->]. apply Z.even_spec. exists (Z.of_nat m). lia.
    - apply Bool.not_true_iff_false. intros Hz. apply Z.even_spec in Hz. destruct Hz as [m Hm].
      apply Bool.not_true_iff_false in Ev. apply Ev. apply Nat.even_spec. exists (Z.to_nat m). lia. }
  rewrite E.
  assert (Fp : Forall is_digest (BlockModel.pad_odd l)).
  { unfold BlockModel.pad_odd. destruct (Z.odd (len l)) eqn:O; [|exact Fl]. apply Forall_app. split; [exact Fl|].
    constructor; [|constructor]. unfold BlockModel.back. destruct l as [|x l]; [discriminate|].
    rewrite Forall_forall in Fl. apply Fl. destruct (exists_last (l := x :: l)) as (l' & y & Ey); [discriminate|].
    rewrite Ey, last_last. apply in_or_app. right. left. reflexivity. }
  rewrite (merkle_hash_ok _ Fp Fw). apply IH. apply merkle_hash_digests. exact Fp.
Qed.

(** * One block hash of a short message *)
Lemma simple_pad_eq m : (length m + 2 * word_bytes A < block_size A)%nat ->
  simple_pad A m = m ++ md_padding AL (len m).
Proof using So.
  clear N8. intros Hm. destruct (w_wb A mix So) as [Ew Hb]. destruct (Beq A s8 widths) as [EB EC].
  unfold block_size in *. set (wb := word_bytes A) in *.
  unfold md_padding. rewrite EB, EC. cbn [sha_algorithm big_end_count count_bytes].
  rewrite Z.mod_small by (unfold len; lia).
  set (z := Z.to_nat _). assert (Ez : z = (16 * wb - 2 * wb - 1 - length m)%nat) by (unfold z, len; lia). clearbody z.
  assert (Ec : be_bytes (2 * wb) (8 * len m) = repeat 0 wb ++ be_bytes wb (len m * 8)).
  { unfold be_bytes. replace (2 * wb)%nat with (wb + wb)%nat by lia. rewrite le_bytes_app, rev_app_distr.
    rewrite Z.div_small.
    - rewrite (Z.mul_comm 8). f_equal.
      assert (G : forall k, le_bytes k 0 = repeat 0 k) by (induction k as [|k IH]; cbn [le_bytes repeat]; [reflexivity|rewrite <- IH; reflexivity]).
      rewrite G. clear. induction wb as [|k IH]; [reflexivity|]. cbn [repeat rev]. rewrite IH.
      replace (repeat 0 k ++ [0]) with (repeat 0 (k + 1)) by (rewrite repeat_app; reflexivity). rewrite Nat.add_1_r. reflexivity.
    - unfold len. split; [lia|]. apply (Z.lt_le_trans _ (256 ^ 4)); [|apply Z.pow_le_mono_r; lia]. change (256 ^ 4) with 4294967296. lia. }
  change (2 * word_bytes A)%nat with (2 * wb)%nat. rewrite Ec.
  unfold simple_pad. fold wb. unfold block_size. fold wb.
  set (cnt := be_bytes wb (len m * 8)). assert (Lc : length cnt = wb) by apply be_bytes_length. clearbody cnt.
  replace (16 * wb - length m)%nat with (1 + z + wb + wb)%nat by lia. rewrite !repeat_app. cbn [repeat app].
  unfold write_at. rewrite Lc.
  replace (m ++ 0 :: (repeat 0 z ++ repeat 0 wb) ++ repeat 0 wb) with ((m ++ 0 :: repeat 0 z ++ repeat 0 wb) ++ repeat 0 wb)
    by (rewrite <- app_assoc; reflexivity).
  set (x := m ++ 0 :: repeat 0 z ++ repeat 0 wb).
  assert (Lx : length x = (16 * wb - wb)%nat) by (unfold x; rewrite app_length; cbn [length]; rewrite app_length, !repeat_length; lia).
  rewrite <- Lx at 1. rewrite firstn_app, firstn_all, Nat.sub_diag, firstn_O, app_nil_r.
  rewrite (skipn_all2 (n := (16 * wb - wb + wb)%nat)) by (rewrite app_length, repeat_length; lia). rewrite app_nil_r.
  unfold x. rewrite <- app_assoc. cbn [app]. unfold upd.
  rewrite firstn_app, firstn_all, Nat.sub_diag, firstn_O, app_nil_r. f_equal.
  rewrite skipn_app, skipn_all2 by lia. rewrite app_nil_l. replace (S (length m) - length m)%nat with 1%nat by lia.
  cbn [skipn]. rewrite <- app_assoc. reflexivity.
Qed.
Theorem simple_hash_ok m : (length m + 2 * word_bytes A < block_size A)%nat -> simple_hash A s8 m = MD m.
Proof using So.
  clear N8. intros Hm. unfold simple_hash. rewrite (simple_pad_eq m Hm). unfold AccProofs.MD.
  cbn [sha_algorithm normalize init]. f_equal.
  destruct (w_wb A mix So) as [Ew Hb]. destruct (Beq A s8 widths) as [EB EC].
  assert (L : length (m ++ md_padding AL (len m)) = block_size A).
  { rewrite app_length, md_padding_length, EB, EC. cbn [sha_algorithm count_bytes].
    unfold block_size in *. rewrite Z.mod_small by (unfold len; lia). unfold len. lia. }
  replace (split _ (m ++ md_padding AL (len m))) with [m ++ md_padding AL (len m)].
  - cbn [fold_left]. destruct (input_ok A mix So (zero_buffer A) _ (zero_length A) L) as [L1 E1].
    apply (compress_block A mix So (H A) _ _ s8 (s_H _ _ So) L1 E1).
  - symmetry. pose proof (split_app (block_size A) [m ++ md_padding AL (len m)]) as Q. cbn [concat] in Q.
    rewrite app_nil_r in Q. apply Q; [unfold block_size; lia|]. constructor; [exact L|constructor].
Qed.
End Merkle.
