(** Iteration over blocks, scalar or vectorised, is the fold of the block
    function. *)
From Coq Require Import PeanoNat.
From Verif Require Import Base Bytes MathModel BitProofs BechProofs ShaModel ShaSpec ShaProofs ShaProofs2 ShaProofs3 ShaProofs4 ShaProofs5.

Record sound (A : sha) (mix : list Z -> list Z -> list Z) : Prop := {
  s_impl : implements A mix;
  s_bytes : word_bytes A = 4%nat /\ word_bits A = 32 \/ word_bytes A = 8%nat /\ word_bits A = 64;
  s_16 : (16 <= rounds A)%nat;
  s_8 : (rounds A mod 8 = 0)%nat;
  s_H : words_ok A (state_words A) (H A) }.

Lemma chunks_length {X} n k (l : list X) : length (chunks n k l) = k.
Proof. revert l. induction k as [|k IH]; intros l; cbn [chunks length]; [reflexivity|]. rewrite IH. reflexivity. Qed.

Lemma fold_ext {X Y} (f g : X -> Y -> X) l : (forall x y, f x y = g x y) -> forall x, fold_left f l x = fold_left g l x.
Proof. intros E. induction l as [|y l IH]; intros x; cbn [fold_left]; [reflexivity|]. rewrite E. apply IH. Qed.

Lemma compress_ext {X} A (W : wops X) st wk wk' : (forall r, wk r = wk' r) -> compress_ A W st wk = compress_ A W st wk'.
Proof.
  intros E. unfold compress_. f_equal. apply fold_ext. intros. rewrite E. reflexivity.
Qed.

Lemma F2_length {X Y} (R : X -> Y -> Prop) a b : Forall2 R a b -> length a = length b.
Proof. induction 1; cbn [length]; congruence. Qed.
Lemma fold_left_map {X Y Z'} (f : Y -> Z' -> Y) (g : X -> Z') l : forall y,
  fold_left f (map g l) y = fold_left (fun y x => f y (g x)) l y.
Proof. induction l as [|x l IH]; intros y; cbn [map fold_left]; [reflexivity|apply IH]. Qed.

Section Iterate.
Variable A : sha.
Variable mix : list Z -> list Z -> list Z.
Hypothesis So : sound A mix.
Notation n := (state_words A).
Notation blk := (fun st block => mix st (words_of A block)).

Lemma wb_pos : (0 < word_bytes A)%nat.
Proof using So. destruct (s_bytes _ _ So) as [[E _]|[E _]]; lia. Qed.
Lemma words_of_length block k : length block = (k * word_bytes A)%nat -> length (words_of A block) = k.
Proof using So.
  intros L. unfold words_of. rewrite map_length, chunks_length, L. apply Nat.div_mul. pose proof wb_pos. lia.
Qed.
Lemma block_words block : length block = block_size A -> length (words_of A block) = 16%nat.
Proof using So. intros L. apply words_of_length. exact L. Qed.

Lemma write_at_0 {X} (v l : list X) : (length v <= length l)%nat -> firstn (length v) (write_at 0 v l) = v.
Proof using.
  clear. intros H. unfold write_at. cbn [firstn app Nat.add]. rewrite firstn_app, Nat.sub_diag, firstn_all.
  cbn [firstn]. apply app_nil_r.
Qed.

Lemma input_ok buf block : length buf = rounds A -> length block = block_size A ->
  length (input A buf block) = rounds A /\ firstn 16 (input A buf block) = words_of A block.
Proof using So.
  intros L Lb. pose proof (s_16 _ _ So). pose proof (block_words block Lb) as L16. unfold input. split.
  - rewrite write_at_length; lia.
  - rewrite <- L16. apply write_at_0. lia.
Qed.

Lemma schedule_length s8 b : length b = rounds A -> length (schedule A s8 b) = rounds A.
Proof using So.
  intros L. pose proof (s_16 _ _ So). rewrite schedule_sigma by (try exact L; apply So).
  set (next := fun l => next_of A l (length l)).
  destruct (schedule_nth A next (fun _ _ => eq_refl) b 0 L) as [E _]; [lia|lia|exact E].
Qed.

Lemma step_ok s8 st buf block : words_ok A n st -> length buf = rounds A -> length block = block_size A ->
  compress A st (schedule A s8 (input A buf block)) = blk st block /\ words_ok A n (blk st block).
Proof using So.
  intros Hs L Lb. destruct (input_ok buf block L Lb) as [L1 E1].
  rewrite <- E1. apply (s_impl _ _ So); assumption.
Qed.

Lemma zero_length : length (zero_buffer A) = rounds A.
Proof using. apply repeat_length. Qed.

Lemma iterate__ok s8 bs : Forall (fun b => length b = block_size A) bs -> forall st, words_ok A n st ->
  iterate_ A s8 st bs = fold_left blk bs st /\ words_ok A n (fold_left blk bs st).
Proof using So.
  intros Hb. unfold iterate_.
  assert (G : forall st buf, words_ok A n st -> length buf = rounds A ->
    fst (fold_left (fun (p : list Z * list Z) block =>
      let buffer := schedule A s8 (input A (snd p) block) in (compress A (fst p) buffer, buffer)) bs (st, buf))
    = fold_left blk bs st /\ words_ok A n (fold_left blk bs st)).
  { induction Hb as [|b bs Lb Hb IH]; intros st buf Hs L; cbn [fold_left fst snd]; [split; [reflexivity|exact Hs]|].
    cbv zeta. destruct (step_ok s8 st buf b Hs L Lb) as [E1 O1]. cbn [fst snd]. rewrite E1.
    apply IH; [exact O1|]. apply schedule_length. apply input_ok; assumption. }
  intros st Hs. apply G; [exact Hs|apply zero_length].
Qed.

(** * Vector groups *)
Lemma lane_self (k j : nat) (xs : list (list Z)) : Forall (fun x => length x = k) xs ->
  Forall2 (lane k j) xs (map (fun x => nth j x 0) xs).
Proof using. clear. induction 1; cbn [map]; constructor; [split; [assumption|reflexivity]|assumption]. Qed.
Lemma lane_nth k j (xs : list (list Z)) (b : list Z) r : Forall2 (lane k j) xs b -> nth j (nth r xs []) 0 = nth r b 0.
Proof using.
  clear. intros F. revert r. induction F as [|x y xs b Hxy F IH]; intros [|r]; cbn [nth].
  - destruct j; reflexivity.
  - destruct j; reflexivity.
  - apply Hxy.
  - apply IH.
Qed.
Lemma lane_lengths k j (xs : list (list Z)) b : Forall2 (lane k j) xs b -> Forall (fun x => length x = k) xs.
Proof using. clear. induction 1 as [|x y xs b Hxy F IH]; constructor; [apply Hxy|exact IH]. Qed.

Definition xok (k : nat) (xb : list (list Z)) : Prop := length xb = rounds A /\ Forall (fun x => length x = k) xb.

Lemma map_write_at {X Y} (f : X -> Y) i v l : map f (write_at i v l) = write_at i (map f v) (map f l).
Proof using. clear. unfold write_at. rewrite !map_app, firstn_map, skipn_map, map_length. reflexivity. Qed.

Lemma xinput_ok k xb group : xok k xb -> length group = k -> Forall (fun b => length b = block_size A) group ->
  xok k (xinput A xb group) /\
  forall j, (j < k)%nat -> firstn 16 (map (fun x => nth j x 0) (xinput A xb group)) = words_of A (nth j group []).
Proof using So.
  intros [L F] Lg Fg. pose proof (s_16 _ _ So) as R16. unfold xinput. split.
  - split.
    + rewrite write_at_length; rewrite ?map_length, ?seq_length; lia.
    + unfold write_at. rewrite !Forall_app. repeat split.
      * apply Forall_forall. intros x Hx. rewrite Forall_forall in F. apply F.
        rewrite <- (firstn_skipn 0 xb). apply in_or_app. left. exact Hx.
      * apply Forall_forall. intros x Hx. apply in_map_iff in Hx. destruct Hx as (i & <- & _). rewrite map_length. exact Lg.
      * apply Forall_forall. intros x Hx. rewrite Forall_forall in F. apply F.
        match type of Hx with In _ (skipn ?m _) => rewrite <- (firstn_skipn m xb) end. apply in_or_app. right. exact Hx.
  - intros j Hj. rewrite map_write_at, map_map.
    assert (W16 : length (words_of A (nth j group [])) = 16%nat).
    { apply block_words. rewrite Forall_forall in Fg. apply Fg. apply nth_In. lia. }
    replace (map _ (seq 0 16)) with (words_of A (nth j group [])).
    + rewrite <- W16 at 1. apply write_at_0. rewrite map_length. lia.
    + apply (list_ext _ _ 0).
      * rewrite map_length, seq_length. exact W16.
      * intros i Hi. rewrite W16 in Hi. rewrite nth_map_seq by exact Hi.
        rewrite (nth_indep (map (fun block => nth i (words_of A block) 0) group) 0 (nth i (words_of A []) 0)) by (rewrite map_length; lia).
        rewrite (map_nth (fun block => nth i (words_of A block) 0)). reflexivity.
Qed.

Lemma lane_group k xb group j : xok k xb -> length group = k -> Forall (fun b => length b = block_size A) group -> (j < k)%nat ->
  let xb' := schedule_ A (lops (word_bits A) k) (xinput A xb group) in
  xok k xb' /\ forall s, words_ok A n s ->
    compress_ A (zops (word_bits A)) s (fun r => nth j (nth r xb' []) 0) = blk s (nth j group []) /\
    words_ok A n (blk s (nth j group [])).
Proof using So.
  intros Hx Lg Fg Hj. cbv zeta. destruct (xinput_ok k xb group Hx Lg Fg) as [[Lx Fx] Ew]. specialize (Ew j Hj).
  set (b := map (fun x => nth j x 0) (xinput A xb group)) in *.
  assert (Lb : length b = rounds A) by (unfold b; rewrite map_length; exact Lx).
  pose proof (lane_schedule A k j Hj _ _ (lane_self k j _ Fx)) as Fs. fold b in Fs.
  assert (Sc : schedule A false b = schedule_ A (zops (word_bits A)) b) by reflexivity.
  split.
  - split; [|exact (lane_lengths _ _ _ _ Fs)].
    rewrite (F2_length _ _ _ Fs), <- Sc. apply schedule_length. exact Lb.
  - intros s Hs. rewrite (compress_ext A _ s _ (fun r => nth r (schedule A false b) 0)).
    + change (compress_ A (zops (word_bits A)) s (fun r => nth r (schedule A false b) 0))
        with (compress A s (schedule A false b)). rewrite <- Ew. apply (s_impl _ _ So); assumption.
    + intros r. apply lane_nth with (k := k). exact Fs.
Qed.

Lemma seq_fold {X} (f : list Z -> X -> list Z) (d : X) l st :
  fold_left (fun s i => f s (nth i l d)) (seq 0 (length l)) st = fold_left f l st.
Proof using.
  clear. revert st. induction l as [|x l IH]; intros st; cbn [length seq fold_left]; [reflexivity|].
  rewrite <- seq_shift, fold_left_map. cbn [nth]. apply IH.
Qed.

Lemma fold_indices (g f : list Z -> nat -> list Z) (P : list Z -> Prop) k :
  (forall s i, (i < k)%nat -> P s -> g s i = f s i /\ P (f s i)) -> forall s, P s ->
  fold_left g (seq 0 k) s = fold_left f (seq 0 k) s /\ P (fold_left f (seq 0 k) s).
Proof using.
  clear. intros E. assert (G : forall m i s, (i + m <= k)%nat -> P s ->
    fold_left g (seq i m) s = fold_left f (seq i m) s /\ P (fold_left f (seq i m) s)).
  { induction m as [|m IH]; intros i s Hi Hs; cbn [seq fold_left]; [split; [reflexivity|exact Hs]|].
    destruct (E s i ltac:(lia) Hs) as [-> Hs']. apply IH; [lia|exact Hs']. }
  intros s Hs. apply G; [lia|exact Hs].
Qed.

Lemma group_ok k xb group st : xok k xb -> length group = k -> Forall (fun b => length b = block_size A) group ->
  words_ok A n st ->
  let xb' := schedule_ A (lops (word_bits A) k) (xinput A xb group) in
  sequential_compress A st k xb' = fold_left blk group st /\ words_ok A n (fold_left blk group st).
Proof using So.
  intros Hx Lg Fg Hs. cbv zeta. unfold sequential_compress.
  rewrite <- (seq_fold blk [] group st), Lg.
  apply (fold_indices _ (fun s i => blk s (nth i group []))); [|exact Hs].
  intros s i Hi Hs'. destruct (lane_group k xb group i Hx Lg Fg Hi) as [_ G]. apply G. exact Hs'.
Qed.

Lemma vector_loop_ok k : (0 < k)%nat -> forall fuel st xb bs, xok k xb -> Forall (fun b => length b = block_size A) bs ->
  words_ok A n st ->
  let (st', rest) := vector_loop A fuel k st xb bs in
  words_ok A n st' /\ Forall (fun b => length b = block_size A) rest /\
  fold_left blk rest st' = fold_left blk bs st.
Proof using So.
  intros Hk. induction fuel as [|f IH]; intros st xb bs Hx Fb Hs; cbn [vector_loop]; [repeat split; try assumption; apply Hs|].
  destruct (Nat.leb_spec k (length bs)) as [C|C]; [|repeat split; try assumption; apply Hs].
  assert (Lg : length (firstn k bs) = k) by (rewrite firstn_length; lia).
  rewrite <- (firstn_skipn k bs) in Fb. apply Forall_app in Fb. destruct Fb as [F1 F2].
  destruct (group_ok k xb (firstn k bs) st Hx Lg F1 Hs) as [E1 O1].
  destruct (lane_group k xb (firstn k bs) 0 Hx Lg F1 Hk) as [X1 _]. rewrite E1.
  specialize (IH (fold_left blk (firstn k bs) st) _ (skipn k bs) X1 F2 O1).
  destruct (vector_loop A f k _ _ _) as [st' rest]. destruct IH as (I1 & I2 & I3).
  split; [exact I1|]. split; [exact I2|]. rewrite I3, <- fold_left_app, firstn_skipn. reflexivity.
Qed.

Lemma vector_loop_0 fuel : forall st xb bs, vector_loop A fuel 0 st xb bs = (st, bs).
Proof using.
  clear. induction fuel as [|f IH]; intros st xb bs; cbn [vector_loop]; [reflexivity|].
  rewrite IH. reflexivity.
Qed.

Lemma iterate_ok s8 widths bs st : Forall (fun b => length b = block_size A) bs -> words_ok A n st ->
  iterate A s8 widths st bs = fold_left blk bs st /\ words_ok A n (fold_left blk bs st).
Proof using So.
  intros Fb Hs. unfold iterate, iterate_vector.
  assert (G : forall ws st bs, Forall (fun b => length b = block_size A) bs -> words_ok A n st ->
    let (st', rest) := fold_left (fun p lanes => vector_pass A (fst p) (snd p) lanes) ws (st, bs) in
    words_ok A n st' /\ Forall (fun b => length b = block_size A) rest /\ fold_left blk rest st' = fold_left blk bs st).
  { clear - So. induction ws as [|k ws IH]; intros st bs Fb Hs; cbn [fold_left fst snd]; [repeat split; try assumption; apply Hs|].
    unfold vector_pass at 2. cbn [fst snd]. destruct k as [|k].
    - rewrite vector_loop_0. apply IH; assumption.
    - pose proof (vector_loop_ok (S k) ltac:(lia) (length bs) st (repeat (repeat 0 (S k)) (rounds A)) bs) as V.
      assert (Hx : xok (S k) (repeat (repeat 0 (S k)) (rounds A))).
      { split; [apply repeat_length|]. apply Forall_forall. intros x Hx. apply repeat_spec in Hx. subst x. apply repeat_length. }
      specialize (V Hx Fb Hs). destruct (vector_loop A (length bs) (S k) st _ bs) as [st1 bs1].
      destruct V as (V1 & V2 & V3). specialize (IH st1 bs1 V2 V1).
      destruct (fold_left _ ws (st1, bs1)) as [st' rest]. destruct IH as (I1 & I2 & I3).
      repeat split; try assumption; try apply I1. rewrite I3. exact V3. }
  specialize (G widths st bs Fb Hs). destruct (fold_left _ widths (st, bs)) as [st' rest].
  destruct G as (G1 & G2 & G3). destruct (iterate__ok s8 rest G2 st' G1) as [E O]. rewrite E, G3. split; [reflexivity|].
  rewrite <- G3. exact O.
Qed.
End Iterate.
