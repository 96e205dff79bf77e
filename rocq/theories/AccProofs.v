(** The accumulator against Merkle-Damgard hashing, for any algorithm whose
    operations are folds of one block function. *)
From Coq Require Import PeanoNat.
From Verif Require Import Base Bytes ShaModel ShaSpec ShaProofs ShaProofs2 ShaProofs6 AccModel.

(** Padding with the counter in either byte order. *)
Definition md_padding (A : algorithm) (n : Z) : list Z :=
  128 :: repeat 0 (Z.to_nat ((B A - C A - 1 - n) mod B A)) ++
  (if big_end_count A then be_bytes (count_bytes A) (8 * n) else le_bytes (count_bytes A) (8 * n)).

Section Generic.
Variable A : algorithm.
Variable f : list Z -> list Z -> list Z.
Variable ok : list Z -> Prop.
Notation B := (B A). Notation C := (C A).
Definition is_block (b : list Z) : Prop := length b = block_bytes A.
(** The hash of a message. *)
Definition MD (m : list Z) : list Z :=
  normalize A (fold_left f (split (block_bytes A) (m ++ md_padding A (len m))) (init A)).

Record md_sound : Prop := {
  m_C : (0 < count_bytes A < block_bytes A)%nat;
  m_B : B <= 2 ^ 32;
  m_limit : 2 ^ 61 - 9 <= limit_bytes A < 2 ^ (8 * C);
  m_C8 : (8 <= count_bytes A)%nat;
  m_init : ok (init A);
  m_acc : forall st bs, ok st -> Forall is_block bs -> accumulate_blocks A st bs = fold_left f bs st;
  m_ok : forall st b, ok st -> is_block b -> ok (f st b);
  m_final : forall st n, ok st -> 0 <= n -> n * B < 2 ^ 61 ->
    finalize_state A st n = normalize A (f st (md_padding A (n * B))) }.
Hypothesis M : md_sound.

Lemma B_pos : 0 < B. Proof using M. unfold AccModel.B. pose proof (m_C M). lia. Qed.
Lemma C_lt : 0 < C < B. Proof using M. unfold AccModel.B, AccModel.C. pose proof (m_C M). lia. Qed.

Lemma fold_ok bs : Forall is_block bs -> forall st, ok st -> ok (fold_left f bs st).
Proof using M. induction 1 as [|b bs Hb F IH]; intros st Hs; cbn [fold_left]; [exact Hs|]. apply IH. apply (m_ok M); assumption. Qed.

(** * Splitting into blocks *)
Lemma split_every_app {X} n : (0 < n)%nat -> forall (bs : list (list X)) t fuel,
  Forall (fun b => length b = n) bs -> (length (concat bs ++ t) <= fuel)%nat ->
  split_every fuel n (concat bs ++ t) = bs ++ split_every (fuel - length bs) n t.
Proof using.
  clear. intros Hn. induction bs as [|b bs IH]; intros t fuel F L.
  - cbn [concat app length]. rewrite Nat.sub_0_r. reflexivity.
  - inversion F as [|? ? Hb F']; subst. cbn [concat app]. rewrite <- app_assoc.
    destruct fuel as [|fuel]; [rewrite app_length in L; cbn [concat] in L; rewrite app_length in L; lia|].
    cbn [concat] in L. rewrite <- app_assoc, app_length in L.
    assert (Hne : exists y l, b ++ concat bs ++ t = y :: l).
    { destruct b as [|x b']; [cbn [length] in Hn; lia|]. eexists; eexists; reflexivity. }
    destruct Hne as (y & l & Hl). cbn [split_every]. rewrite Hl. rewrite <- Hl.
    rewrite firstn_app, firstn_all, Nat.sub_diag, firstn_O, app_nil_r.
    rewrite skipn_app, skipn_all, Nat.sub_diag. cbn [skipn app length Nat.sub]. f_equal.
    apply IH; [exact F'|]. lia.
Qed.
Lemma split_nil {X} n : split n (@nil X) = [].
Proof using. reflexivity. Qed.
Lemma split_app {X} n (bs : list (list X)) : (0 < n)%nat -> Forall (fun b => length b = n) bs -> split n (concat bs) = bs.
Proof using.
  clear. intros Hn F. unfold split. rewrite <- (app_nil_r (concat bs)) at 2.
  rewrite split_every_app; [|exact Hn|exact F|rewrite app_nil_r; lia].
  destruct (_ - _)%nat; cbn [split_every]; apply app_nil_r.
Qed.

Lemma concat_length {X} n (bs : list (list X)) : Forall (fun b => length b = n) bs -> length (concat bs) = (length bs * n)%nat.
Proof using. clear. induction 1; cbn [concat length]; [reflexivity|]. rewrite app_length. lia. Qed.

Lemma chunks_concat {X} n : forall k (l : list X), (k * n <= length l)%nat ->
  concat (chunks n k l) ++ skipn (k * n) l = l /\ Forall (fun b => length b = n) (chunks n k l).
Proof using.
  clear. induction k as [|k IH]; intros l H; cbn [chunks concat].
  - split; [reflexivity|constructor].
  - destruct (IH (skipn n l)) as [I1 I2]; [rewrite skipn_length; lia|]. split.
    + rewrite <- app_assoc. replace (S k * n)%nat with (n + k * n)%nat by lia.
      rewrite <- (firstn_skipn n l) at 4. f_equal. rewrite skipn_skipn in I1. rewrite (Nat.add_comm n). exact I1.
    + constructor; [rewrite firstn_length; lia|exact I2].
Qed.

(** * The invariant: the accumulator holds message [m]. *)
Definition holds_ (a : acc) (m : list Z) : Prop :=
  exists bs t, m = concat bs ++ t /\ Forall is_block bs /\ (length t < block_bytes A)%nat /\
    size_ a = len m /\ state_ a = fold_left f bs (init A) /\
    length (buffer_ a) = block_bytes A /\ firstn (length t) (buffer_ a) = t.

Lemma holds_construct : holds_ (construct A) [].
Proof using M.
  exists [], []. repeat split; try constructor; try reflexivity.
  - cbn [length]. pose proof (m_C M). lia.
  - cbn [construct buffer_]. apply repeat_length.
Qed.

Lemma len_concat bs : Forall is_block bs -> len (concat bs) = Z.of_nat (length bs) * B.
Proof using. clear. intros F. unfold len, AccModel.B. rewrite (concat_length _ _ F). lia. Qed.

Lemma next_of_holds a m bs t : m = concat bs ++ t -> Forall is_block bs -> (length t < block_bytes A)%nat ->
  size_ a = len m -> next A a = len t.
Proof using M.
  intros -> F Lt Es. unfold next. rewrite Es. rewrite len_app, (len_concat bs F).
  rewrite Z.add_comm, Z.mod_add by (pose proof B_pos; lia). apply Z.mod_small. unfold len, AccModel.B. lia.
Qed.

Lemma add_holds a bs t d m : Forall is_block bs -> m = concat bs ++ t -> size_ a = len m ->
  state_ a = fold_left f bs (init A) -> length (buffer_ a) = block_bytes A -> firstn (length t) (buffer_ a) = t ->
  (length t < block_bytes A)%nat -> (length t + length d <= block_bytes A)%nat -> len m + len d < 2 ^ 64 ->
  let a' := add_data A a d in
  size_ a' = len (m ++ d) /\ state_ a' = fold_left f bs (init A) /\ length (buffer_ a') = block_bytes A /\
  firstn (length (t ++ d)) (buffer_ a') = t ++ d.
Proof using M.
  intros F Em Es Est Lb Et Lt Ld Hs. cbv zeta. unfold add_data. cbn [size_ state_ buffer_].
  rewrite (next_of_holds a m bs t Em F Lt Es). rewrite Es.
  replace (Z.to_nat (len t)) with (length t) by (unfold len; lia).
  pose proof (len_nonneg m). pose proof (len_nonneg d).
  rewrite Z.mod_small by lia. rewrite len_app. split; [reflexivity|]. split; [exact Est|].
  split; [rewrite write_at_length; [exact Lb|lia]|].
  unfold write_at. rewrite Et. rewrite app_assoc, firstn_app, Nat.sub_diag, firstn_all. cbn [firstn]. apply app_nil_r.
Qed.

(** Completing the buffered block. *)
Lemma accumulate_some a m bs d : Forall is_block bs -> m = concat bs -> size_ a = len m ->
  state_ a = fold_left f bs (init A) -> length (buffer_ a) = block_bytes A -> len m + len d < 2 ^ 61 -> B <= len d ->
  exists a', accumulate A a d = Some a' /\ holds_ a' (m ++ d).
Proof using M.
  intros F Em Es Est Lb Hs Hd. pose proof B_pos as BP.
  assert (Nx : next A a = 0).
  { change 0 with (len (@nil Z)). apply (next_of_holds a m bs []); [rewrite app_nil_r; exact Em|exact F|cbn; pose proof (m_C M); lia|exact Es]. }
  unfold accumulate, is_empty, is_full. rewrite Nx. change (0 =? 0) with true. cbn [negb orb].
  replace (len d <? B) with false by (symmetry; apply Z.ltb_ge; exact Hd).
  eexists. split; [reflexivity|].
  set (k := Z.to_nat (len d / B)).
  assert (Eb : len d - len d mod B = Z.of_nat k * B).
  { unfold k. rewrite Z2Nat.id by (apply Z.div_pos; [apply len_nonneg|lia]). pose proof (Z.div_mod (len d) B ltac:(lia)). lia. }
  rewrite Eb. rewrite Z.div_mul by lia. rewrite Nat2Z.id.
  assert (Ek : Z.to_nat (Z.of_nat k * B) = (k * block_bytes A)%nat) by (unfold AccModel.B; lia). rewrite Ek.
  assert (Lk : (k * block_bytes A <= length d)%nat).
  { pose proof (Z.mod_pos_bound (len d) B ltac:(lia)). unfold len, AccModel.B in *. lia. }
  destruct (chunks_concat (block_bytes A) k d Lk) as [Ec Fc].
  assert (Fall : Forall is_block (bs ++ chunks (block_bytes A) k d)) by (apply Forall_app; split; assumption).
  assert (Lr : (length (skipn (k * block_bytes A) d) < block_bytes A)%nat).
  { rewrite skipn_length. pose proof (Z.mod_pos_bound (len d) B ltac:(lia)). unfold len, AccModel.B in *. lia. }
  set (a1 := mkacc _ _ _).
  assert (Lm : len (m ++ concat (chunks (block_bytes A) k d)) = len m + Z.of_nat k * B).
  { rewrite len_app, (len_concat _ Fc). f_equal. f_equal. rewrite (ShaProofs6.chunks_length). reflexivity. }
  pose proof (Z.mod_pos_bound (len d) B ltac:(lia)) as MB. pose proof (len_nonneg m) as NM.
  pose proof (add_holds a1 (bs ++ chunks (block_bytes A) k d) [] (skipn (k * block_bytes A) d)
    (m ++ concat (chunks (block_bytes A) k d)) Fall) as AH.
  destruct AH as (A1 & A2 & A3 & A4).
  - rewrite app_nil_r, concat_app, Em. reflexivity.
  - unfold a1. cbn [size_]. rewrite Lm, Es. apply Z.mod_small. lia.
  - unfold a1. cbn [state_]. rewrite fold_left_app, <- Est. apply (m_acc M); [|exact Fc].
    rewrite Est. apply fold_ok; [exact F|apply (m_init M)].
  - exact Lb.
  - reflexivity.
  - cbn [length]. pose proof (m_C M). lia.
  - cbn [length]. lia.
  - rewrite Lm. unfold len at 2. rewrite skipn_length. unfold len in *. unfold AccModel.B in *. lia.
  - exists (bs ++ chunks (block_bytes A) k d), (skipn (k * block_bytes A) d).
    assert (Em' : m ++ d = concat (bs ++ chunks (block_bytes A) k d) ++ skipn (k * block_bytes A) d).
    { rewrite concat_app, <- app_assoc, Ec, Em. reflexivity. }
    repeat split; try assumption.
    rewrite A1. rewrite <- app_assoc, Ec. reflexivity.
Qed.

Lemma accumulate_none a d m bs t : m = concat bs ++ t -> Forall is_block bs -> (length t < block_bytes A)%nat ->
  size_ a = len m -> 0 < len t \/ len d < B -> accumulate A a d = None.
Proof using M.
  intros Em F Lt Es H. unfold accumulate, is_empty, is_full. rewrite (next_of_holds a m bs t Em F Lt Es).
  destruct H as [H|H].
  - replace (len t =? 0) with false by (symmetry; apply Z.eqb_neq; lia). reflexivity.
  - replace (len d <? B) with true by (symmetry; apply Z.ltb_lt; exact H). rewrite orb_true_r. reflexivity.
Qed.

(** Room left: [limit] bounds the length after a write. *)
Lemma no_overflow checked a (d : list Z) : 0 <= size_ a -> size_ a + len d < 2 ^ 61 - 8 -> is_buffer_overflow A checked a (len d) = false.
Proof using M.
  intros H0 H. unfold is_buffer_overflow. destruct checked; [|reflexivity].
  pose proof (m_limit M) as L. pose proof (len_nonneg d).
  apply Z.ltb_ge. rewrite Z.mod_small by lia. lia.
Qed.

Theorem write_holds checked a m d : holds_ a m -> len m + len d < 2 ^ 61 - 8 ->
  exists a', write A checked a d = (true, a') /\ holds_ a' (m ++ d).
Proof using M.
  intros (bs & t & Em & F & Lt & Es & Est & Lb & Et) Hs. pose proof B_pos as BP.
  pose proof (len_nonneg m) as NM. pose proof (len_nonneg d) as ND.
  unfold write. destruct (Z.eqb_spec (len d) 0) as [Z0|Z0].
  { exists a. split; [reflexivity|]. assert (d = []) by (destruct d; [reflexivity|rewrite len_cons in Z0; pose proof (len_nonneg d); lia]).
    subst d. rewrite app_nil_r. exists bs, t. repeat split; assumption. }
  destruct (Z.eq_dec (len t) 0) as [T0|T0].
  - assert (t = []) by (destruct t; [reflexivity|rewrite len_cons in T0; pose proof (len_nonneg t); lia]). subst t.
    rewrite app_nil_r in Em.
    destruct (Z.lt_ge_cases (len d) B) as [LD|LD].
    + rewrite (accumulate_none a d m bs []); try assumption; [|rewrite app_nil_r; exact Em|right; exact LD].
      rewrite no_overflow by lia.
      unfold gap. rewrite (next_of_holds a m bs []) by (try assumption; rewrite app_nil_r; exact Em).
      change (len (@nil Z)) with 0. rewrite Z.min_r by lia.
      replace (Z.to_nat (len d)) with (length d) by (unfold len; lia). rewrite firstn_all.
      destruct (add_holds a bs [] d m) as (A1 & A2 & A3 & A4); try assumption;
        [rewrite app_nil_r; exact Em|unfold len, AccModel.B in *; cbn [length]; lia|lia|].
      set (a1 := add_data A a d) in *.
      assert (NF : is_full A a1 = false).
      { unfold is_full. rewrite (next_of_holds a1 (m ++ d) bs d); try assumption;
          [apply Z.eqb_neq; exact Z0|rewrite Em; reflexivity|unfold len, AccModel.B in *; lia]. }
      rewrite NF. cbn [negb]. exists a1. split; [reflexivity|]. exists bs, d.
      repeat split; try assumption; [rewrite Em; reflexivity|unfold len, AccModel.B in *; lia].
    + destruct (accumulate_some a m bs d) as (a' & E1 & E2); try assumption; [lia|]. rewrite E1. exists a'. split; [reflexivity|exact E2].
  - pose proof (len_nonneg t) as NT.
    rewrite (accumulate_none a d m bs t); try assumption; [|left; lia].
    rewrite no_overflow by lia. unfold gap. rewrite (next_of_holds a m bs t) by assumption.
    set (k := Z.to_nat (Z.min (B - len t) (len d))).
    assert (Lk : (k <= length d)%nat) by (unfold k, len; lia).
    assert (Lf : length (firstn k d) = k) by (rewrite firstn_length; lia).
    assert (Lenf : len (firstn k d) = Z.of_nat k) by (unfold len; rewrite Lf; reflexivity).
    assert (Hk : Z.of_nat k = Z.min (B - len t) (len d)).
    { unfold k. rewrite Z2Nat.id; [reflexivity|]. unfold len, AccModel.B in *. lia. }
    destruct (add_holds a bs t (firstn k d) m) as (A1 & A2 & A3 & A4); try assumption;
      [rewrite Lf; unfold len, AccModel.B in *; lia|rewrite Lenf; lia|].
    set (a1 := add_data A a (firstn k d)) in *.
    destruct (Z.lt_ge_cases (len d) (B - len t)) as [LD|LD].
    + assert (Ed : firstn k d = d) by (apply firstn_all2; unfold len in *; lia).
      rewrite Ed in A1, A4.
      assert (NF : is_full A a1 = false).
      { unfold is_full. rewrite (next_of_holds a1 (m ++ d) bs (t ++ d)); try assumption;
          [rewrite len_app; apply Z.eqb_neq; lia|rewrite Em, app_assoc; reflexivity
          |rewrite app_length; unfold len, AccModel.B in *; lia]. }
      rewrite NF. cbn [negb]. exists a1. split; [reflexivity|]. exists bs, (t ++ d).
      repeat split; try assumption; [rewrite Em, app_assoc; reflexivity|rewrite app_length; unfold len, AccModel.B in *; lia].
    + set (blk := t ++ firstn k d) in *.
      assert (Lblk : is_block blk) by (unfold is_block, blk; rewrite app_length, Lf; unfold len, AccModel.B in *; lia).
      assert (Ebuf : buffer_ a1 = blk) by (rewrite <- A4, Lblk, <- A3; symmetry; apply firstn_all).
      assert (Fb : Forall is_block (bs ++ [blk])) by (apply Forall_app; split; [exact F|constructor; [exact Lblk|constructor]]).
      assert (Em1 : m ++ firstn k d = concat (bs ++ [blk])).
      { rewrite concat_app, Em. cbn [concat]. rewrite app_nil_r. unfold blk. rewrite app_assoc. reflexivity. }
      assert (NF : is_full A a1 = true).
      { unfold is_full. rewrite (next_of_holds a1 (m ++ firstn k d) (bs ++ [blk]) []); try assumption; [reflexivity| |cbn; pose proof (m_C M); lia].
        rewrite app_nil_r. exact Em1. }
      rewrite NF. cbn [negb]. rewrite Ebuf.
      set (a2 := mkacc _ _ _).
      assert (S2 : state_ a2 = fold_left f (bs ++ [blk]) (init A)).
      { unfold a2. cbn [state_]. rewrite A2, fold_left_app. apply (m_acc M); [apply fold_ok; [exact F|apply (m_init M)]|].
        constructor; [exact Lblk|constructor]. }
      assert (Er : m ++ d = (m ++ firstn k d) ++ skipn k d) by (rewrite <- app_assoc, firstn_skipn; reflexivity).
      assert (Ls : len (skipn k d) = len d - Z.of_nat k) by (unfold len; rewrite skipn_length; lia).
      assert (L2 : length (buffer_ a2) = block_bytes A) by exact Lblk.
      destruct (Z.lt_ge_cases (len (skipn k d)) B) as [LR|LR].
      * rewrite (accumulate_none a2 (skipn k d) (m ++ firstn k d) (bs ++ [blk]) []); try assumption;
          [|rewrite app_nil_r; exact Em1|cbn [length]; pose proof (m_C M); lia|right; exact LR].
        eexists. split; [reflexivity|].
        destruct (add_holds a2 (bs ++ [blk]) [] (skipn k d) (m ++ firstn k d)) as (B1 & B2 & B3 & B4); try assumption;
          [rewrite app_nil_r; exact Em1|reflexivity|cbn [length]; pose proof (m_C M); lia
          |cbn [length]; unfold len, AccModel.B in *; lia|rewrite len_app; lia|].
        exists (bs ++ [blk]), (skipn k d). rewrite Er. repeat split; try assumption.
        -- rewrite Em1. reflexivity.
        -- unfold len, AccModel.B in *; lia.
      * destruct (accumulate_some a2 (m ++ firstn k d) (bs ++ [blk]) (skipn k d)) as (a' & E1 & E2); try assumption;
          [rewrite len_app; lia|]. rewrite E1. exists a'. split; [reflexivity|]. rewrite Er. exact E2.
Qed.

Definition writes (checked : bool) (a : acc) (ds : list (list Z)) : acc :=
  fold_left (fun a d => snd (write A checked a d)) ds a.

Theorem writes_hold checked ds : forall a m, holds_ a m -> len m + len (concat ds) < 2 ^ 61 - 8 ->
  holds_ (writes checked a ds) (m ++ concat ds).
Proof using M.
  induction ds as [|d ds IH]; intros a m Ha Hs; unfold writes; cbn [fold_left concat].
  - rewrite app_nil_r. exact Ha.
  - cbn [concat] in Hs. rewrite len_app in Hs. pose proof (len_nonneg (concat ds)).
    destruct (write_holds checked a m d Ha ltac:(lia)) as (a' & E & Ha'). rewrite E. cbn [snd].
    rewrite app_assoc. apply IH; [exact Ha'|]. rewrite len_app. lia.
Qed.

(** * Padding *)
Lemma serialize_eq (m : list Z) : len m < 2 ^ 61 -> serialize A (len m) =
  if big_end_count A then be_bytes (count_bytes A) (8 * len m) else le_bytes (count_bytes A) (8 * len m).
Proof using.
  clear. intros H. pose proof (len_nonneg m). unfold serialize. rewrite Z.mod_small by lia.
  rewrite (Z.mul_comm (len m) 8). reflexivity.
Qed.

Lemma md_padding_length n : length (md_padding A n) = (1 + Z.to_nat ((B - C - 1 - n) mod B) + count_bytes A)%nat.
Proof using.
  clear. unfold md_padding. cbn [length]. rewrite app_length, repeat_length.
  destruct (big_end_count A); rewrite ?be_bytes_length, ?le_bytes_length; lia.
Qed.
Lemma padded_length (m : list Z) : (len m + len (md_padding A (len m))) mod B = 0.
Proof using M.
  pose proof C_lt. unfold len at 2. rewrite md_padding_length.
  pose proof (Z.mod_pos_bound (B - C - 1 - len m) B ltac:(lia)).
  replace (len m + Z.of_nat (1 + Z.to_nat ((B - C - 1 - len m) mod B) + count_bytes A))
    with (((B - C - 1 - len m) mod B) + (1 + C + len m)) by (unfold AccModel.C; lia).
  rewrite Zplus_mod_idemp_l. replace (B - C - 1 - len m + (1 + C + len m)) with (1 * B) by lia.
  apply Z.mod_mul. lia.
Qed.

Lemma pad_holds checked a m : holds_ a m -> len m < 2 ^ 61 - 2 ^ 40 ->
  holds_ (pad A checked a) (m ++ md_padding A (len m)).
Proof using M.
  intros Ha Hs. pose proof C_lt as HC. pose proof (m_B M) as HB. pose proof (len_nonneg m) as NM.
  unfold pad.
  set (p := firstn (Z.to_nat (pad_size A a)) (stream_pad A)).
  assert (Ep : p ++ serialize A (size_ a) = md_padding A (len m) /\ len p <= B).
  { destruct Ha as (bs & t & Em & F & Lt & Es & _). rewrite Es, serialize_eq by lia. unfold md_padding, p.
    set (cnt := if big_end_count A then _ else _).
    assert (E : Z.to_nat (pad_size A a) = S (Z.to_nat ((B - C - 1 - len m) mod B))).
    { unfold pad_size. cbv zeta. unfold next. rewrite Es. pose proof (Z.mod_pos_bound (len m) B ltac:(lia)) as MB.
      pose proof (Z.div_mod (len m) B ltac:(lia)) as DM.
      destruct (Z.ltb_spec (len m mod B) (B - C)) as [Q|Q].
      - rewrite <- (Z.mod_unique_pos (B - C - 1 - len m) B (- (len m / B)) (B - C - 1 - len m mod B)) by lia. lia.
      - rewrite <- (Z.mod_unique_pos (B - C - 1 - len m) B (- (len m / B) - 1) (B + (B - C - 1 - len m mod B))) by lia. lia. }
    rewrite E. unfold stream_pad. cbn [firstn app].
    set (z := Z.to_nat ((B - C - 1 - len m) mod B)).
    assert (Hz : (z <= block_bytes A - 1)%nat).
    { unfold z. pose proof (Z.mod_pos_bound (B - C - 1 - len m) B ltac:(lia)). unfold AccModel.B in *. lia. }
    replace (firstn z (repeat 0 (block_bytes A - 1))) with (repeat 0 z).
    - split; [reflexivity|]. rewrite len_cons. unfold len. rewrite repeat_length. unfold AccModel.B in *. lia.
    - replace (block_bytes A - 1)%nat with (z + (block_bytes A - 1 - z))%nat by lia.
      rewrite repeat_app, firstn_app, repeat_length, Nat.sub_diag, firstn_O, app_nil_r.
      rewrite <- (repeat_length 0 z) at 2. symmetry. apply firstn_all. }
  destruct Ep as [Ep Lp].
  assert (Es : size_ a = len m) by (destruct Ha as (? & ? & ? & ? & ? & Es & _); exact Es).
  assert (Lser : len (serialize A (size_ a)) = C).
  { unfold serialize, len, AccModel.C. destruct (big_end_count A); rewrite ?be_bytes_length, ?le_bytes_length; reflexivity. }
  change (2 ^ 61) with 2305843009213693952 in *. change (2 ^ 40) with 1099511627776 in *. change (2 ^ 32) with 4294967296 in *.
  destruct (write_holds checked a m p Ha) as (a1 & E1 & H1); [change (2 ^ 61) with 2305843009213693952; lia|].
  rewrite E1. cbn [snd].
  destruct (write_holds checked a1 (m ++ p) (serialize A (size_ a)) H1) as (a2 & E2 & H2).
  { rewrite len_app, Lser. change (2 ^ 61) with 2305843009213693952. lia. }
  rewrite E2. cbn [snd]. rewrite <- app_assoc, Ep in H2. exact H2.
Qed.

(** A message that fills its blocks leaves nothing buffered. *)
Lemma holds_full a m : holds_ a m -> len m mod B = 0 ->
  state_ a = fold_left f (split (block_bytes A) m) (init A) /\ ok (state_ a) /\
  Forall is_block (split (block_bytes A) m) /\ concat (split (block_bytes A) m) = m.
Proof using M.
  intros (bs & t & Em & F & Lt & Es & Est & _) Hm. pose proof B_pos.
  assert (T : t = []).
  { rewrite <- Es in Hm. change (size_ a mod B) with (next A a) in Hm.
    rewrite (next_of_holds a m bs t) in Hm by assumption. destruct t; [reflexivity|]. rewrite len_cons in Hm.
    pose proof (len_nonneg t). lia. }
  subst t. rewrite app_nil_r in Em.
  assert (Hn : (0 < block_bytes A)%nat) by (pose proof (m_C M); lia).
  rewrite Em, (split_app _ _ Hn F). repeat split; try assumption.
  rewrite Est. apply fold_ok; [exact F|apply (m_init M)].
Qed.

Theorem flush_holds checked a m : holds_ a m -> len m < 2 ^ 61 - 2 ^ 40 -> fst (flush A checked a) = MD m.
Proof using M.
  intros Ha Hs. unfold flush, MD. pose proof C_lt as HC. pose proof (len_nonneg m) as NM.
  assert (Es : size_ a = len m) by (destruct Ha as (? & ? & ? & ? & ? & Es & _); exact Es).
  unfold is_empty, is_full, next. rewrite Es. destruct (Z.eqb_spec (len m mod B) 0) as [E|E]; cbn [fst].
  - destruct (holds_full a m Ha E) as (S1 & S2 & S3 & S4).
    assert (Dm : len m / B * B = len m) by (pose proof (Z.div_mod (len m) B ltac:(lia)); lia).
    rewrite (m_final M); [|exact S2|apply Z.div_pos; lia|rewrite Dm; lia].
    rewrite Dm. f_equal.
    assert (Lpad : is_block (md_padding A (len m))).
    { unfold is_block. rewrite md_padding_length.
      rewrite <- (Z.mod_unique_pos (B - C - 1 - len m) B (- (len m / B)) (B - C - 1)) by lia.
      unfold AccModel.B, AccModel.C in *. lia. }
    replace (m ++ md_padding A (len m)) with (concat (split (block_bytes A) m ++ [md_padding A (len m)])).
    + rewrite split_app; [|pose proof (m_C M); lia|apply Forall_app; split; [exact S3|constructor; [exact Lpad|constructor]]].
      rewrite fold_left_app, <- S1. reflexivity.
    + rewrite concat_app, S4. cbn [concat]. rewrite app_nil_r. reflexivity.
  - f_equal. apply holds_full; [apply pad_holds; assumption|]. rewrite len_app. apply padded_length.
Qed.

Theorem stream_ok checked data : len data < 2 ^ 61 - 2 ^ 40 -> stream_hash A checked data = MD data.
Proof using M.
  intros Hs. unfold stream_hash. destruct (write_holds checked (construct A) [] data holds_construct) as (a' & E & Ha).
  - change (len (@nil Z)) with 0. change (2 ^ 61) with 2305843009213693952 in *. change (2 ^ 40) with 1099511627776 in *. lia.
  - rewrite E. cbn [snd]. apply (flush_holds checked a' data Ha Hs).
Qed.
End Generic.
