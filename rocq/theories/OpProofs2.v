From Verif Require Import Base Bytes MathModel MathSpec MathProofs StreamModel StreamSpec StreamProofs StreamProofs2 LineProofs OpModel OpSpec OpProofs.

(** A state reached from [s] (which sees [l], then [tl]) by consuming a prefix. *)
Definition within (s : rd) (l tl : list Z) (s2 : rd) (a b : list Z) : Prop :=
  l = a ++ b /\ past s2 = rev a ++ past s /\ rest s2 = b ++ tl /\
  0 <= lim s2 <= lim s - len a /\ (lim s = len l -> lim s2 = len b).
Definition stuck (s : rd) (l tl : list Z) (s2 : rd) : Prop :=
  good s2 = false /\ exists a b, within s l tl s2 a b /\ len b <= lim s2.

Lemma within_refl s l tl : sees s l tl -> within s l tl s [] l.
Proof.
  intros H. pose proof (sees_len _ _ _ H). destruct H as (Hg & Hr & Hm & Hl). pose proof (len_nonneg l).
  unfold within. change (len (@nil Z)) with 0. repeat split; auto; lia.
Qed.
Lemma within_eat s a l tl s2 a2 b2 : sees s (a ++ l) tl -> within (eat a (l ++ tl) s) l tl s2 a2 b2 ->
  within s (a ++ l) tl s2 (a ++ a2) b2.
Proof.
  intros Hs (-> & Hp & Hr & Hl & Hx). rewrite eat_lim in *. unfold within. rewrite Hp, Hr. unfold eat. cbn [StreamModel.past].
  rewrite rev_app_distr, <- !app_assoc, !len_app in *. repeat split; try lia.
Qed.
Lemma stuck_eat s a l tl s2 : sees s (a ++ l) tl -> stuck (eat a (l ++ tl) s) l tl s2 -> stuck s (a ++ l) tl s2.
Proof.
  intros Hs (Hb & a2 & b2 & W & L). split; [exact Hb|]. exists (a ++ a2), b2. split; [|exact L]. apply within_eat; assumption.
Qed.
Lemma stuck_invalid s l tl : sees s l tl -> stuck s l tl (invalid s).
Proof.
  intros H. split; [reflexivity|]. exists [], l. pose proof (within_refl _ _ _ H) as W. split; [exact W|]. apply (sees_len _ _ _ H).
Qed.
Lemma stuck_invalid2 s l tl s2 : stuck s l tl s2 -> stuck s l tl (invalid s2).
Proof. intros (H & a & b & W & L). split; [reflexivity|]. exists a, b. split; [exact W|exact L]. Qed.

Lemma do_read_stuck s l tl n : sees s l tl -> len l < n -> stuck s l tl (snd (do_read n s)).
Proof.
  intros Hs Hn. pose proof (sees_len _ _ _ Hs) as HL. pose proof Hs as (Hg & Hr & Hm & Hl). pose proof (len_nonneg l).
  unfold do_read, limiter. destruct (Z.gtb_spec n (lim s)) as [G|G]; [apply stuck_invalid; exact Hs|].
  destruct Hl as [Hl|[-> Hl]]; [lia|]. rewrite app_nil_r in Hr.
  unfold istream_read, set_lim. cbn [good rest]. rewrite Hg, Hr. cbn [negb].
  destruct (Z.gtb_spec n (len l)); [|lia]. cbn [snd]. unfold advance, invalid, set_good. cbn [past rest good lim].
  rewrite firstn_all, skipn_all. split; [reflexivity|]. exists l, []. split; [|change (len (@nil Z)) with 0; cbn [lim]; lia].
  unfold within. cbn [past rest lim]. change (len (@nil Z)) with 0; rewrite ?app_nil_r. repeat split; try reflexivity; lia.
Qed.
Lemma do_skip_stuck s l tl n : sees s l tl -> len l < n ->
  good (do_skip n s) = false /\ exists a b, within s l tl (do_skip n s) a b /\ lim s - len a - n <= lim (do_skip n s).
Proof.
  intros Hs Hn. pose proof (sees_len _ _ _ Hs) as HL. pose proof Hs as (Hg & Hr & Hm & Hl). pose proof (len_nonneg l).
  unfold do_skip, limiter. destruct (Z.gtb_spec n (lim s)) as [G|G].
  - split; [reflexivity|]. exists [], l. split; [apply (within_refl _ _ _ Hs)|]. unfold invalid, set_good; cbn [lim]. change (len (@nil Z)) with 0. lia.
  - destruct Hl as [Hl|[-> Hl]]; [lia|]. rewrite app_nil_r in Hr. unfold seeker. destruct (Z.eqb_spec n 0); [lia|].
    unfold istream_seek, set_lim. cbn [good rest past]. rewrite Hg, Hr. cbn [negb].
    destruct (Z.ltb_spec n 0); [lia|]. cbn [andb]. destruct (Z.ltb_spec 0 n); [|lia]. destruct (Z.gtb_spec n (len l)); [|lia]. cbn [andb].
    unfold invalid, set_good; cbn [good]. split; [reflexivity|]. exists [], l. unfold within. cbn [past rest lim].
    change (len (@nil Z)) with 0; rewrite ?app_nil_r. repeat split; try assumption; try reflexivity; lia.
Qed.

Lemma do_read_sees s a l tl : sees s (a ++ l) tl -> do_read (len a) s = (a, eat a (l ++ tl) s).
Proof.
  intros H. pose proof (sees_len _ _ _ H) as L. rewrite len_app in L. pose proof (len_nonneg l). destruct H as (Hg & Hr & _).
  apply do_read_parses; [assumption|rewrite Hr, app_assoc; reflexivity|lia].
Qed.
Lemma read_byte_sees s b l tl : sees s (b :: l) tl -> read_byte s = (b, eat [b] (l ++ tl) s).
Proof. intros H. unfold read_byte. change 1 with (len [b]). rewrite (do_read_sees s [b] l tl H). reflexivity. Qed.
Lemma do_skip_sees s a l tl : sees s (a ++ l) tl -> do_skip (len a) s = eat a (l ++ tl) s.
Proof.
  intros H. pose proof (sees_len _ _ _ H) as L. rewrite len_app in L. pose proof (len_nonneg l). destruct H as (Hg & Hr & _).
  assert (R : rest s = a ++ l ++ tl) by (rewrite Hr, app_assoc; reflexivity). assert (Q : len a <= lim s) by lia.
  exact (f_equal snd (do_skip_parses a s (l ++ tl) Hg R Q)).
Qed.

(** The data size field, in terms of the visible bytes. *)
Definition size_of (c : Z) (t : list Z) : Z :=
  match size_bytes c with O => (if c <=? 75 then c else 0) | _ => le_value (firstn (size_bytes c) t) end.
Lemma read_data_size_eq c s : read_data_size c s =
  match size_bytes c with O => ((if c <=? 75 then c else 0), s) | _ => read_le (Z.of_nat (size_bytes c)) s end.
Proof.
  unfold read_data_size, size_bytes, push_one_size, push_two_size, push_four_size, push_size_75.
  destruct (c =? 76); [|destruct (c =? 77); [reflexivity|destruct (c =? 78); reflexivity]].
  unfold read_byte, read_le. change (Z.of_nat 1) with 1. destruct (do_read 1 s) as [b s'] eqn:E. f_equal.
  unfold do_read, limiter in E. destruct (1 >? lim s); [inversion E; reflexivity|].
  unfold istream_read, set_lim in E. cbn [good rest] in E. destruct (negb (good s)); [inversion E; reflexivity|].
  destruct (rest s) as [|x r] eqn:R.
  - cbn in E. inversion E. reflexivity.
  - rewrite len_cons in E. pose proof (len_nonneg r). destruct (Z.gtb_spec 1 (1 + len r)); [lia|].
    change (Z.to_nat 1) with 1%nat in E. cbn [firstn] in E. inversion E. cbn. lia.
Qed.
Lemma read_data_size_sees c s t tl : sees s t tl -> (size_bytes c <= length t)%nat ->
  read_data_size c s = (size_of c t, eat (firstn (size_bytes c) t) (skipn (size_bytes c) t ++ tl) s).
Proof.
  intros Hs Hn. rewrite read_data_size_eq. unfold size_of. destruct (size_bytes c) as [|h] eqn:E.
  - cbn [firstn skipn]. rewrite eat_nil; [reflexivity|apply Hs|apply Hs].
  - unfold read_le. assert (Ln : Z.of_nat (S h) = len (firstn (S h) t)) by (unfold len; rewrite firstn_length; lia).
    rewrite Ln. rewrite <- (firstn_skipn (S h) t) in Hs. rewrite (do_read_sees _ _ _ _ Hs). reflexivity.
Qed.
Lemma read_data_size_stuck c s t tl : sees s t tl -> (length t < size_bytes c)%nat ->
  stuck s t tl (snd (read_data_size c s)).
Proof.
  intros Hs Hn. rewrite read_data_size_eq. destruct (size_bytes c) as [|h] eqn:E; [lia|].
  unfold read_le. pose proof (do_read_stuck s t tl (Z.of_nat (S h)) Hs) as D. destruct (do_read (Z.of_nat (S h)) s) as [b s'].
  apply D. unfold len. lia.
Qed.
Lemma size_of_nonneg c t : byte_ok c -> bytes_ok t -> 0 <= size_of c t < 2 ^ 32.
Proof.
  intros Hc Ht. unfold size_of. pose proof (le_value_range (firstn (size_bytes c) t) (bytes_ok_firstn _ _ Ht)) as R.
  assert (L : 256 ^ len (firstn (size_bytes c) t) <= 256 ^ 4).
  { apply Z.pow_le_mono_r; [lia|]. unfold len. rewrite firstn_length. destruct (size_bytes_cases c) as [[? ->]|[[? ->]|[[? ->]|(?&?&?& ->)]]]; lia. }
  destruct (size_bytes c); [destruct (Z.leb_spec c 75); unfold byte_ok in Hc; lia|]. change (256 ^ 4) with (2 ^ 32) in L. lia.
Qed.
Lemma next_op_eq c t : next_op (c :: t) =
  if (length t <? size_bytes c)%nat then None
  else if len (skipn (size_bytes c) t) <? size_of c t then None
  else Some (c, firstn (Z.to_nat (size_of c t)) (skipn (size_bytes c) t), skipn (Z.to_nat (size_of c t)) (skipn (size_bytes c) t)).
Proof. reflexivity. Qed.

Lemma recover s l tl s4 : sees s l tl -> stuck s l tl s4 ->
  exists s5, read_all (set_position (position s) s4) = (l, s5) /\
    past s5 = rev l ++ past s /\ rest s5 = tl /\ good s5 = true /\ 0 <= lim s5 <= 2 ^ 64 - 1 /\ (lim s = len l -> lim s5 = 0).
Proof.
  intros Hs (Hb & a & b & (El & Hp & Hr & Hl & Hx) & Hle). destruct Hs as (Hg & Hrs & Hm & Hv).
  destruct s4 as [p4 r4 g4 L4]. cbn [past rest good lim] in *. subst p4 r4. unfold position.
  pose proof (len_nonneg a). pose proof (len_nonneg b).
  rewrite set_position_back by lia. rewrite app_assoc, <- El.
  assert (Ll : len l = len a + len b) by (rewrite El; apply len_app).
  set (s5 := mkrd (past s) (l ++ tl) true (L4 + len a)).
  assert (S5 : sees s5 l tl).
  { unfold sees, s5. cbn [good rest lim]. repeat split; [lia|]. destruct Hv as [Hv|[-> Hv]]; [left; specialize (Hx Hv); lia|right]. split; [reflexivity|lia]. }
  rewrite (read_all_sees _ _ _ S5). eexists; split; [reflexivity|]. unfold eat, s5. cbn [past rest good lim].
  repeat split; try lia.
Qed.

Lemma op_from_data_sees s c t tl : sees s (c :: t) tl -> bytes_ok (c :: t) ->
  match split_op (c :: t) with
  | Some (o, r) => op_from_data s = (o, eat (op_to_data o) (r ++ tl) s)
  | None => exists s5, op_from_data s = (mkop any_invalid (c :: t) true, s5) /\
      past s5 = rev (c :: t) ++ past s /\ rest s5 = tl /\ good s5 = true /\ 0 <= lim s5 <= 2 ^ 64 - 1 /\ (lim s = len (c :: t) -> lim s5 = 0)
  end.
Proof.
  intros Hs Hok. assert (Hc : byte_ok c /\ bytes_ok t) by (apply bytes_ok_cons; exact Hok). destruct Hc as [Hc Ht].
  pose proof (split_op_sound (c :: t)) as Sound. unfold split_op in *. rewrite next_op_eq in *.
  pose proof Hs as (Hg & _). unfold op_from_data. rewrite Hg. cbn [negb].
  rewrite (read_byte_sees _ _ _ _ Hs).
  assert (H1 : sees (eat [c] (t ++ tl) s) t tl) by (apply sees_eat; exact Hs).
  pose proof (size_of_nonneg c t Hc Ht) as Sz.
  assert (Fail : forall s4, stuck (eat [c] (t ++ tl) s) t tl s4 -> good s4 = false ->
     exists s5, read_all (set_position (position s) s4) = (c :: t, s5) /\
      past s5 = rev (c :: t) ++ past s /\ rest s5 = tl /\ good s5 = true /\ 0 <= lim s5 <= 2 ^ 64 - 1 /\ (lim s = len (c :: t) -> lim s5 = 0)).
  { intros s4 St _. apply (recover s (c :: t) tl s4 Hs). apply (stuck_eat s [c] t tl s4 Hs St). }
  destruct (Nat.ltb_spec (length t) (size_bytes c)) as [C|C].
  - pose proof (read_data_size_stuck c _ _ _ H1 C) as St. destruct (read_data_size c (eat [c] (t ++ tl) s)) as [size s2]. cbn [snd] in St.
    assert (St3 : stuck (eat [c] (t ++ tl) s) t tl (if size >? max_bytes then invalid s2 else s2)).
    { destruct (size >? max_bytes); [apply stuck_invalid2|]; exact St. }
    set (s3 := if size >? max_bytes then invalid s2 else s2) in *. assert (B3 : good s3 = false) by apply St3. rewrite B3. cbv iota beta zeta.
    rewrite B3. cbn [negb]. destruct (Fail s3 St3 B3) as (s5 & E & R). rewrite E. exists s5. split; [reflexivity|exact R].
  - rewrite (read_data_size_sees c _ t tl H1 C). set (size := size_of c t) in *.
    set (h := firstn (size_bytes c) t). set (bd := skipn (size_bytes c) t) in *.
    assert (Et : t = h ++ bd) by (symmetry; apply firstn_skipn).
    set (s2 := eat h (bd ++ tl) (eat [c] (t ++ tl) s)).
    assert (H1' : sees (eat [c] (t ++ tl) s) (h ++ bd) tl) by (rewrite <- Et; exact H1).
    assert (H2 : sees s2 bd tl) by (apply sees_eat; exact H1').
    assert (StE : forall s4, stuck s2 bd tl s4 -> stuck (eat [c] (t ++ tl) s) t tl s4).
    { intros s4 St. rewrite Et at 2. apply stuck_eat; [exact H1'|exact St]. }
    destruct (Z.gtb_spec size max_bytes) as [Big|Small].
    + (* too large to read *)
      assert (N : (if len bd <? size then None else Some (c, firstn (Z.to_nat size) bd, skipn (Z.to_nat size) bd)) = None \/
                  exists d r, (if len bd <? size then None else Some (c, firstn (Z.to_nat size) bd, skipn (Z.to_nat size) bd)) = Some (c, d, r) /\ len d = size).
      { destruct (Z.ltb_spec (len bd) size); [left; reflexivity|]. right. do 2 eexists. split; [reflexivity|].
        apply (list_split_len bd size). lia. }
      assert (St : stuck (eat [c] (t ++ tl) s) t tl (invalid s2)) by (apply StE, stuck_invalid, H2).
      cbn [good invalid set_good negb]. cbv iota beta zeta.
      destruct (Fail (invalid s2) St eq_refl) as (s5 & E & R). cbn [good invalid set_good negb]. unfold invalid, set_good in E |- *. cbn [good].
      cbn [negb]. rewrite E.
      destruct N as [-> |(d & r & -> & Ld)]; [exists s5; split; [reflexivity|exact R]|].
      rewrite Ld. destruct (Z.gtb_spec size max_bytes); [|lia]. exists s5; split; [reflexivity|exact R].
    + change (good s2) with true. cbv iota.
      destruct (Z.ltb_spec (len bd) size) as [Short|Long].
      * unfold read_bytes. destruct (Z.eqb_spec size 0) as [Z0|Z0]; [pose proof (len_nonneg bd); lia|].
        change (good s2) with true. cbn [negb]. pose proof (do_read_stuck s2 bd tl size H2 Short) as St.
        destruct (do_read size s2) as [pd s4]. cbn [snd] in St. assert (B4 : good s4 = false) by apply St. rewrite B4. cbn [negb].
        destruct (Fail s4 (StE _ St) B4) as (s5 & E & R). rewrite E. exists s5. split; [reflexivity|exact R].
      * destruct (list_split_len bd size) as [Sp Ld]; [lia|].
        set (d := firstn (Z.to_nat size) bd) in *. set (r := skipn (Z.to_nat size) bd) in *.
        rewrite Ld in Sound |- *. destruct (Z.gtb_spec size max_bytes); [lia|].
        destruct (Sound (mkop c d false) r Hok eq_refl) as (W & Hr & El).
        assert (RB : read_bytes size s2 = (d, eat d (r ++ tl) s2)).
        { unfold read_bytes. change (good s2) with true. cbn [negb]. destruct (Z.eqb_spec size 0) as [Z0|Z0].
          - assert (Dn : d = []) by (apply len_zero; lia). rewrite Dn. rewrite eat_nil; [reflexivity|reflexivity|].
            unfold s2. rewrite eat_rest. rewrite Sp at 1. rewrite Dn. reflexivity.
          - assert (Hd : sees s2 (d ++ r) tl) by (rewrite <- Sp; exact H2). pose proof (do_read_sees s2 d r tl Hd) as Q. rewrite Ld in Q. exact Q. }
        rewrite RB. cbn [negb good eat]. unfold s2. rewrite !eat_eat.
        assert (Eo : ([c] ++ h) ++ d = op_to_data (mkop c d false)).
        { apply (app_inv_tail r). rewrite <- El. rewrite <- app_assoc, <- Sp, <- app_assoc, <- Et. reflexivity. }
        rewrite app_assoc, Eo. reflexivity.
Qed.

(** ** op_count restores the position. *)
Lemma count_ops_bad f s : good s = false -> count_ops f s = s.
Proof.
  intros H. destruct f; [reflexivity|]. cbn [count_ops]. unfold count_op, exhausted. rewrite H. cbn [negb].
  destruct (lim s =? 0); reflexivity.
Qed.
Lemma within_trans s a l tl s2 a2 b2 lo : sees s (a ++ l) tl ->
  within (eat a (l ++ tl) s) l tl s2 a2 b2 /\ lim (eat a (l ++ tl) s) - len a2 - lo <= lim s2 ->
  within s (a ++ l) tl s2 (a ++ a2) b2 /\ lim s - len (a ++ a2) - lo <= lim s2.
Proof.
  intros Hs [W L]. split; [apply within_eat; assumption|]. rewrite eat_lim in L. rewrite len_app. lia.
Qed.

Lemma read_data_size_fail c s t tl : sees s t tl -> bytes_ok t -> (length t < size_bytes c)%nat ->
  exists size s2 a b, read_data_size c s = (size, s2) /\ good s2 = false /\ within s t tl s2 a b /\
    0 <= size < 2 ^ 24 /\ (lim s = len t -> size = 0) /\ lim s - len a - 4 <= lim s2.
Proof.
  intros Hs Hok Hn. rewrite read_data_size_eq. destruct (size_bytes c) as [|h] eqn:E; [lia|].
  assert (H4 : (S h <= 4)%nat) by (destruct (size_bytes_cases c) as [[? E']|[[? E']|[[? E']|(?&?&?& E')]]]; lia).
  clear E. pose proof (sees_len _ _ _ Hs) as HL. pose proof Hs as (Hg & Hr & Hm & Hl). pose proof (len_nonneg t).
  assert (Hlt : len t < Z.of_nat (S h)) by (unfold len; lia). remember (Z.of_nat (S h)) as n.
  unfold read_le, do_read, limiter. destruct (Z.gtb_spec n (lim s)) as [G|G].
  - eexists _, _, [], t. split; [reflexivity|]. split; [reflexivity|]. split; [apply (within_refl _ _ _ Hs)|].
    unfold zeros. rewrite le_value_repeat0. cbn [invalid set_good lim]. change (len (@nil Z)) with 0. lia.
  - destruct Hl as [Hl|[-> Hl]]; [lia|]. rewrite app_nil_r in Hr.
    unfold istream_read, set_lim. cbn [good rest]. rewrite Hg, Hr. cbn [negb].
    destruct (Z.gtb_spec n (len t)); [|lia]. unfold advance, invalid, set_good. cbn [past rest good lim].
    eexists _, _, t, []. split; [reflexivity|]. split; [reflexivity|]. split.
    + unfold within. cbn [past rest lim]. rewrite firstn_all, skipn_all. change (len (@nil Z)) with 0. rewrite app_nil_r.
      repeat split; try reflexivity; lia.
    + unfold zeros. rewrite le_value_app, le_value_repeat0. pose proof (le_value_range t Hok) as R.
      assert (256 ^ len t <= 256 ^ 3) by (apply Z.pow_le_mono_r; lia). change (256 ^ 3) with (2 ^ 24) in *. cbn [lim]. lia.
Qed.
Lemma do_skip_bad_eq size s2 : good s2 = false -> 0 <= size ->
  past (do_skip size s2) = past s2 /\ rest (do_skip size s2) = rest s2 /\
  (lim (do_skip size s2) = lim s2 \/ (lim (do_skip size s2) = lim s2 - size /\ size <= lim s2)).
Proof.
  intros B H. unfold do_skip, limiter. destruct (Z.gtb_spec size (lim s2)); [repeat split; left; reflexivity|].
  unfold seeker. destruct (size =? 0); [cbn; repeat split; right; split; [reflexivity|lia]|].
  rewrite istream_seek_sticky by (exact B). cbn. repeat split; right; split; [reflexivity|lia].
Qed.
Lemma count_ops_sees f : forall s l tl, sees s l tl -> bytes_ok l ->
  exists a b, within s l tl (count_ops f s) a b /\ lim s - len a - 2 ^ 32 <= lim (count_ops f s).
Proof.
  assert (Refl : forall s l tl, sees s l tl -> exists a b, within s l tl s a b /\ lim s - len a - 2 ^ 32 <= lim s).
  { intros s l tl H. exists [], l. split; [apply within_refl; exact H|]. change (len (@nil Z)) with 0. lia. }
  induction f as [|f IH]; intros s l tl Hs Hok; [apply Refl; exact Hs|].
  cbn [count_ops]. unfold count_op. rewrite (sees_exhausted _ _ _ Hs). destruct l as [|c t]; [apply Refl; exact Hs|].
  rewrite (read_byte_sees _ _ _ _ Hs). apply bytes_ok_cons in Hok. destruct Hok as [Hc Ht].
  assert (H1 : sees (eat [c] (t ++ tl) s) t tl) by (apply sees_eat; exact Hs).
  pose proof (size_of_nonneg c t Hc Ht) as Sz.
  assert (Step : forall s', (exists a b, within (eat [c] (t ++ tl) s) t tl s' a b /\ lim (eat [c] (t ++ tl) s) - len a - 2 ^ 32 <= lim s') ->
     exists a b, within s (c :: t) tl s' a b /\ lim s - len a - 2 ^ 32 <= lim s').
  { intros s' (a & b & W). exists ([c] ++ a), b. apply (within_trans s [c] t tl s' a b (2 ^ 32) Hs W). }
  destruct (Nat.ltb_spec (length t) (size_bytes c)) as [C|C].
  - destruct (read_data_size_fail c _ _ _ H1 Ht C) as (size & s2 & a & b & -> & B & (W1 & W2 & W3 & W4 & W5) & Z1 & Z2 & Z3).
    rewrite count_ops_bad by (apply do_skip_bad, B). apply Step. exists a, b.
    destruct (do_skip_bad_eq size s2 B) as (P1 & P2 & P3); [lia|]. unfold within. rewrite P1, P2.
    repeat split; try assumption; try lia.
  - rewrite (read_data_size_sees c _ t tl H1 C). set (size := size_of c t) in *.
    set (h := firstn (size_bytes c) t). set (bd := skipn (size_bytes c) t) in *.
    assert (Et : t = h ++ bd) by (symmetry; apply firstn_skipn).
    apply Step. rewrite Et in H1 |- *.
    assert (H2 : sees (eat h (bd ++ tl) (eat [c] ((h ++ bd) ++ tl) s)) bd tl) by (apply sees_eat; exact H1).
    set (s2 := eat h (bd ++ tl) (eat [c] ((h ++ bd) ++ tl) s)) in *.
    assert (Q : exists a b, within s2 bd tl (count_ops f (do_skip size s2)) a b /\ lim s2 - len a - 2 ^ 32 <= lim (count_ops f (do_skip size s2))).
    { destruct (Z.ltb_spec (len bd) size) as [Short|Long].
      - destruct (do_skip_stuck s2 bd tl size H2 Short) as (B & a & b & W & L). rewrite count_ops_bad by exact B.
        exists a, b. split; [exact W|lia].
      - destruct (list_split_len bd size) as [Sp Ld]; [lia|].
        set (d := firstn (Z.to_nat size) bd) in *. set (r := skipn (Z.to_nat size) bd) in *.
        assert (Hd : sees s2 (d ++ r) tl) by (rewrite <- Sp; exact H2).
        pose proof (do_skip_sees s2 d r tl Hd) as Sk. rewrite Ld in Sk. rewrite Sk.
        assert (Hr : bytes_ok r).
        { rewrite Et in Ht. apply bytes_ok_app in Ht. destruct Ht as [_ Ht]. rewrite Sp in Ht. apply bytes_ok_app in Ht. apply Ht. }
        destruct (IH (eat d (r ++ tl) s2) r tl (sees_eat _ _ _ _ Hd) Hr) as (a & b & W).
        exists (d ++ a), b. rewrite Sp at 1. exact (within_trans s2 d r tl _ a b (2 ^ 32) Hd W). }
    destruct Q as (a & b & W). exists (h ++ a), b. exact (within_trans _ h bd tl _ a b (2 ^ 32) H1 W).
Qed.

Lemma op_count_sees s l tl : sees s l tl -> bytes_ok l ->
  exists l' tl', sees (op_count s) l' tl' /\ past (op_count s) = past s /\ l' ++ tl' = l ++ tl /\ len l' <= len l /\
    0 <= lim (op_count s) /\
    (lim s = len l -> op_count s = s /\ l' = l) /\
    (len l + 2 ^ 32 <= lim s -> l' = l /\ len l' <= lim (op_count s)).
Proof.
  intros Hs Hok. unfold op_count. pose proof Hs as (Hg & Hr & Hm & Hl). rewrite Hg. cbn [negb].
  destruct (count_ops_sees (S (length (rest s))) s l tl Hs Hok) as (a & b & (El & Hp & Hr' & HL & Hx) & Lo).
  set (s' := count_ops (S (length (rest s))) s) in *. destruct s' as [p r g L]. cbn [past rest lim] in *. subst p r.
  pose proof (len_nonneg a). pose proof (len_nonneg b). unfold position.
  rewrite set_position_back by lia. rewrite app_assoc, <- El.
  assert (Ll : len l = len a + len b) by (rewrite El; apply len_app).
  assert (Case : lim s = len l \/ (tl = [] /\ len l <= L + len a) \/ (tl = [] /\ L + len a < len l /\ lim s <> len l)).
  { destruct Hl as [Hl|[-> Hl]]; [left; assumption|]. destruct (Z.eq_dec (lim s) (len l)); [left; assumption|].
    destruct (Z_le_gt_dec (len l) (L + len a)); [right; left|right; right]; split; try reflexivity; lia. }
  destruct Case as [C|[[-> C]|(-> & C & N)]].
  - exists l, tl. specialize (Hx C). unfold sees. cbn [good rest lim past]. repeat split; try lia.
    destruct s as [sp sr sg sl]. cbn [past rest good lim] in *. subst sr sg. f_equal. lia.
  - exists l, []. unfold sees. cbn [good rest lim past]. repeat split; try lia; try (right; split; [reflexivity|lia]).
    destruct s as [sp sr sg sl]. cbn [past rest good lim] in *. subst sr sg. f_equal. lia.
  - exists (firstn (Z.to_nat (L + len a)) l), (skipn (Z.to_nat (L + len a)) l).
    destruct (list_split_len l (L + len a)) as [Sp Ld]; [lia|]. unfold sees. cbn [good rest lim past].
    rewrite Ld, <- Sp, app_nil_r. repeat split; try lia.
Qed.

(** ** Reading all operations. *)
Fixpoint split_ops (fuel : nat) (l : list Z) : list op :=
  match fuel with
  | O => []
  | S f => match l with
           | [] => []
           | _ => match split_op l with Some (o, r) => o :: split_ops f r | None => [mkop any_invalid l true] end
           end
  end.
Lemma op_to_data_pos o : op_wf o -> 1 <= len (op_to_data o).
Proof. intros H. rewrite op_to_data_eq by assumption. rewrite len_cons. pose proof (len_nonneg (prefix_of (code o) (len (data o)) ++ data o)). lia. Qed.
Lemma split_ops_data f : forall l, bytes_ok l -> (length l <= f)%nat -> ops_to_data (split_ops f l) = l.
Proof.
  induction f as [|f IH]; intros l Hok Hf; [destruct l; [reflexivity|cbn in Hf; lia]|]. cbn [split_ops]. destruct l as [|c t]; [reflexivity|].
  destruct (split_op (c :: t)) as [[o r]|] eqn:E.
  - destruct (split_op_sound _ _ _ Hok E) as (W & Hr & El). pose proof (op_to_data_pos o W).
    unfold ops_to_data in *. cbn [map concat]. rewrite IH; [symmetry; exact El|exact Hr|].
    assert (length (c :: t) = length (op_to_data o ++ r)) by (rewrite <- El; reflexivity). rewrite app_length in *. unfold len in *. lia.
  - unfold ops_to_data. cbn. rewrite app_nil_r. reflexivity.
Qed.
Lemma read_ops_sees f : forall s l tl, sees s l tl -> bytes_ok l -> (length l < f)%nat ->
  exists s', read_ops f s = (split_ops f l, s') /\ past s' = rev l ++ past s /\ rest s' = tl /\ good s' = true /\
    0 <= lim s' <= 2 ^ 64 - 1 /\ (lim s = len l -> lim s' = 0).
Proof.
  induction f as [|f IH]; intros s l tl Hs Hok Hf; [lia|]. cbn [read_ops split_ops]. rewrite (sees_exhausted _ _ _ Hs).
  pose proof (sees_len _ _ _ Hs) as HL.
  destruct l as [|c t]. { exists s. destruct Hs as (Hg & Hr & Hm & Hl). change (len (@nil Z)) with 0 in *. repeat split; auto; lia. }
  pose proof (op_from_data_sees s c t tl Hs Hok) as O. destruct (split_op (c :: t)) as [[o r]|] eqn:E.
  - rewrite O. destruct (split_op_sound _ _ _ Hok E) as (W & Hr & El). pose proof (op_to_data_pos o W).
    rewrite El in Hs, Hf, HL. pose proof (sees_eat s _ _ _ Hs) as Hs'. rewrite app_length in Hf. unfold len in H.
    destruct (IH _ r tl Hs' Hr) as (s' & -> & P & R & G & L & X); [lia|].
    exists s'. rewrite El. repeat split; try assumption; try lia.
    + rewrite P. unfold eat. cbn [past]. rewrite rev_app_distr, <- app_assoc. reflexivity.
    + rewrite eat_lim in X. rewrite len_app. intros Q. apply X. lia.
  - destruct O as (s5 & -> & P & R & G & L & X).
    assert (S5 : sees s5 [] tl \/ tl = [] \/ lim s = len (c :: t)).
    { destruct Hs as (_ & _ & _ & [Q|[Q _]]); [right; right|right; left]; assumption. }
    assert (Ex : exhausted s5 = true).
    { unfold exhausted. destruct (Z.eqb_spec (lim s5) 0); [reflexivity|]. rewrite G. cbn [negb]. rewrite R.
      destruct Hs as (_ & _ & _ & [Q|[Q _]]); [specialize (X Q); lia|rewrite Q; reflexivity]. }
    exists s5. destruct f as [|f]; [cbn in Hf; lia|]. cbn [read_ops]. rewrite Ex. repeat split; try assumption; lia.
Qed.
