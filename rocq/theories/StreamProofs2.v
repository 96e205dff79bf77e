From Verif Require Import Base Bytes MathModel MathSpec MathProofs StreamModel StreamSpec StreamProofs.

(** ** C03: the reader against the array-and-budget specification. *)
Definition step (o : rop) (s : rd) : list Z * rd :=
  match o with
  | RRead n => do_read n s
  | RLittle n => let (v, s') := read_le n s in ([v], s')
  | RBig n => let (v, s') := read_be n s in ([v], s')
  | RPeek => let (v, s') := peek_byte s in ([v], s')
  | RSkip n => ([], do_skip n s)
  | RRewind n => ([], do_rewind n s)
  end.
Fixpoint run (ops : list rop) (s : rd) : list (list Z) * rd :=
  match ops with
  | [] => ([], s)
  | o :: ops' => let (out, s1) := step o s in let (outs, s2) := run ops' s1 in (out :: outs, s2)
  end.

Lemma istream_seek_sticky o s : good s = false -> istream_seek o s = s.
Proof. intros H. unfold istream_seek. rewrite H. reflexivity. Qed.
Lemma do_skip_bad n s : good s = false -> good (do_skip n s) = false.
Proof.
  intros H. unfold do_skip, limiter. destruct (n >? lim s); [reflexivity|]. unfold seeker.
  destruct (n =? 0); [exact H|]. rewrite istream_seek_sticky; exact H.
Qed.
Lemma do_rewind_bad n s : good s = false -> good (do_rewind n s) = false.
Proof.
  intros H. unfold do_rewind, seeker. destruct (- n =? 0); [exact H|]. rewrite istream_seek_sticky; exact H.
Qed.
Lemma step_sticky o : sticky (step o).
Proof.
  intros s H. destruct o; cbn [step].
  - apply do_read_sticky, H.
  - pose proof (read_le_sticky n s H) as G. destruct (read_le n s). exact G.
  - pose proof (read_be_sticky n s H) as G. destruct (read_be n s). exact G.
  - unfold peek_byte. destruct (lim s =? 0); [reflexivity|]. rewrite H. exact H.
  - apply do_skip_bad, H.
  - apply do_rewind_bad, H.
Qed.
Lemma run_sticky ops : sticky (run ops).
Proof.
  induction ops as [|o ops IH]; intros s H; [exact H|]. cbn [run].
  pose proof (step_sticky o s H) as G. destruct (step o s) as [out s1]. cbn in G.
  specialize (IH s1 G). destruct (run ops s1). exact IH.
Qed.

(** A failed reader does not move. *)
Lemma step_bad_fixed o s : good s = false -> past (snd (step o s)) = past s /\ rest (snd (step o s)) = rest s.
Proof.
  intros H.
  assert (R : forall n, past (snd (do_read n s)) = past s /\ rest (snd (do_read n s)) = rest s).
  { intros n. unfold do_read, limiter. destruct (n >? lim s); [split; reflexivity|].
    unfold istream_read, set_lim. cbn [good rest]. rewrite H. split; reflexivity. }
  destruct o; cbn [step]; unfold read_le, read_be.
  - apply R.
  - specialize (R n). destruct (do_read n s). exact R.
  - specialize (R n). destruct (do_read n s). exact R.
  - unfold peek_byte. destruct (lim s =? 0); [split; reflexivity|]. rewrite H. split; reflexivity.
  - unfold do_skip, limiter. destruct (n >? lim s); [split; reflexivity|]. unfold seeker.
    destruct (n =? 0); [split; reflexivity|]. rewrite istream_seek_sticky by exact H. split; reflexivity.
  - unfold do_rewind, seeker. destruct (- n =? 0); [split; reflexivity|]. rewrite istream_seek_sticky by exact H. split; reflexivity.
Qed.

(** The state of a valid reader at index pos of src with budget l. *)
Definition at_pos (src : list Z) (pos l : Z) (s : rd) : Prop :=
  0 <= pos <= len src /\ good s = true /\ lim s = l /\
  past s = rev (firstn (Z.to_nat pos) src) /\ rest s = skipn (Z.to_nat pos) src.

Lemma at_pos_eat src pos l s n : at_pos src pos l s -> 0 <= n -> pos + n <= len src ->
  at_pos src (pos + n) (l - n) (eat (slice src pos n) (skipn (Z.to_nat n) (rest s)) s)
  /\ len (slice src pos n) = n.
Proof.
  intros (Hp & Hg & Hl & Hpa & Hr) Hn Hb.
  assert (Hsl : len (slice src pos n) = n).
  { unfold slice, len. rewrite firstn_length_le; [lia|]. rewrite skipn_length. unfold len in *. lia. }
  split; [|exact Hsl]. unfold at_pos, eat. cbn [good lim past rest].
  split; [lia|]. split; [reflexivity|]. split; [lia|]. split.
  - rewrite Hpa. rewrite <- rev_app_distr. f_equal. unfold slice.
    rewrite Z2Nat.inj_add by lia.
    rewrite <- (firstn_skipn (Z.to_nat pos) src) at 3.
    rewrite firstn_app. rewrite firstn_length_le by (unfold len in *; lia).
    rewrite firstn_firstn. f_equal; [f_equal; lia|f_equal; lia].
  - rewrite Hr. rewrite skipn_skipn. f_equal. lia.
Qed.

Lemma at_pos_len_rest src pos l s : at_pos src pos l s -> len (rest s) = len src - pos.
Proof. intros (Hp & _ & _ & _ & Hr). rewrite Hr. unfold len in *. rewrite skipn_length. lia. Qed.
Lemma at_pos_len_past src pos l s : at_pos src pos l s -> len (past s) = pos.
Proof. intros (Hp & _ & _ & Hr & _). rewrite Hr, len_rev. unfold len in *. rewrite firstn_length_le; lia. Qed.

Lemma do_read_fails n s : 0 <= n -> (n > len (rest s) \/ n > lim s) -> good (snd (do_read n s)) = false.
Proof.
  intros Hn H. destruct (good (snd (do_read n s))) eqn:G; [|reflexivity].
  destruct (do_read n s) as [b s'] eqn:E. destruct (do_read_inv n s b s' Hn E G) as (_ & ? & ? & _). lia.
Qed.

Lemma do_read_at src pos l s n : at_pos src pos l s -> 0 <= n ->
  if (n <=? l) && (pos + n <=? len src)
  then fst (do_read n s) = slice src pos n /\ at_pos src (pos + n) (l - n) (snd (do_read n s))
  else good (snd (do_read n s)) = false.
Proof.
  intros H Hn. pose proof (at_pos_len_rest _ _ _ _ H) as Hlr.
  assert (Hl : lim s = l) by apply H.
  destruct ((n <=? l) && (pos + n <=? len src)) eqn:C.
  - apply andb_prop in C as [C1 C2]. apply Z.leb_le in C1, C2.
    rewrite do_read_ok; [|apply H|lia|lia|lia]. cbn [fst snd].
    assert (E : firstn (Z.to_nat n) (rest s) = slice src pos n) by (unfold slice; destruct H as (_ & _ & _ & _ & ->); reflexivity).
    rewrite E. split; [reflexivity|]. apply (proj1 (at_pos_eat _ _ _ _ _ H Hn C2)).
  - apply andb_false_iff in C. rewrite !Z.leb_gt in C. apply do_read_fails; lia.
Qed.
Lemma do_skip_at src pos l s n : at_pos src pos l s -> 0 <= n ->
  if (n <=? l) && (pos + n <=? len src)
  then at_pos src (pos + n) (l - n) (do_skip n s)
  else good (do_skip n s) = false.
Proof.
  intros H Hn. pose proof (at_pos_len_rest _ _ _ _ H) as Hlr.
  assert (Hl : lim s = l) by apply H. assert (Hg : good s = true) by apply H.
  unfold do_skip, limiter. destruct (Z.gtb_spec n (lim s)).
  { destruct (Z.leb_spec n l); [lia|]. reflexivity. }
  destruct (Z.leb_spec n l); [|lia]. cbn [andb].
  unfold seeker, istream_seek, set_lim. cbn [good past rest]. rewrite Hg. cbn [negb].
  destruct (Z.eqb_spec n 0) as [->|Hz].
  - destruct (Z.leb_spec (pos + 0) (len src)); [|destruct H as (? & _); lia].
    replace (pos + 0) with pos by lia. destruct H as (A & B & C & D & E). repeat split; cbn; try assumption; try lia.
  - destruct (Z.ltb_spec n 0); [lia|]. cbn [andb]. destruct (Z.ltb_spec 0 n); [|lia]. cbn [andb].
    destruct (Z.gtb_spec n (len (rest s))).
    + destruct (Z.leb_spec (pos + n) (len src)); [lia|reflexivity].
    + destruct (Z.leb_spec (pos + n) (len src)); [|lia]. destruct (Z.leb_spec 0 n); [|lia].
      destruct (at_pos_eat _ _ _ _ n H Hn ltac:(lia)) as [A SL].
      unfold advance. cbn [past rest good lim]. unfold eat in A.
      replace (firstn (Z.to_nat n) (rest s)) with (slice src pos n) by (unfold slice; destruct H as (_ & _ & _ & _ & ->); reflexivity).
      rewrite SL in A. exact A.
Qed.
Lemma do_rewind_at src pos l s n : at_pos src pos l s -> 0 <= n <= 2 ^ 64 - 1 -> 0 <= l <= 2 ^ 64 - 1 ->
  if n <=? pos
  then at_pos src (pos - n) (Z.min (2 ^ 64 - 1) (l + n)) (do_rewind n s)
  else good (do_rewind n s) = false.
Proof.
  intros H Hn Hlm. pose proof (at_pos_len_past _ _ _ _ H) as Hlp.
  assert (Hl : lim s = l) by apply H. assert (Hg : good s = true) by apply H. assert (Hp : 0 <= pos <= len src) by apply H.
  unfold do_rewind. rewrite ceilinged_add_clamps; [|reflexivity|unfold fits; cbn; lia|unfold fits; cbn; lia].
  assert (Ecl : clamp u64 (lim s + n) = Z.min (2 ^ 64 - 1) (l + n)) by (unfold clamp, imin, imax; cbn [sg bits u64]; lia).
  rewrite Ecl. set (l' := Z.min _ _).
  unfold seeker, istream_seek, set_lim. cbn [good past rest]. rewrite Hg. cbn [negb].
  destruct (Z.eqb_spec (- n) 0) as [E|Hz].
  - assert (n = 0) by lia. subst n. destruct (Z.leb_spec 0 pos); [|lia]. replace (pos - 0) with pos by lia.
    destruct H as (A & B & C & D & F). repeat split; cbn; try assumption; lia.
  - destruct (Z.ltb_spec (- n) 0); [|lia]. cbn [andb]. destruct (Z.ltb_spec (- n) (- len (past s))).
    + destruct (Z.leb_spec n pos); [lia|reflexivity].
    + destruct (Z.ltb_spec 0 (- n)); [lia|]. cbn [andb]. destruct (Z.leb_spec 0 (- n)); [lia|].
      destruct (Z.leb_spec n pos); [|lia].
      unfold retreat, at_pos. cbn [past rest good lim].
      replace (Z.to_nat (- - n)) with (Z.to_nat n) by lia.
      split; [lia|]. split; [reflexivity|]. split; [reflexivity|].
      destruct H as (_ & _ & _ & D & F). rewrite D, F.
      set (m := Z.to_nat (pos - n)). assert (Em : Z.to_nat pos = (m + Z.to_nat n)%nat) by (unfold m; lia).
      assert (Hm : (m + Z.to_nat n <= length src)%nat) by (unfold m; unfold len in Hp; lia).
      rewrite Em. rewrite <- (firstn_skipn m src) at 1 2 3. fold m.
      assert (Ef : firstn (m + Z.to_nat n) src = firstn m src ++ firstn (Z.to_nat n) (skipn m src)).
      { rewrite <- (firstn_skipn m src) at 1. rewrite firstn_app. rewrite firstn_length_le by lia.
        rewrite firstn_firstn. f_equal; [f_equal; lia|f_equal; lia]. }
      rewrite (firstn_skipn m src), Ef, rev_app_distr.
      assert (Lr : length (rev (firstn (Z.to_nat n) (skipn m src))) = Z.to_nat n).
      { rewrite rev_length, firstn_length_le; [reflexivity|]. rewrite skipn_length. lia. }
      split.
      * rewrite skipn_app, Lr, Nat.sub_diag. rewrite <- Lr at 1. rewrite skipn_all. reflexivity.
      * rewrite firstn_app, Lr, Nat.sub_diag, firstn_O, app_nil_r. rewrite <- Lr at 1. rewrite firstn_all, rev_involutive.
        rewrite Nat.add_comm, <- skipn_skipn. apply firstn_skipn.
Qed.

Lemma run_expect src ops : forall pos l s, Forall rop_ok ops -> 0 <= l <= 2 ^ 64 - 1 -> at_pos src pos l s ->
  match expect src ops pos l with
  | Some (outs, p', l') => fst (run ops s) = outs /\ at_pos src p' l' (snd (run ops s))
  | None => good (snd (run ops s)) = false
  end.
Proof.
  induction ops as [|o ops IH]; intros pos l s Hok Hl H; [cbn; auto|].
  inversion Hok as [|? ? Ho Hok']; subst. cbn [expect run].
  assert (NEXT : forall out p l1, 0 <= l1 <= 2 ^ 64 - 1 -> fst (step o s) = out -> at_pos src p l1 (snd (step o s)) ->
    match (match expect src ops p l1 with Some (outs, p', l') => Some (out :: outs, p', l') | None => None end) with
    | Some (outs, p', l') => fst (let (o1, s1) := step o s in let (outs, s2) := run ops s1 in (o1 :: outs, s2)) = outs /\
         at_pos src p' l' (snd (let (o1, s1) := step o s in let (outs, s2) := run ops s1 in (o1 :: outs, s2)))
    | None => good (snd (let (o1, s1) := step o s in let (outs, s2) := run ops s1 in (o1 :: outs, s2))) = false end).
  { intros out p l1 Hl1 E A. destruct (step o s) as [o1 s1]. cbn in E, A. subst o1.
    specialize (IH p l1 s1 Hok' Hl1 A). destruct (expect src ops p l1) as [[[outs p'] l']|].
    - destruct IH as [<- A']. destruct (run ops s1). auto.
    - destruct (run ops s1). exact IH. }
  assert (FAIL : good (snd (step o s)) = false ->
     good (snd (let (o1, s1) := step o s in let (outs, s2) := run ops s1 in (o1 :: outs, s2))) = false).
  { intros G. destruct (step o s) as [o1 s1]. cbn in G. pose proof (run_sticky ops s1 G) as G'. destruct (run ops s1). exact G'. }
  destruct o as [n|n|n| |n|n]; cbn [rop_ok] in Ho; cbn [step] in *.
  - pose proof (do_read_at src pos l s n H ltac:(lia)) as R.
    destruct ((n <=? l) && (pos + n <=? len src)) eqn:C; [|exact (FAIL R)].
    apply andb_prop in C as [C1 C2]. apply Z.leb_le in C1, C2. destruct R as [R1 R2]. apply NEXT; [lia|exact R1|exact R2].
  - pose proof (do_read_at src pos l s n H ltac:(lia)) as R. unfold read_le in *.
    destruct (do_read n s) as [b s1]. cbn [fst snd] in R.
    destruct ((n <=? l) && (pos + n <=? len src)) eqn:C; [|exact (FAIL R)].
    apply andb_prop in C as [C1 C2]. apply Z.leb_le in C1, C2. destruct R as [-> R2]. apply NEXT; [lia|reflexivity|exact R2].
  - pose proof (do_read_at src pos l s n H ltac:(lia)) as R. unfold read_be in *.
    destruct (do_read n s) as [b s1]. cbn [fst snd] in R.
    destruct ((n <=? l) && (pos + n <=? len src)) eqn:C; [|exact (FAIL R)].
    apply andb_prop in C as [C1 C2]. apply Z.leb_le in C1, C2. destruct R as [-> R2]. apply NEXT; [lia|reflexivity|exact R2].
  - pose proof (at_pos_len_rest _ _ _ _ H) as Hlr. destruct H as (A1 & A2 & A3 & A4 & A5) eqn:HH. clear HH.
    unfold peek_byte in *. rewrite A3, A2 in *. cbn [negb] in *.
    destruct (Z.eqb_spec l 0) as [->|Hz].
    + destruct (Z.leb_spec 1 0); [lia|]. cbn [andb]. apply FAIL. reflexivity.
    + destruct (Z.leb_spec 1 l); [|lia]. cbn [andb]. destruct (rest s) as [|b r] eqn:Er.
      * rewrite len_nil in Hlr. destruct (Z.leb_spec (pos + 1) (len src)); [lia|]. apply FAIL. reflexivity.
      * rewrite len_cons in Hlr. pose proof (len_nonneg r). destruct (Z.leb_spec (pos + 1) (len src)); [|lia].
        apply NEXT; [assumption| |unfold at_pos; cbn [snd]; rewrite Er; auto].
        cbn [fst]. unfold slice. rewrite <- A5. reflexivity.
  - pose proof (do_skip_at src pos l s n H ltac:(lia)) as R.
    destruct ((n <=? l) && (pos + n <=? len src)) eqn:C; [|exact (FAIL R)].
    apply andb_prop in C as [C1 C2]. apply Z.leb_le in C1, C2. apply NEXT; [lia|reflexivity|exact R].
  - pose proof (do_rewind_at src pos l s n H ltac:(lia) Hl) as R.
    destruct (Z.leb_spec n pos); [|exact (FAIL R)]. apply NEXT; [lia|reflexivity|exact R].
Qed.

Lemma fresh_at src l : at_pos src 0 l (set_limit l (fresh src)).
Proof. repeat split; cbn; try lia; try reflexivity. apply len_nonneg. Qed.

(** Explicit repositioning revives the reader at the requested index. *)
Lemma zipper_split src s : rev (past s) ++ rest s = src ->
  past s = rev (firstn (Z.to_nat (position s)) src) /\ rest s = skipn (Z.to_nat (position s)) src.
Proof.
  intros H. unfold position. subst src. rewrite <- (len_rev (past s)).
  rewrite firstn_len_app, skipn_len_app by reflexivity. rewrite rev_involutive. auto.
Qed.
Lemma set_position_at src s p : rev (past s) ++ rest s = src -> 0 <= p <= len src -> 0 <= lim s <= 2 ^ 64 - 1 ->
  len src < 2 ^ 63 -> p - position s <= lim s ->
  exists l, at_pos src p l (set_position p s).
Proof.
  intros Hz Hp Hlm Hs Hl. destruct (zipper_split src s Hz) as [E1 E2].
  assert (Hpos : 0 <= position s <= len src).
  { unfold position. rewrite <- Hz, len_app, len_rev. pose proof (len_nonneg (past s)). pose proof (len_nonneg (rest s)). lia. }
  assert (A : at_pos src (position s) (lim s) (clear s)) by (repeat split; try assumption; lia).
  unfold set_position. change (position (clear s)) with (position s).
  destruct (Z.eqb_spec p (position s)) as [->|N]; [exists (lim s); exact A|].
  destruct (Z.gtb_spec p (position s)).
  - pose proof (do_skip_at src _ _ _ (p - position s) A ltac:(lia)) as R.
    destruct (Z.leb_spec (p - position s) (lim s)); [|lia].
    destruct (Z.leb_spec (position s + (p - position s)) (len src)); [|lia]. cbn [andb] in R.
    replace (position s + (p - position s)) with p in R by lia. eexists. exact R.
  - pose proof (do_rewind_at src _ _ _ (position s - p) A ltac:(lia) Hlm) as R.
    destruct (Z.leb_spec (position s - p) (position s)); [|lia].
    replace (position s - (position s - p)) with p in R by lia. eexists. exact R.
Qed.

(** The source is never altered and never overrun, valid or not. *)
Definition whole (s : rd) : list Z := rev (past s) ++ rest s.
Lemma advance_whole n s : whole (advance n s) = whole s.
Proof. unfold whole, advance. cbn [past rest]. rewrite rev_app_distr, rev_involutive, <- app_assoc. rewrite firstn_skipn. reflexivity. Qed.
Lemma retreat_whole n s : whole (retreat n s) = whole s.
Proof. unfold whole, retreat. cbn [past rest]. rewrite app_assoc. rewrite <- rev_app_distr. rewrite firstn_skipn. reflexivity. Qed.
Lemma step_whole o s : whole (snd (step o s)) = whole s.
Proof.
  assert (R : forall n t, whole (snd (do_read n t)) = whole t).
  { intros n t. unfold do_read, limiter. destruct (n >? lim t); [reflexivity|]. unfold istream_read.
    destruct (negb _); [reflexivity|]. destruct (_ >? _); cbn [snd].
    - change (whole (invalid ?x)) with (whole x). rewrite advance_whole. reflexivity.
    - rewrite advance_whole. reflexivity. }
  assert (K : forall o t, whole (istream_seek o t) = whole t).
  { intros x t. unfold istream_seek. destruct (negb _); [reflexivity|]. destruct (_ && _); [reflexivity|].
    destruct (_ && _); [reflexivity|]. destruct (_ <=? _); [apply advance_whole|apply retreat_whole]. }
  destruct o; cbn [step]; unfold read_le, read_be.
  - apply R.
  - specialize (R n s). destruct (do_read n s). exact R.
  - specialize (R n s). destruct (do_read n s). exact R.
  - unfold peek_byte. destruct (_ =? _); [reflexivity|]. destruct (negb _); [reflexivity|]. destruct (rest s); reflexivity.
  - unfold do_skip, limiter. destruct (_ >? _); [reflexivity|]. unfold seeker. destruct (_ =? _); [reflexivity|]. cbn [snd]. rewrite K. reflexivity.
  - unfold do_rewind, seeker. destruct (_ =? _); [reflexivity|]. cbn [snd]. rewrite K. reflexivity.
Qed.
