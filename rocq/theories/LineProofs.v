From Verif Require Import Base Bytes MathModel MathSpec MathProofs StreamModel StreamSpec StreamProofs StreamProofs2.

(** The bytes the reader may still consume. *)
Definition available (s : rd) : list Z := firstn (Z.to_nat (Z.min (lim s) (len (rest s)))) (rest s).

Definition ascii (l : list Z) : Prop := Forall (fun c => 0 <= c < 128) l.
Lemma byte_eq_ascii b c : 0 <= c < 128 -> byte_eq b c = (b =? c).
Proof. intros H. unfold byte_eq. rewrite wrap_fits; [reflexivity|reflexivity|unfold fits; cbn; lia]. Qed.
Lemma nth_ascii l i : ascii l -> 0 <= nth i l 0 < 128.
Proof.
  intros H. destruct (Nat.lt_ge_cases i (length l)).
  - apply (proj1 (Forall_forall _ _) H). apply nth_In. assumption.
  - rewrite nth_overflow by assumption. lia.
Qed.

Section Line.
Variables (e : Z) (es : list Z) (s0 : rd) (av tl : list Z).
Let pat := e :: es.
Hypothesis Hascii : ascii pat.
Hypothesis Hnr : ~ In e es.
Hypothesis Hg : good s0 = true.
Hypothesis Hrest : rest s0 = av ++ tl.
Hypothesis Hlim : len av <= lim s0.
Hypothesis Hend : tl = [] \/ lim s0 = len av.

Lemma exhausted_eat c a : av = c ++ a ->
  exhausted (eat c (a ++ tl) s0) = match a with [] => true | _ => false end.
Proof.
  intros Hs. unfold exhausted, eat. cbn [lim good rest].
  assert (L : len av = len c + len a) by (rewrite Hs; apply len_app).
  destruct (Z.eqb_spec (lim s0 - len c) 0) as [E|E].
  - destruct a; [reflexivity|]. rewrite len_cons in L. pose proof (len_nonneg a). lia.
  - cbn [negb]. destruct a; [|reflexivity]. rewrite len_nil in L. destruct Hend as [->|?]; [reflexivity|lia].
Qed.
Lemma read_byte_eat c b a : av = c ++ b :: a ->
  read_byte (eat c ((b :: a) ++ tl) s0) = (b, eat (c ++ [b]) (a ++ tl) s0).
Proof.
  intros Hs. rewrite (read_byte_parses b _ (a ++ tl)); [rewrite eat_eat; reflexivity|reflexivity|reflexivity|].
  rewrite eat_lim. assert (L : len av = len c + (1 + len a)) by (rewrite Hs, len_app, len_cons; reflexivity).
  rewrite len_cons, len_nil. pose proof (len_nonneg a). lia.
Qed.

Lemma occurs_len k s : occurs pat s k -> (k + length pat <= length s)%nat.
Proof.
  unfold occurs. intros H. apply (f_equal (@length Z)) in H. rewrite firstn_length, skipn_length in H.
  unfold pat in *. cbn [length] in *. lia.
Qed.
Lemma occurs_nth k s i : occurs pat s k -> (i < length pat)%nat -> nth (k + i) s 0 = nth i pat 0.
Proof.
  intros H Hi. pose proof (occurs_len k s H).
  assert (E : s = firstn k s ++ pat ++ skipn (length pat) (skipn k s)).
  { unfold occurs in H. rewrite <- H at 1. rewrite !firstn_skipn. reflexivity. }
  rewrite E. rewrite app_nth2; rewrite firstn_length_le by lia; [|lia].
  replace (k + i - k)%nat with i by lia. apply app_nth1. assumption.
Qed.

Lemma line_loop_ok : forall a c l idx fuel, av = c ++ a -> c = l ++ firstn idx pat -> (idx < length pat)%nat ->
  (length a < fuel)%nat -> (forall k, (k < length l)%nat -> ~ occurs pat av k) ->
  match line_loop fuel pat (Z.of_nat idx) (len l) (eat c (a ++ tl) s0) with
  | (Some n, s') => exists k u, n = Z.of_nat k /\ first_occurrence pat av k /\ av = firstn k av ++ pat ++ u /\
                     s' = eat (firstn k av ++ pat) (u ++ tl) s0
  | (None, s') => (forall k, ~ occurs pat av k) /\ s' = eat av tl s0
  end.
Proof.
  induction a as [|b a IH]; intros c l idx fuel Hc Hl Hi Hf Hno; (destruct fuel as [|fuel]; [cbn in Hf; lia|]).
  - cbn [line_loop]. rewrite (exhausted_eat c []) by assumption. split.
    + intros k Hk. destruct (Nat.lt_ge_cases k (length l)) as [Q|Q]; [exact (Hno k Q Hk)|].
      apply occurs_len in Hk. rewrite app_nil_r in Hc. rewrite Hc, Hl, app_length, firstn_length in Hk. lia.
    + rewrite app_nil_r in Hc. rewrite Hc. reflexivity.
  - cbn [line_loop]. rewrite (exhausted_eat c (b :: a)) by assumption. rewrite (read_byte_eat c b a Hc). cbn [length] in Hf.
    rewrite Nat2Z.id. rewrite byte_eq_ascii by (apply nth_ascii; exact Hascii).
    assert (Hc' : av = (c ++ [b]) ++ a) by (rewrite <- app_assoc; exact Hc).
    assert (Lc : length c = (length l + idx)%nat) by (rewrite Hl, app_length, firstn_length; lia).
    assert (Nb : nth (length l + idx) av 0 = b) by (rewrite Hc, app_nth2; rewrite Lc; [|lia]; replace (_ - _)%nat with 0%nat by lia; reflexivity).
    destruct (Z.eqb_spec b (nth idx pat 0)) as [Eb|Nbp].
    + assert (Efst : c ++ [b] = l ++ firstn (S idx) pat).
      { rewrite Hl, <- app_assoc. f_equal. rewrite Eb.
        rewrite <- (firstn_skipn idx pat) at 3. rewrite firstn_app, firstn_length_le, firstn_firstn by lia.
        replace (Nat.min (S idx) idx) with idx by lia. f_equal. replace (S idx - idx)%nat with 1%nat by lia.
        rewrite <- (firstn_skipn idx pat) at 1. rewrite app_nth2; rewrite firstn_length_le by lia; [|lia].
        rewrite Nat.sub_diag. assert (Q : length (skipn idx pat) <> 0%nat) by (rewrite skipn_length; lia).
        destruct (skipn idx pat); [contradiction|reflexivity]. }
      destruct (Z.eqb_spec (Z.of_nat idx + 1) (len pat)) as [Ef|Nf].
      * exists (length l), a. assert (Si : S idx = length pat) by (unfold len in Ef; lia).
        rewrite Si, firstn_all in Efst.
        assert (Fl : firstn (length l) av = l).
        { rewrite Hc', Efst, <- app_assoc, firstn_app, Nat.sub_diag, firstn_all, firstn_O. apply app_nil_r. }
        split; [reflexivity|]. split; [split; [|exact Hno]|].
        -- unfold occurs. rewrite Hc', Efst, <- app_assoc. rewrite skipn_app, Nat.sub_diag, skipn_all. cbn [app skipn].
           rewrite firstn_app, Nat.sub_diag, firstn_all, firstn_O. apply app_nil_r.
        -- rewrite Fl. split; [rewrite Hc', Efst, <- app_assoc; reflexivity|]. rewrite Efst. reflexivity.
      * replace (Z.of_nat idx + 1) with (Z.of_nat (S idx)) by lia.
        apply IH; [exact Hc'|exact Efst|unfold len in Nf; lia|lia|exact Hno].
    + (* mismatch at idx: no occurrence starts inside the partial match *)
      assert (No1 : forall k, (k < length l + idx)%nat -> ~ occurs pat av k).
      { intros k Hk Ho. destruct (Nat.lt_ge_cases k (length l)) as [Q|Q]; [exact (Hno k Q Ho)|].
        destruct (Nat.eq_dec k (length l)) as [->|Nk].
        - pose proof (occurs_nth _ _ idx Ho Hi) as X. rewrite Nb in X. contradiction.
        - pose proof (occurs_nth _ _ 0 Ho ltac:(unfold pat; cbn; lia)) as X. rewrite Nat.add_0_r in X. cbn [pat nth] in X.
          rewrite Hc in X. rewrite app_nth1 in X by lia. rewrite Hl in X. rewrite app_nth2 in X by lia.
          apply Hnr. rewrite <- X. destruct (k - length l)%nat as [|j] eqn:Ej; [lia|].
          destruct idx as [|idx]; [lia|]. unfold pat in *. cbn [firstn nth length] in *.
          rewrite <- (firstn_skipn idx es) at 2. apply in_or_app. left. apply nth_In. rewrite firstn_length. lia. }
      assert (No2 : b <> e -> forall k, (k < S (length l + idx))%nat -> ~ occurs pat av k).
      { intros Hbe k Hk Ho. destruct (Nat.eq_dec k (length l + idx)) as [->|Nk]; [|apply (No1 k); [lia|exact Ho]].
        pose proof (occurs_nth _ _ 0 Ho ltac:(unfold pat; cbn; lia)) as X. rewrite Nat.add_0_r, Nb in X. cbn [pat nth] in X. contradiction. }
      destruct (Z.eqb_spec (Z.of_nat idx) 0) as [Ei|Ni]; cbn [negb].
      * assert (idx = 0)%nat by lia. subst idx. cbn [firstn] in Hl. rewrite app_nil_r in Hl. subst c.
        replace (len l + 1) with (len (l ++ [b])) by (rewrite len_app; reflexivity).
        apply (IH (l ++ [b]) (l ++ [b]) 0%nat); [exact Hc'|cbn; rewrite app_nil_r; reflexivity|unfold pat; cbn; lia|lia|].
        intros k Hk. rewrite app_length in Hk. cbn [length] in Hk. apply No2; [|lia].
        intros ->. apply Nbp. reflexivity.
      * change (hd 0 pat) with e. rewrite byte_eq_ascii by (inversion Hascii; assumption).
        assert (Lc' : len c = len l + Z.of_nat idx) by (unfold len; lia).
        destruct (Z.eqb_spec b e) as [->|Nbe].
        -- rewrite <- Lc'. apply (IH (c ++ [e]) c 1%nat); [exact Hc'|reflexivity|unfold pat in *; cbn [length] in *; lia|lia|].
           intros k Hk. apply No1. lia.
        -- replace (len l + Z.of_nat idx + 1) with (len (c ++ [b])) by (rewrite len_app, Lc'; reflexivity).
           apply (IH (c ++ [b]) (c ++ [b]) 0%nat); [exact Hc'|cbn; rewrite app_nil_r; reflexivity|unfold pat; cbn; lia|lia|].
           intros k Hk. rewrite app_length in Hk. cbn [length] in Hk. apply No2; [exact Nbe|lia].
Qed.
End Line.

Lemma available_split s : 0 <= lim s -> exists tl, rest s = available s ++ tl /\ len (available s) <= lim s /\
   (tl = [] \/ lim s = len (available s)).
Proof.
  intros Hl. unfold available. set (n := Z.min (lim s) (len (rest s))). exists (skipn (Z.to_nat n) (rest s)).
  pose proof (len_nonneg (rest s)) as Hn.
  assert (B : 0 <= n <= len (rest s)) by (unfold n; lia).
  destruct (list_split_len (rest s) n B) as [Hs Hln]. split; [exact Hs|]. rewrite Hln. split; [unfold n; lia|].
  destruct (Z.le_gt_cases (len (rest s)) (lim s)).
  - left. apply skipn_all2. unfold n, len in *. lia.
  - right. unfold n. lia.
Qed.

Lemma eat_nil s t : good s = true -> rest s = t -> eat [] t s = s.
Proof. intros Hg Hr. destruct s; cbn in *. subst. unfold eat. cbn [rev app StreamModel.past StreamModel.lim]. rewrite len_nil. f_equal. lia. Qed.

(** Rewinding over bytes just read restores the state. *)
Lemma do_rewind_eat a t s : good s = true -> rest s = a ++ t -> len a <= lim s -> lim s <= 2 ^ 64 - 1 ->
  do_rewind (len a) (eat a t s) = s.
Proof.
  intros Hg Hr Hl Hm. unfold do_rewind. pose proof (len_nonneg a).
  rewrite ceilinged_add_clamps; [|reflexivity|unfold fits; cbn; lia|unfold fits; cbn; lia].
  rewrite eat_lim. assert (E : clamp u64 (lim s - len a + len a) = lim s) by (unfold clamp, imin, imax; cbn [sg bits u64]; lia).
  rewrite E. unfold seeker, istream_seek, set_lim, eat. cbn [good past rest lim].
  destruct (Z.eqb_spec (- len a) 0) as [Z0|NZ].
  - assert (a = []) by (apply len_zero; lia). subst a. cbn [rev app] in *. destruct s; cbn in *. subst. reflexivity.
  - cbn [negb]. destruct (Z.ltb_spec (- len a) 0); [|lia]. cbn [andb]. rewrite len_app, len_rev. pose proof (len_nonneg (past s)).
    destruct (Z.ltb_spec (- len a) (- (len a + len (past s)))); [lia|]. destruct (Z.ltb_spec 0 (- len a)); [lia|]. cbn [andb].
    destruct (Z.leb_spec 0 (- len a)); [lia|]. unfold retreat. cbn [past rest good lim].
    replace (- - len a) with (len a) by lia. rewrite <- (len_rev a).
    rewrite firstn_len_app, skipn_len_app by reflexivity. rewrite rev_involutive, <- Hr. destruct s; cbn in *. subst. reflexivity.
Qed.
Lemma do_skip_parses a : parses (fun s => (tt, do_skip (len a) s)) a tt.
Proof.
  intros s t Hg Hr Hl. f_equal. unfold do_skip, limiter. pose proof (len_nonneg a). pose proof (len_nonneg t).
  destruct (Z.gtb_spec (len a) (lim s)); [lia|]. unfold seeker, istream_seek, set_lim. cbn [good past rest lim]. rewrite Hg. cbn [negb].
  destruct (Z.eqb_spec (len a) 0) as [Z0|NZ].
  - assert (a = []) by (apply len_zero; lia). subst a. unfold eat. cbn [rev app] in *. rewrite Hr, len_nil. reflexivity.
  - destruct (Z.ltb_spec (len a) 0); [lia|]. cbn [andb]. destruct (Z.ltb_spec 0 (len a)); [|lia]. cbn [andb].
    rewrite Hr, len_app. destruct (Z.gtb_spec (len a) (len a + len t)); [lia|]. destruct (Z.leb_spec 0 (len a)); [|lia].
    unfold advance, eat. cbn [past rest good lim]. rewrite firstn_len_app, skipn_len_app by reflexivity. reflexivity.
Qed.

Lemma read_line_ok e es s : ascii (e :: es) -> ~ In e es -> good s = true -> 0 <= lim s <= 2 ^ 64 - 1 ->
  match read_line (e :: es) s with
  | (line, s') =>
    (exists k u, first_occurrence (e :: es) (available s) k /\ line = firstn k (available s) /\
       rest s = line ++ (e :: es) ++ u /\ s' = eat (line ++ (e :: es)) u s)
    \/ ((forall k, ~ occurs (e :: es) (available s) k) /\ line = [] /\ good s' = false)
  end.
Proof.
  intros Ha Hn Hg Hlm. destruct (available_split s ltac:(lia)) as (tl & Hr & Hl & He).
  set (av := available s) in *. set (pat := e :: es).
  pose proof (line_loop_ok e es s av tl Ha Hn Hg Hr Hl He av [] [] 0%nat (S (length (rest s))) eq_refl eq_refl) as L.
  rewrite <- Hr in L. rewrite (eat_nil s (rest s) Hg eq_refl) in L. fold pat in L.
  specialize (L ltac:(cbn; lia)). specialize (L ltac:(rewrite Hr, app_length; lia)). specialize (L ltac:(cbn; lia)).
  unfold read_line, line_length. fold pat. change (match pat with [] => _ | _ => ?x end) with x.
  change (Z.of_nat 0) with 0 in L. change (len (@nil Z)) with 0 in L.
  destruct (line_loop (S (length (rest s))) pat 0 0 s) as [[n|] s'].
  - destruct L as (k & u & -> & Hf & Hav & ->).
    assert (Lk : len (firstn k av) = Z.of_nat k).
    { unfold len. rewrite firstn_length_le; [reflexivity|]. apply (f_equal (@length Z)) in Hav. rewrite !app_length, firstn_length in Hav. unfold pat in Hav. cbn [length] in Hav. lia. }
    assert (Hr' : rest s = firstn k av ++ pat ++ u ++ tl) by (rewrite Hr, Hav at 1; rewrite <- !app_assoc; reflexivity).
    assert (Lav : len av = len (firstn k av) + len pat + len u) by (rewrite Hav at 1; rewrite !len_app; lia).
    pose proof (len_nonneg u).
    destruct (Z.eqb_spec (Z.of_nat k) 0) as [Z0|NZ].
    + assert (k = 0)%nat by lia. subst k. left. exists 0%nat, (u ++ tl). cbn [firstn app] in *. auto.
    + rewrite <- Lk, <- len_app.
      rewrite do_rewind_eat; [|exact Hg|rewrite Hr', <- app_assoc; reflexivity|rewrite len_app; lia|lia].
      rewrite (do_read_parses (firstn k av) s (pat ++ u ++ tl) Hg Hr' ltac:(pose proof (len_nonneg pat); lia)).
      pose proof (do_skip_parses pat (eat (firstn k av) (pat ++ u ++ tl) s) (u ++ tl) eq_refl eq_refl ltac:(rewrite eat_lim; lia)) as Sk.
      rewrite eat_eat in Sk. injection Sk as Sk1. cbn [snd] in Sk1. change (e :: es ++ u ++ tl) with (pat ++ u ++ tl) in Sk1. rewrite Sk1. left. exists k, (u ++ tl). auto.
  - destruct L as [Hno ->]. right. cbn [Z.eqb]. auto.
Qed.
