(** C44: signature encodings. *)
From Verif Require Import Base Bytes DerModel DerSpec DerProofs.

(** The strict check accepts exactly the DER encodings of two non-negative
    integers of at most 72 bytes. *)
Theorem C44_strict sig : bytes_ok sig ->
  is_valid_bip66 sig = true <-> (exists r s, der_signature r s sig) /\ len sig <= 72.
Proof.
  intros B. split.
  - intros H. destruct (bip66_split sig B H) as (R & T & Sh & MR & MT & BR & BT & L). split; [|exact L].
    exists (be_value R), (be_value T), R, T. split; [apply minimal_contents; assumption|]. split; [apply minimal_contents; assumption|exact Sh].
  - intros ((r & s & R & T & CR & CT & ->) & L). pose proof CR as (BR & VR & _). pose proof CT as (BT & VT & _).
    apply bip66_build; [exact BR|exact BT| | |].
    + apply minimal_contents; [exact BR|]. rewrite VR. exact CR.
    + apply minimal_contents; [exact BT|]. rewrite VT. exact CT.
    + rewrite !len_app in L. change (len [48; len R + len T + 4; 2; len R]) with 4 in L. change (len [2; len T]) with 2 in L. lia.
Qed.
Print Assumptions C44_strict.
(** An accepted string determines (r, s), and (r, s) determine the string. *)
Theorem C44_unique r s a : der_signature r s a -> 0 <= r /\ 0 <= s /\
  (forall r' s', der_signature r' s' a -> r' = r /\ s' = s) /\ (forall b, der_signature r s b -> b = a).
Proof.
  intros (R & T & CR & CT & ->). split; [apply (contents_range r R CR)|]. split; [apply (contents_range s T CT)|]. split.
  - intros r' s' (R' & T' & (BR' & VR' & _) & (BT' & VT' & _) & E). destruct CR as (_ & VR & _), CT as (_ & VT & _).
    cbn [app] in E. apply cons_inj in E; destruct E as [_ E]. apply cons_inj in E; destruct E as [_ E]. apply cons_inj in E; destruct E as [_ E].
    apply cons_inj in E; destruct E as [L E].
    assert (ER : R = R' /\ 2 :: len T :: T = 2 :: len T' :: T').
    { clear -L E. revert R' L E. induction R as [|x R IH]; intros [|y R'] L E; rewrite ?len_cons in L;
        try (pose proof (len_nonneg R)); try (pose proof (len_nonneg R')); try (change (len (@nil Z)) with 0 in L; lia).
      - auto.
      - cbn [app] in E. apply cons_inj in E. destruct E as [-> E]. destruct (IH R' ltac:(lia) E) as [-> F]. auto. }
    destruct ER as [-> F]. apply cons_inj in F; destruct F as [_ F]. apply cons_inj in F; destruct F as [_ ->]. split; congruence.
  - intros b (R' & T' & CR' & CT' & ->). rewrite (contents_unique r R R' CR CR'), (contents_unique s T T' CT CT'). reflexivity.
Qed.
Print Assumptions C44_unique.
Example C44_strict_sat : is_valid_bip66 [48; 8; 2; 2; 0; 128; 2; 2; 1; 2] = true /\ der_signature 128 258 [48; 8; 2; 2; 0; 128; 2; 2; 1; 2] /\
  is_valid_bip66 [48; 8; 2; 2; 0; 127; 2; 2; 1; 2] = false /\ is_valid_bip66 [48; 6; 2; 1; 128; 2; 1; 1] = false /\
  is_valid_bip66 [48; 7; 2; 1; 1; 2; 1; 1; 0] = false.
Proof.
  split; [vm_compute; reflexivity|]. split; [|vm_compute; auto]. exists [0; 128], [1; 2].
  assert (B : forall x y, 0 <= x < 256 -> 0 <= y < 256 -> bytes_ok [x; y]) by (intros; repeat constructor; unfold byte_ok; lia).
  split; [split; [apply B; lia|split; [reflexivity|lia]]|]. split; [split; [apply B; lia|split; [reflexivity|lia]]|]. reflexivity.
Qed.

(** The tolerant parser, for every group order up to 2^256: it never reads
    beyond the input, and accepts exactly the tolerated grammar; values not
    below the order give the (invalid) zero signature. *)
Definition reduced (order r s : Z) : Z * Z := if (r <? order) && (s <? order) then (r, s) else (0, 0).
Theorem C44_lax order sig : order <= 2 ^ 256 -> bytes_ok sig -> len sig < 2 ^ 64 ->
  parse_der_lax order sig <> None /\
  forall p, parse_der_lax order sig = Some (Some p) <-> exists r s, lax_signature r s sig /\ p = reduced order r s.
Proof.
  intros Ho B Hl. destruct sig as [|tag rest].
  { split; [discriminate|]. intros p. split; [discriminate|]. intros (r & s & (h & Lr & R & Ls & T & t & _ & _ & _ & E & _) & _). discriminate. }
  cbn [parse_der_lax]. destruct (Z.eqb_spec tag 48) as [->|N]; cbn [negb].
  2:{ split; [discriminate|]. intros p. split; [discriminate|]. intros (r & s & (h & Lr & R & Ls & T & t & _ & _ & _ & E & _) & _). cbn [app] in E. apply cons_inj in E. destruct E; congruence. }
  inversion B as [|? ? _ B1]; subst. destruct rest as [|b rest].
  { split; [discriminate|]. intros p. split; [discriminate|]. intros (r & s & (h & Lr & R & Ls & T & t & Hh & _ & _ & E & _) & _). destruct Hh; discriminate. }
  inversion B1 as [|? ? Hb B2]; subst. rewrite (high_bit b Hb). unfold byte_ok in Hb. rewrite !len_cons in Hl.
  set (skipped := if negb (b <? 128) then (if b - 128 >? len rest then None else Some (skipn (Z.to_nat (b - 128)) rest)) else Some rest).
  assert (SK : forall r, skipped = Some r <-> exists h, lax_header h /\ b :: rest = h ++ r).
  { intros r. unfold skipped. destruct (Z.ltb_spec b 128); cbn [negb].
    - split.
      + intros E. injection E as <-. exists [b]. split; [constructor; lia|reflexivity].
      + intros (h & Hh & E). destruct Hh as [n Hn|bs Hn]; cbn [app] in E; apply cons_inj in E; destruct E as [E1 E2]; [congruence|].
        pose proof (len_nonneg bs). lia.
    - destruct (Z.gtb_spec (b - 128) (len rest)) as [G|G]; split.
      + discriminate.
      + intros (h & Hh & E). exfalso. destruct Hh as [n Hn|bs Hn]; cbn [app] in E; apply cons_inj in E; destruct E as [E1 E2]; [lia|].
        rewrite E2, len_app in G. pose proof (len_nonneg r). lia.
      + intros E. injection E as <-. exists (b :: firstn (Z.to_nat (b - 128)) rest).
        assert (LF : len (firstn (Z.to_nat (b - 128)) rest) = b - 128) by (unfold len in *; rewrite firstn_length_le; lia).
        split; [replace b with (128 + len (firstn (Z.to_nat (b - 128)) rest)) at 1 by lia; constructor; lia|].
        cbn [app]. rewrite firstn_skipn. reflexivity.
      + intros (h & Hh & E). destruct Hh as [n Hn|bs Hn]; cbn [app] in E; apply cons_inj in E; destruct E as [E1 E2]; [lia|].
        f_equal. rewrite E2. replace (Z.to_nat (b - 128)) with (length bs) by (unfold len in *; lia).
        rewrite skipn_app, Nat.sub_diag, skipn_all. reflexivity. }
  fold skipped.
  assert (BS : forall r, skipped = Some r -> bytes_ok r /\ len r < 2 ^ 64).
  { intros r E. apply SK in E. destruct E as (h & _ & E). rewrite E in B1. apply bytes_ok_app in B1. split; [apply B1|].
    assert (LE : len (b :: rest) = len h + len r) by (rewrite E; apply len_app). rewrite len_cons in LE. pose proof (len_nonneg h). lia. }
  destruct skipped as [rest1|] eqn:Esk.
  2:{ split; [discriminate|]. intros p. split; [discriminate|]. intros (r & s & (h & Lr & R & Ls & T & t & Hh & _ & _ & E & _) & _). exfalso.
      cbn [app] in E. apply cons_inj in E. destruct E as [_ E]. pose proof (proj2 (SK _) (ex_intro _ h (conj Hh E))). discriminate. }
  destruct (BS rest1 eq_refl) as [Br Lr1]. clear BS.
  destruct (parse_integer_spec rest1 Br Lr1) as [N1 P1].
  assert (S1 : forall h' r', lax_header h' -> b :: rest = h' ++ r' -> r' = rest1).
  { intros h' r' Hh E. pose proof (proj2 (SK r') (ex_intro _ h' (conj Hh E))) as X. congruence. }
  destruct (SK rest1) as [HK _]. destruct (HK eq_refl) as (h0 & Hh0 & Eh0). clear HK.
  destruct (parse_integer rest1) as [[[n1 r1]|]|] eqn:Ep1; [| |congruence].
  2:{ split; [discriminate|]. intros p. split; [discriminate|]. intros (r & s & (h & Lr & R & Ls & T & t & Hh & HLr & _ & E & _) & _). exfalso.
      cbn [app] in E. apply cons_inj in E. destruct E as [_ E]. pose proof (S1 h _ Hh E) as X.
      assert (Y : Some (@None (Z * list Z)) = Some (Some (len R, R ++ 2 :: Ls ++ T ++ t))); [|discriminate]. apply P1. exists Lr.
      split; [exact HLr|]. split; [symmetry; exact X|]. rewrite len_app. pose proof (len_nonneg (2 :: Ls ++ T ++ t)). lia. }
  destruct (proj1 (P1 n1 r1) eq_refl) as (Lr & HLr & Er1 & Hn1).
  assert (Br1 : bytes_ok r1) by (rewrite Er1 in Br; apply bytes_ok_app in Br; destruct Br as [_ Br]; apply bytes_ok_app in Br; apply Br).
  assert (Hr1 : len r1 < 2 ^ 64) by (rewrite Er1 in Lr1; rewrite !len_app in Lr1; pose proof (len_nonneg Lr); change (len [2]) with 1 in Lr1; lia).
  assert (N1p : 0 <= n1).
  { destruct HLr as [n Hn|z bs Hbs _ _ _]; [lia|]. apply be_value_range. exact Hbs. }
  assert (Eq1 : r1 = firstn (Z.to_nat n1) r1 ++ skipn (Z.to_nat n1) r1) by (symmetry; apply firstn_skipn).
  set (R1 := firstn (Z.to_nat n1) r1) in *. set (q1 := skipn (Z.to_nat n1) r1) in *.
  assert (LR1 : len R1 = n1) by (unfold R1, len in *; rewrite firstn_length_le; lia).
  assert (Bq1 : bytes_ok q1) by (rewrite Eq1 in Br1; apply bytes_ok_app in Br1; apply Br1).
  assert (Hq1 : len q1 < 2 ^ 64) by (rewrite Eq1, len_app in Hr1; pose proof (len_nonneg R1); lia).
  destruct (parse_integer_spec q1 Bq1 Hq1) as [N2 P2].
  assert (S2 : forall h Lr' R' rest', lax_header h -> lax_length (len R') Lr' -> b :: rest = h ++ [2] ++ Lr' ++ R' ++ rest' -> R' = R1 /\ rest' = q1).
  { intros h Lr' R' rest' Hh HL E. pose proof (S1 h _ Hh E) as X.
    assert (Y : Some (Some (n1, r1)) = Some (Some (len R', R' ++ rest'))).
    { apply P1. exists Lr'. split; [exact HL|]. split; [symmetry; exact X|]. rewrite len_app. pose proof (len_nonneg rest'). lia. }
    assert (Y1 : n1 = len R') by congruence. assert (Y2 : r1 = R' ++ rest') by congruence. unfold R1, q1. rewrite Y1, Y2.
    unfold len. rewrite Nat2Z.id, firstn_app, skipn_app, Nat.sub_diag, firstn_all, skipn_all, firstn_O, app_nil_r. auto. }
  destruct (parse_integer q1) as [[[n2 r2]|]|] eqn:Ep2; [| |congruence].
  2:{ split; [discriminate|]. intros p. split; [discriminate|]. intros (r & s & (h & Lr' & R & Ls & T & t & Hh & HLr' & HLs & E & _) & _). exfalso.
      cbn [app] in E. apply cons_inj in E. destruct E as [_ E]. destruct (S2 h Lr' R _ Hh HLr' E) as [_ X].
      assert (Y : Some (@None (Z * list Z)) = Some (Some (len T, T ++ t))); [|discriminate]. apply P2. exists Ls.
      split; [exact HLs|]. split; [symmetry; exact X|]. rewrite len_app. pose proof (len_nonneg t). lia. }
  destruct (proj1 (P2 n2 r2) eq_refl) as (Ls & HLs & Er2 & Hn2).
  assert (Br2 : bytes_ok r2) by (rewrite Er2 in Bq1; apply bytes_ok_app in Bq1; destruct Bq1 as [_ Bq]; apply bytes_ok_app in Bq; apply Bq).
  assert (N2p : 0 <= n2).
  { destruct HLs as [n Hn|z bs Hbs _ _ _]; [lia|]. apply be_value_range. exact Hbs. }
  assert (Eq2 : r2 = firstn (Z.to_nat n2) r2 ++ skipn (Z.to_nat n2) r2) by (symmetry; apply firstn_skipn).
  set (R2 := firstn (Z.to_nat n2) r2) in *. set (q2 := skipn (Z.to_nat n2) r2) in *.
  assert (LR2 : len R2 = n2) by (unfold R2, len in *; rewrite firstn_length_le; lia).
  assert (OUT : forall p, (exists r s, lax_signature r s (48 :: b :: rest) /\ p = reduced order r s) <-> p = reduced order (be_value R1) (be_value R2)).
  { intros p. split.
    - intros (r & s & (h & Lr' & R & Ls' & T & t & Hh & HLr' & HLs' & E & -> & ->) & ->). cbn [app] in E. apply cons_inj in E. destruct E as [_ E].
      destruct (S2 h Lr' R _ Hh HLr' E) as [-> X].
      assert (Y : Some (Some (n2, r2)) = Some (Some (len T, T ++ t))).
      { apply P2. exists Ls'. split; [exact HLs'|]. split; [symmetry; exact X|]. rewrite len_app. pose proof (len_nonneg t). lia. }
      assert (Y1 : n2 = len T) by congruence. assert (Y2 : r2 = T ++ t) by congruence.
      assert (ET : R2 = T) by (unfold R2; rewrite Y1, Y2; unfold len; rewrite Nat2Z.id, firstn_app, Nat.sub_diag, firstn_all, firstn_O, app_nil_r; reflexivity).
      rewrite ET. reflexivity.
    - intros ->. exists (be_value R1), (be_value R2). split; [|reflexivity].
      exists h0, Lr, R1, Ls, R2, q2. split; [exact Hh0|]. rewrite LR1, LR2. split; [exact HLr|]. split; [exact HLs|]. split; [|auto].
      cbn [app]. f_equal. rewrite Eh0. f_equal. rewrite Er1. cbn [app]. f_equal. f_equal. rewrite Eq1 at 1. f_equal.
      rewrite Er2. cbn [app]. f_equal. f_equal. exact Eq2. }
  pose proof (copy_value_spec n1 r1 Br1 ltac:(lia)) as C1. pose proof (copy_value_spec n2 r2 Br2 ltac:(lia)) as C2. cbv zeta in C1, C2.
  fold R1 in C1. fold R2 in C2.
  assert (RD : (order <= be_value R1 \/ order <= be_value R2) -> reduced order (be_value R1) (be_value R2) = (0, 0)).
  { intros [X|X]; unfold reduced; [replace (be_value R1 <? order) with false by lia|replace (be_value R2 <? order) with false by lia; rewrite andb_false_r]; reflexivity. }
  destruct (copy_value n1 r1) as [[l1|]|]; [| |destruct C1]; (destruct (copy_value n2 r2) as [[l2|]|]; [| |destruct C2]).
  - unfold parse_compact. rewrite C1, C2.
    assert (RE : (if (be_value R1 <? order) && (be_value R2 <? order) then Some (be_value R1, be_value R2) else None) =
      if (be_value R1 <? order) && (be_value R2 <? order) then Some (reduced order (be_value R1) (be_value R2)) else None).
    { unfold reduced. destruct ((be_value R1 <? order) && (be_value R2 <? order)); reflexivity. }
    destruct ((be_value R1 <? order) && (be_value R2 <? order)) eqn:Ec; (split; [discriminate|]); intros p; rewrite OUT; unfold reduced; rewrite Ec; split; congruence.
  - split; [discriminate|]. intros p. rewrite OUT, RD by (right; lia). split; congruence.
  - split; [discriminate|]. intros p. rewrite OUT, RD by (left; lia). split; congruence.
  - split; [discriminate|]. intros p. rewrite OUT, RD by (left; lia). split; congruence.
Qed.
Print Assumptions C44_lax.
Lemma der_is_lax r s sig : len sig <= 72 -> der_signature r s sig -> lax_signature r s sig.
Proof.
  intros Hl (R & T & (BR & VR & _) & (BT & VT & _) & ->).
  rewrite !len_app in Hl. change (len [48; len R + len T + 4; 2; len R]) with 4 in Hl. change (len [2; len T]) with 2 in Hl.
  pose proof (len_nonneg R). pose proof (len_nonneg T).
  exists [len R + len T + 4], [len R], R, [len T], T, []. split; [constructor; lia|]. split; [constructor; lia|]. split; [constructor; lia|].
  split; [rewrite app_nil_r; reflexivity|]. split; congruence.
Qed.
(** decode_signature: strict mode parses exactly DER, and both modes give the
    same values on what strict mode accepts. *)
Theorem C44_decode order sig : order <= 2 ^ 256 -> bytes_ok sig -> len sig < 2 ^ 64 ->
  (forall strict, decode_signature order strict sig <> None) /\
  (forall p, decode_signature order true sig = Some (Some p) <->
     len sig <= 72 /\ exists r s, der_signature r s sig /\ p = reduced order r s) /\
  (forall p, decode_signature order false sig = Some (Some p) <-> exists r s, lax_signature r s sig /\ p = reduced order r s) /\
  (forall p, decode_signature order true sig = Some (Some p) -> decode_signature order false sig = Some (Some p)).
Proof.
  intros Ho B Hl. destruct (C44_lax order sig Ho B Hl) as [N P]. unfold decode_signature. destruct (Z.eqb_spec (len sig) 0) as [E0|E0].
  - apply len_zero in E0. subst sig. split; [discriminate|]. split; [|split].
    + intros p. split; [discriminate|]. intros (_ & r & s & (R & T & _ & _ & E) & _). discriminate.
    + intros p. rewrite <- P. cbn. tauto.
    + intros p H. exact H.
  - split; [|split; [|split]].
    + intros strict. destruct (strict && negb (is_valid_bip66 sig)); [discriminate|exact N].
    + intros p. cbn [andb]. destruct (is_valid_bip66 sig) eqn:V; cbn [negb].
      * apply C44_strict in V; [|exact B]. destruct V as [(r & s & D) L]. rewrite P. split.
        -- intros (r' & s' & Hx & ->). split; [exact L|]. exists r, s. split; [exact D|].
           assert (X : parse_der_lax order sig = Some (Some (reduced order r' s'))) by (apply P; eauto).
           assert (Y : parse_der_lax order sig = Some (Some (reduced order r s))) by (apply P; exists r, s; split; [apply der_is_lax; assumption|reflexivity]). congruence.
        -- intros (_ & r' & s' & D' & ->). exists r', s'. split; [apply der_is_lax; assumption|reflexivity].
      * split; [discriminate|]. intros (L & r & s & D & _). assert (is_valid_bip66 sig = true) by (apply C44_strict; [exact B|eauto]). congruence.
    + intros p. cbn [andb]. apply P.
    + intros p. cbn [andb]. destruct (is_valid_bip66 sig); cbn [negb]; [auto|discriminate].
Qed.
Print Assumptions C44_decode.
Example C44_lax_sat : parse_der_lax (2 ^ 256 - 2 ^ 32) [48; 129; 7; 2; 130; 0; 1; 5; 2; 2; 0; 9; 77] = Some (Some (5, 9)) /\
  decode_signature (2 ^ 256 - 2 ^ 32) true [48; 129; 7; 2; 130; 0; 1; 5; 2; 2; 0; 9; 77] = Some None /\
  decode_signature (2 ^ 256 - 2 ^ 32) true [48; 6; 2; 1; 5; 2; 1; 9] = Some (Some (5, 9)).
Proof. vm_compute. auto. Qed.
