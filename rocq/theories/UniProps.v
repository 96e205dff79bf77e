(** C86: Unicode normal forms of text (passphrases, mnemonics). *)
From Verif Require Import Base UniData UniModel UniSpec UniProofs UniTables UniTables2 UniTables3.

(** The forms, on code points: [compatible] is the K of NFKD/NFKC, [recompose] the C of NFC/NFKC.
    The specification is instantiated with the library's own class and full decomposition,
    [canonical_class] and [dec compatible]. *)
Lemma concat_dec k s : Forall (fun p => 0 <= p) s -> concat_map (lib_decompose_one 4 k) s = Some (flat_map (dec k) s).
Proof.
  induction 1 as [|x s H F IH]; [reflexivity|]. cbn [concat_map flat_map]. destruct (points_ok x H k) as (l & E & _). rewrite E. cbn [obind].
  rewrite IH. cbn [obind]. unfold dec at 2. rewrite E. reflexivity.
Qed.
Definition nf (k : bool) (s : list Z) : list Z := nfd canonical_class (dec k) s.
Definition form (k c : bool) (s : list Z) : list Z := if c then compose canonical_class composition (nf k s) else nf k s.
Lemma form_ok k c s : Forall (fun p => 0 <= p) s -> normal_points s k c = Some (form k c s).
Proof.
  intro F. unfold normal_points. rewrite concat_dec by exact F. cbn [obind]. cbv zeta. rewrite canonical_order_ord. reflexivity.
Qed.
Lemma form_equiv k c s : equivalent canonical_class (dec k) s (form k c s).
Proof.
  assert (N : equivalent canonical_class (dec k) s (nf k s)) by (eapply eq_trans; [apply equiv_flat|apply equiv_ord]).
  unfold form. destruct c; [|exact N]. eapply eq_trans; [exact N|].
  apply compose_ok; [exact class_nonneg|exact (dec_fixed k)|exact (dec_class k)|exact (composition_sound k)|exact composition_apart|].
  apply nfd_sorted, class_nonneg.
Qed.
Lemma nf_iff k s t : equivalent canonical_class (dec k) s t <-> nf k s = nf k t.
Proof. apply equiv_nfd; [exact (dec_fixed k)|exact (dec_class k)]. Qed.
Lemma nf_form k c s : nf k (form k c s) = nf k s.
Proof. symmetry. apply nf_iff, form_equiv. Qed.

(** Every form of every sequence of code points is computed without reading outside a table,
    the recursion ends, and the result is equivalent to the input. *)
Theorem C86_total k c s : Forall (fun p => 0 <= p) s ->
  exists r, normal_points s k c = Some r /\ equivalent canonical_class (dec k) s r.
Proof. intro F. exists (form k c s). split; [apply form_ok, F|apply form_equiv]. Qed.
Theorem C86_in_range p a b : 0 <= p ->
  (exists x, lib_get_canonical p = Some x) /\ (exists y, lib_composition_lookup a b = Some y).
Proof. intro H. split; [apply class_read, H|apply lookup_read]. Qed.

(** The decomposed forms: nothing decomposes further, canonical order. *)
Theorem C86_decomposition k s r : Forall (fun p => 0 <= p) s -> normal_points s k false = Some r ->
  decomposed (dec k) r /\ ordered canonical_class r /\ equivalent canonical_class (dec k) s r.
Proof.
  intros F E. rewrite form_ok in E by exact F. injection E as <-. unfold form. split; [|split].
  - apply nfd_decomposed. exact (dec_fixed k).
  - apply sorted_ordered. apply nfd_sorted, class_nonneg.
  - exact (form_equiv k false s).
Qed.

(** Two sequences have the same form exactly when they are equivalent: all four forms. *)
Theorem C86_same_form k c s t : Forall (fun p => 0 <= p) s -> Forall (fun p => 0 <= p) t ->
  (normal_points s k c = normal_points t k c <-> equivalent canonical_class (dec k) s t).
Proof.
  intros F G. rewrite !form_ok by assumption. split.
  - intro E. injection E as E. eapply eq_trans; [apply (form_equiv k c)|]. rewrite E. apply eq_sym, form_equiv.
  - intro E. f_equal. apply nf_iff in E. unfold form. rewrite E. reflexivity.
Qed.

(** Normalizing again changes nothing, and the composed and decomposed forms determine each
    other. *)
Theorem C86_idempotent k c c' s r : Forall (fun p => 0 <= p) s -> normal_points s k c = Some r -> Forall (fun p => 0 <= p) r ->
  normal_points r k c' = normal_points s k c'.
Proof.
  intros F E G. rewrite form_ok in E by exact F. injection E as <-. rewrite !form_ok by assumption. f_equal.
  unfold form at 1 3. rewrite !nf_form. reflexivity.
Qed.

(** Validity is kept: the forms of valid code points are valid code points. *)
Definition valids (l : list Z) : Prop := Forall (fun p => 0 <= p /\ valid_point p = true) l.
Lemma dec_nonneg k p : 0 <= p -> Forall (fun q => 0 <= q) (dec k p).
Proof.
  intro H. apply Forall_forall. intros q I. destruct (Z.ltb_spec q 0) as [N|N]; [exfalso|exact N].
  destruct (points_ok p H k) as (l & E & F & _). unfold dec in I. rewrite E in I. rewrite Forall_forall in F. specialize (F q I).
  rewrite dec1 in F. unfold syllable_base, max_unicode_point, decompose in F. replace (44032 <=? q) with false in F by lia. cbn [andb] in F.
  replace (1114111 <? q) with false in F by lia. rewrite at_neg in F; [discriminate F|]. apply Z.shiftr_neg. exact N.
Qed.
Lemma nf_valid k s : valids s -> valids (nf k s).
Proof.
  intro F. apply (Permutation_Forall (Permutation_sym (ord_perm canonical_class _))).
  induction F as [|x s [H V] F IH]; [constructor|]. cbn [flat_map]. apply Forall_app. split; [|exact IH].
  pose proof (dec_valid k x H V) as A. pose proof (dec_nonneg k x H) as B. apply Forall_forall. intros q I. rewrite Forall_forall in A, B. auto.
Qed.
Lemma scan_valid rest : forall x mid last, 0 <= x /\ valid_point x = true -> valids mid -> valids rest ->
  let (y, f) := scan canonical_class composition x mid last rest in (0 <= y /\ valid_point y = true) /\ valids f /\ (length f <= length mid + length rest)%nat.
Proof.
  induction rest as [|c r IH]; intros x mid last Hx Hm Hr; cbn [scan]; [repeat split; try apply Hx; try apply Hm; lia|].
  inversion Hr as [|? ? Hc Hr']; subst.
  assert (St : (0 <= x /\ valid_point x = true) /\ valids (mid ++ c :: r) /\ (length (mid ++ c :: r) <= length mid + length (c :: r))%nat).
  { split; [exact Hx|]. split; [apply Forall_app; split; assumption|rewrite app_length; lia]. }
  assert (Co : composition x c <> 0 -> let (y, f) := scan canonical_class composition (composition x c) mid 0 r in
    (0 <= y /\ valid_point y = true) /\ valids f /\ (length f <= length mid + length (c :: r))%nat).
  { intro N. specialize (IH (composition x c) mid 0 (composition_valid _ _ N) Hm Hr').
    destruct (scan canonical_class composition (composition x c) mid 0 r) as [y f]. destruct IH as (I1 & I2 & I3). repeat split; try apply I1; [exact I2|]. cbn [length]. lia. }
  assert (Ap : let (y, f) := scan canonical_class composition x (mid ++ [c]) (canonical_class c) r in
    (0 <= y /\ valid_point y = true) /\ valids f /\ (length f <= length mid + length (c :: r))%nat).
  { specialize (IH x (mid ++ [c]) (canonical_class c) Hx ltac:(apply Forall_app; split; [exact Hm|constructor; [exact Hc|constructor]]) Hr').
    destruct (scan canonical_class composition x (mid ++ [c]) (canonical_class c) r) as [y f]. destruct IH as (I1 & I2 & I3).
    rewrite app_length in I3. cbn [length] in I3. repeat split; try apply I1; [exact I2|]. cbn [length]. lia. }
  destruct (canonical_class c =? 0).
  - destruct (negb (negb (last =? 0) && (canonical_class c <=? last))); [|exact St].
    destruct (Z.eqb_spec (composition x c) 0) as [E|E]; cbn [negb]; [exact St|exact (Co E)].
  - destruct (negb (last =? 0) && (canonical_class c <=? last)); [exact Ap|].
    destruct (Z.eqb_spec (composition x c) 0) as [E|E]; cbn [negb]; [exact Ap|exact (Co E)].
Qed.
Lemma loop_valid f : forall l, valids l -> valids (compose_loop canonical_class composition f l).
Proof.
  induction f as [|f IH]; intros l V; [destruct l; exact V|]. destruct l as [|x r]; [exact V|]. cbn [compose_loop]. inversion V as [|? ? Hx Hr]; subst.
  destruct (negb (canonical_class x =? 0)); [constructor; [exact Hx|apply IH, Hr]|].
  pose proof (scan_valid r x [] 0 Hx ltac:(constructor) Hr) as K. destruct (scan canonical_class composition x [] 0 r) as [y g].
  destruct K as (K1 & K2 & _). constructor; [exact K1|apply IH, K2].
Qed.
Lemma form_valid k c s : valids s -> valids (form k c s).
Proof.
  intro V. pose proof (nf_valid k s V) as N. unfold form. destruct c; [|exact N]. unfold compose. destruct (_ <? 2); [exact N|]. apply loop_valid, N.
Qed.
Theorem C86_valid k c s r : valids s -> normal_points s k c = Some r -> valids r.
Proof.
  intros V E. rewrite form_ok in E by (eapply Forall_impl; [|exact V]; intros x [H _]; exact H). injection E as <-. apply form_valid, V.
Qed.

(** UTF-8. *)
Lemma utf8_char_ok c r : 0 <= c -> valid_point c = true -> utf8_points (utf8_char c ++ r) = do p <- utf8_points r; Some (c :: p).
Proof.
  intros H V. unfold utf8_char. destruct (Z.leb_spec c 127) as [A|A].
  { cbn [app utf8_points]. replace (c <? 128) with true by lia. reflexivity. }
  assert (M : forall x, 0 <= x mod 64 < 64) by (intro; apply Z.mod_pos_bound; lia).
  assert (T : forall x, is_trail (128 + x mod 64) = true) by (intro x; specialize (M x); unfold is_trail; lia).
  assert (D : forall x, (128 + x mod 64) mod 64 = x mod 64) by (intro x; symmetry; apply Z.mod_unique with (q := 2); [left; apply M|lia]).
  pose proof (Z.div_mod c 64 ltac:(lia)) as C1.
  destruct (Z.leb_spec c 2047) as [B|B].
  { assert (Q : 2 <= c / 64 < 32) by (split; [apply Z.div_le_lower_bound; lia|apply Z.div_lt_upper_bound; lia]).
    cbn [app utf8_points]. replace (192 + c / 64 <? 128) with false by lia. replace (192 + c / 64 <? 194) with false by lia. rewrite T. cbn [negb].
    replace (192 + c / 64 <? 224) with true by lia. destruct (utf8_points r) as [p|]; [|reflexivity]. cbn [obind]. do 2 f_equal. rewrite D.
    replace ((192 + c / 64) mod 32) with (c / 64) by (apply Z.mod_unique with (q := 6); lia). lia. }
  pose proof (Z.div_mod (c / 64) 64 ltac:(lia)) as C2. rewrite Z.div_div in C2 by lia. change (64 * 64) with 4096 in C2.
  destruct (Z.leb_spec c 65535) as [B2|B2].
  { assert (Q : 0 <= c / 4096 < 16) by (split; [apply Z.div_pos; lia|apply Z.div_lt_upper_bound; lia]).
    cbn [app utf8_points]. replace (224 + c / 4096 <? 128) with false by lia. replace (224 + c / 4096 <? 194) with false by lia. rewrite !T. cbn [negb].
    replace (224 + c / 4096 <? 224) with false by lia. replace (224 + c / 4096 <? 240) with true by lia. rewrite !D.
    replace ((224 + c / 4096) mod 16) with (c / 4096) by (apply Z.mod_unique with (q := 14); lia).
    replace ((c / 4096 * 64 + (c / 64) mod 64) * 64 + c mod 64) with c by lia.
    rewrite V. unfold utf8_width. replace (c <=? 127) with false by lia. replace (c <=? 2047) with false by lia. replace (c <=? 65535) with true by lia. reflexivity. }
  pose proof (Z.div_mod (c / 4096) 64 ltac:(lia)) as C3. rewrite Z.div_div in C3 by lia. change (4096 * 64) with 262144 in C3.
  assert (Q : 0 <= c / 262144 < 5) by (unfold valid_point, max_unicode_point in V; split; [apply Z.div_pos; lia|apply Z.div_lt_upper_bound; lia]).
  cbn [app utf8_points]. replace (240 + c / 262144 <? 128) with false by lia. replace (240 + c / 262144 <? 194) with false by lia. rewrite !T. cbn [negb].
  replace (240 + c / 262144 <? 224) with false by lia. replace (240 + c / 262144 <? 240) with false by lia. replace (244 <? 240 + c / 262144) with false by lia. cbn [orb]. rewrite !D.
  replace ((240 + c / 262144) mod 8) with (c / 262144) by (apply Z.mod_unique with (q := 30); lia).
  replace (((c / 262144 * 64 + (c / 4096) mod 64) * 64 + (c / 64) mod 64) * 64 + c mod 64) with c by lia.
  rewrite V. unfold utf8_width. replace (c <=? 127) with false by lia. replace (c <=? 2047) with false by lia. replace (c <=? 65535) with false by lia. reflexivity.
Qed.
Theorem C86_utf8 s : valids s -> utf8_points (to_utf8 s) = Some s /\ to_utf32 (to_utf8 s) = s.
Proof.
  intro V. assert (E : utf8_points (to_utf8 s) = Some s).
  { unfold to_utf8. replace (forallb valid_point s) with true.
    2:{ symmetry. apply forallb_forall. intros x I. unfold valids in V. rewrite Forall_forall in V. apply (V x I). }
    induction V as [|x s [H Vx] F IH]; [reflexivity|]. cbn [flat_map]. rewrite utf8_char_ok, IH by assumption. reflexivity. }
  split; [exact E|]. unfold to_utf32. rewrite E. reflexivity.
Qed.
Lemma to_utf8_inj s t : valids s -> valids t -> to_utf8 s = to_utf8 t -> s = t.
Proof. intros V W E. destruct (C86_utf8 s V) as [A _], (C86_utf8 t W) as [B _]. rewrite E in A. congruence. Qed.

Lemma valid_points_of n : forall text p, (length text <= n)%nat -> Forall byte_ok text -> utf8_points text = Some p -> valids p.
Proof.
  induction n as [|n IH]; intros text p L B E.
  { destruct text; [|cbn in L; lia]. injection E as <-. constructor. }
  destruct text as [|a r0]; [injection E as <-; constructor|]. cbn [length] in L. inversion B as [|? ? Ba B0]; subst. unfold byte_ok in Ba. cbn [utf8_points] in E.
  assert (M64 : forall x, 0 <= x mod 64 < 64) by (intro; apply Z.mod_pos_bound; lia).
  assert (OneC : forall v r q, (length r <= n)%nat -> Forall byte_ok r -> 0 <= v -> valid_point v = true -> (do p0 <- utf8_points r; Some (v :: p0)) = Some q -> valids q).
  { intros v r q Lr Br Hv Vv Er. destruct (utf8_points r) as [p0|] eqn:E0; [|discriminate]. injection Er as <-. constructor; [split; assumption|]. exact (IH r p0 Lr Br E0). }
  destruct (Z.ltb_spec a 128) as [A|A].
  { apply (OneC a r0 p); try assumption; try lia. unfold valid_point, max_unicode_point. lia. }
  destruct (Z.ltb_spec a 194) as [A2|A2]; [discriminate|]. destruct r0 as [|b r1]; [discriminate|]. inversion B0 as [|? ? Bb B1]; subst. cbn [length] in L.
  destruct (negb (is_trail b)); [discriminate|]. destruct (Z.ltb_spec a 224) as [A3|A3].
  { pose proof (Z.mod_pos_bound a 32 ltac:(lia)). pose proof (M64 b).
    apply (OneC (a mod 32 * 64 + b mod 64) r1 p); try assumption; try lia. unfold valid_point, max_unicode_point. lia. }
  destruct r1 as [|c r2]; [discriminate|]. inversion B1 as [|? ? Bc B2]; subst. cbn [length] in L. destruct (negb (is_trail c)); [discriminate|].
  destruct (Z.ltb_spec a 240) as [A4|A4].
  { cbv zeta in E. set (v := ((a mod 16) * 64 + b mod 64) * 64 + c mod 64) in *.
    assert (0 <= v) by (subst v; pose proof (Z.mod_pos_bound a 16 ltac:(lia)); pose proof (M64 b); pose proof (M64 c); lia). clearbody v.
    destruct (valid_point v) eqn:V; [|discriminate]. destruct (utf8_width v =? 3); [|discriminate]. cbn [negb orb] in E.
    apply (OneC v r2 p); try assumption; lia. }
  destruct r2 as [|d r3]; [discriminate|]. inversion B2 as [|? ? Bd B3]; subst. cbn [length] in L. destruct (negb (is_trail d) || (244 <? a)); [discriminate|].
  cbv zeta in E. set (v := (((a mod 8) * 64 + b mod 64) * 64 + c mod 64) * 64 + d mod 64) in *.
  assert (0 <= v) by (subst v; pose proof (Z.mod_pos_bound a 8 ltac:(lia)); pose proof (M64 b); pose proof (M64 c); pose proof (M64 d); lia). clearbody v.
  destruct (valid_point v) eqn:V; [|discriminate]. destruct (utf8_width v =? 4); [|discriminate]. cbn [negb orb] in E.
  apply (OneC v r3 p); try assumption; lia.
Qed.

(** ASCII text is its own form, so the shortcut taken for it changes nothing. *)
Lemma ascii_dec k p : 0 <= p < 128 -> dec k p = [p] /\ canonical_class p = 0.
Proof.
  intro H. destruct (check_ascii_read _ _ _ _ _ _ ascii_checked p H) as (A & B & C). rewrite mcls_lib in C. split; [|exact C].
  apply fixed_dec. destruct k; apply fixed_lib; assumption.
Qed.
Lemma ascii_scan rest x : Forall (fun p => 0 <= p < 128) rest -> scan canonical_class composition x [] 0 rest = (x, rest).
Proof.
  intro F. destruct F as [|c r Hc F]; [reflexivity|]. cbn [scan]. rewrite (proj2 (ascii_dec true c Hc)), Z.eqb_refl. cbn [negb andb].
  rewrite composition_second by lia. reflexivity.
Qed.
Lemma ascii_form k c s : Forall (fun p => 0 <= p < 128) s -> form k c s = s.
Proof.
  intro F. assert (N : nf k s = s).
  { unfold nf, nfd. replace (flat_map (dec k) s) with s.
    - induction F as [|x s H F IH]; [reflexivity|]. cbn [ord]. rewrite (proj2 (ascii_dec k x H)), Z.eqb_refl, IH. reflexivity.
    - induction F as [|x s H F IH]; [reflexivity|]. cbn [flat_map]. rewrite (proj1 (ascii_dec k x H)), <- IH. reflexivity. }
  unfold form. rewrite N. destruct c; [|reflexivity]. unfold compose. destruct (_ <? 2); [reflexivity|].
  assert (L : forall f l, Forall (fun p => 0 <= p < 128) l -> compose_loop canonical_class composition f l = l).
  { induction f as [|f IH]; intros l G; [destruct l; reflexivity|]. destruct G as [|x r H G]; [reflexivity|]. cbn [compose_loop].
    rewrite (proj2 (ascii_dec k x H)), Z.eqb_refl. cbn [negb]. rewrite ascii_scan by exact G. rewrite IH by exact G. reflexivity. }
  apply L, F.
Qed.
Theorem C86_ascii k c s : Forall (fun p => 0 <= p < 128) s -> normal_points s k c = Some s /\ normal_form s k c = Some s.
Proof.
  intro F. split.
  - rewrite form_ok by (eapply Forall_impl; [|exact F]; intros x Hx; cbn beta in Hx |- *; lia). rewrite ascii_form by exact F. reflexivity.
  - unfold normal_form, is_ascii_text. replace (forallb (fun c0 => c0 <? 128) s) with true; [reflexivity|].
    symmetry. apply forallb_forall. intros x I. rewrite Forall_forall in F. specialize (F x I). lia.
Qed.
Lemma ascii_points text : Forall (fun p => 0 <= p < 128) text -> utf8_points text = Some text.
Proof. induction 1 as [|x s H F IH]; [reflexivity|]. cbn [utf8_points]. replace (x <? 128) with true by lia. rewrite IH. reflexivity. Qed.
Lemma ascii_utf8 text : Forall (fun p => 0 <= p < 128) text -> to_utf8 text = text.
Proof.
  intro F. unfold to_utf8. replace (forallb valid_point text) with true.
  - induction F as [|x s H F IH]; [reflexivity|]. cbn [flat_map]. unfold utf8_char at 1. replace (x <=? 127) with true by lia. rewrite IH. reflexivity.
  - symmetry. apply forallb_forall. intros x I. rewrite Forall_forall in F. specialize (F x I). unfold valid_point, max_unicode_point. lia.
Qed.
Lemma text_form text p k c : Forall byte_ok text -> utf8_points text = Some p ->
  normal_form text k c = Some (to_utf8 (form k c p)).
Proof.
  intros B E. unfold normal_form. destruct (is_ascii_text text) eqn:A.
  - assert (F : Forall (fun p => 0 <= p < 128) text).
    { apply Forall_forall. intros x I. pose proof (proj1 (forallb_forall _ _) A x I) as X. rewrite Forall_forall in B. specialize (B x I). unfold byte_ok in B. cbn beta in X. lia. }
    rewrite ascii_points in E by exact F. injection E as <-. rewrite ascii_form, ascii_utf8 by exact F. reflexivity.
  - unfold to_utf32. rewrite E. pose proof (valid_points_of _ text p (Nat.le_refl _) B E) as V.
    rewrite form_ok by (eapply Forall_impl; [|exact V]; intros x [H _]; exact H). reflexivity.
Qed.
(** Text: two valid UTF-8 texts have the same form exactly when they are equivalent. *)
Theorem C86_text k c text1 text2 p1 p2 : Forall byte_ok text1 -> Forall byte_ok text2 ->
  utf8_points text1 = Some p1 -> utf8_points text2 = Some p2 ->
  exists r1 r2, normal_form text1 k c = Some r1 /\ normal_form text2 k c = Some r2
    /\ (r1 = r2 <-> equivalent canonical_class (dec k) p1 p2)
    /\ exists q1, utf8_points r1 = Some q1 /\ equivalent canonical_class (dec k) p1 q1.
Proof.
  intros B1 B2 E1 E2. exists (to_utf8 (form k c p1)), (to_utf8 (form k c p2)).
  pose proof (valid_points_of _ _ _ (Nat.le_refl _) B1 E1) as V1. pose proof (valid_points_of _ _ _ (Nat.le_refl _) B2 E2) as V2.
  pose proof (form_valid k c _ V1) as W1. pose proof (form_valid k c _ V2) as W2.
  split; [apply text_form; assumption|]. split; [apply text_form; assumption|]. split.
  - split.
    + intro E. apply to_utf8_inj in E; try assumption. eapply eq_trans; [apply (form_equiv k c)|]. rewrite E. apply eq_sym, form_equiv.
    + intro E. apply nf_iff in E. unfold form. rewrite E. reflexivity.
  - exists (form k c p1). split; [apply (C86_utf8 _ W1)|apply form_equiv].
Qed.

(** Hangul: every syllable is decomposed into its letters and composed again. *)
Theorem C86_hangul l v t : 0 <= l < 19 -> 0 <= v < 21 -> 0 <= t < 28 ->
  let letters := [4352 + l; 4449 + v] ++ (if t =? 0 then [] else [4519 + t]) in
  let syllable := 44032 + (l * 21 + v) * 28 + t in
  forall k, normal_points [syllable] k false = Some letters /\ normal_points letters k true = Some [syllable].
Proof.
  intros L V T letters syllable k.
  assert (LV : composition (4352 + l) (4449 + v) = 44032 + (l * 21 + v) * 28).
  { unfold composition, lib_composition_lookup, composition_lookup, leading_base, leading_count, vowel_base, vowel_count, syllable_base, nucleus_count, vowel_count, trailing_count.
    replace ((4352 <=? 4352 + l) && (4352 + l <? 4352 + 19) && (4449 <=? 4449 + v) && (4449 + v <? 4449 + 21)) with true by lia. lia. }
  assert (LVT : 0 < t -> composition (44032 + (l * 21 + v) * 28) (4519 + t) = syllable).
  { intro P. unfold composition, lib_composition_lookup, composition_lookup, leading_base, leading_count, vowel_base, vowel_count, syllable_base, trailing_base, trailing_count.
    change syllable_count with 11172. replace ((4352 <=? 44032 + (l * 21 + v) * 28) && (44032 + (l * 21 + v) * 28 <? 4352 + 19)) with false by lia. cbn [andb].
    assert (M0 : (44032 + (l * 21 + v) * 28 - 44032) mod 28 = 0) by (replace (44032 + (l * 21 + v) * 28 - 44032) with ((l * 21 + v) * 28) by lia; apply Z.mod_mul; lia). rewrite M0.
    replace ((44032 <=? 44032 + (l * 21 + v) * 28) && (44032 + (l * 21 + v) * 28 <? 44032 + 11172) && (0 =? 0) && (4519 <? 4519 + t) && (4519 + t <? 4519 + 28)) with true by lia.
    subst syllable. lia. }
  assert (J1 : dec k (4352 + l) = [4352 + l] /\ canonical_class (4352 + l) = 0) by (split; [apply jamo_dec|apply jamo_ok]; unfold leading_base; lia).
  assert (J2 : dec k (4449 + v) = [4449 + v] /\ canonical_class (4449 + v) = 0) by (split; [apply jamo_dec|apply jamo_ok]; unfold vowel_base; lia).
  assert (J3 : dec k (4519 + t) = [4519 + t] /\ canonical_class (4519 + t) = 0) by (split; [apply jamo_dec|apply jamo_ok]; unfold trailing_base; lia).
  destruct J1 as [J1 K1], J2 as [J2 K2], J3 as [J3 K3].
  assert (Dl : forall a, a = 4352 + l -> canonical_class a = 0) by (intros; subst; exact K1).
  assert (D : dec k syllable = letters).
  { rewrite syllable_dec by (unfold syllable_base; subst syllable; lia).
    destruct (lv_parts (4352 + l) (4449 + v)) as (Y & M & E); [unfold leading_base; lia|unfold vowel_base; lia|].
    replace (syllable_base + (4352 + l - leading_base) * 588 + (4449 + v - vowel_base) * 28) with (44032 + (l * 21 + v) * 28) in * by (unfold syllable_base, leading_base, vowel_base; lia).
    subst letters. destruct (Z.eqb_spec t 0) as [Z0|N0].
    - replace syllable with (44032 + (l * 21 + v) * 28) by (subst syllable; lia). rewrite E. reflexivity.
    - destruct (lvt_parts (44032 + (l * 21 + v) * 28) (4519 + t)) as (_ & E2); [exact Y|exact M|unfold trailing_base; lia|].
      replace (44032 + (l * 21 + v) * 28 + (4519 + t - trailing_base)) with syllable in E2 by (subst syllable; unfold trailing_base; lia). rewrite E2, E. reflexivity. }
  assert (DL : flat_map (dec k) letters = letters).
  { subst letters. destruct (t =? 0); cbn [app flat_map]; rewrite ?J1, ?J2, ?J3; reflexivity. }
  assert (O : ord canonical_class letters = letters).
  { subst letters. destruct (t =? 0); cbn [app ord]; rewrite ?K1, ?K2, ?K3; reflexivity. }
  split.
  - rewrite form_ok by (constructor; [subst syllable; lia|constructor]). unfold form, nf, nfd. cbn [flat_map]. rewrite app_nil_r, D, O. reflexivity.
  - rewrite form_ok by (subst letters; destruct (t =? 0); repeat constructor; lia). unfold form, nf, nfd. rewrite DL, O. f_equal.
    subst letters. destruct (Z.eqb_spec t 0) as [Z0|N0]; cbn [app]; unfold compose; cbn [length]; change (Z.of_nat 2 <? 2) with false; change (Z.of_nat 3 <? 2) with false; cbn [compose_loop scan];
      rewrite K1, Z.eqb_refl; cbn [negb]; rewrite K2, Z.eqb_refl; cbn [negb andb]; rewrite LV.
    + replace (44032 + (l * 21 + v) * 28 =? 0) with false by lia. cbn [negb]. subst syllable. f_equal. lia.
    + replace (44032 + (l * 21 + v) * 28 =? 0) with false by lia. cbn [negb]. rewrite K3, Z.eqb_refl. cbn [negb andb]. rewrite LVT by lia.
      replace (syllable =? 0) with false by (subst syllable; lia). reflexivity.
Qed.

(** Every row of the table is found by the search. *)
Theorem C86_pairs m a b y : 0 <= m < 941 ->
  nth_error composition_pairs_data (Z.to_nat (m * 3)) = Some a -> nth_error composition_pairs_data (Z.to_nat (m * 3 + 1)) = Some b ->
  nth_error composition_pairs_data (Z.to_nat (m * 3 + 2)) = Some y ->
  pair_search (at_ composition_pairs) (S (Z.to_nat 941)) 0 941 a b = Some y.
Proof.
  intros H A B Y. assert (T : forall i v, 0 <= i -> nth_error composition_pairs_data (Z.to_nat i) = Some v -> at_ composition_pairs i = Some v).
  { intros i v I E. unfold at_, composition_pairs. replace (i <? 0) with false by lia. exact E. }
  apply (search_finds _ 0 941 a b y m); try lia. split; [exact H|]. repeat split; apply T; try assumption; lia.
Qed.

(** Text that is not valid UTF-8 is cleared: every such passphrase is the empty one. *)
Theorem C86_invalid_refuted :
  (forall k c text, is_ascii_text text = false -> utf8_points text = None -> normal_form text k c = Some [])
  /\ ~ (forall k c text1 text2 r, Forall byte_ok text1 -> Forall byte_ok text2 -> normal_form text1 k c = Some r -> normal_form text2 k c = Some r -> (text1 = [] <-> text2 = [])).
Proof.
  assert (E : forall k c text, is_ascii_text text = false -> utf8_points text = None -> normal_form text k c = Some []).
  { intros k c text A B. unfold normal_form. rewrite A. unfold to_utf32. rewrite B. rewrite form_ok by constructor. destruct k, c; reflexivity. }
  split; [exact E|]. intro H. specialize (H true false [112; 200] [] [] ltac:(repeat constructor; unfold byte_ok; lia) ltac:(constructor) ltac:(apply E; reflexivity) ltac:(reflexivity)).
  destruct H as [_ H]. discriminate (H eq_refl).
Qed.

(** The class table is older than the decomposition table (13.0 and 15.0): two sequences that
    are canonically equivalent for Unicode 14.0 and later, where U+0301 has class 230 and U+0899
    has class 220, have different forms. *)
Theorem C86_class_refuted : forall class decomposition : Z -> _, class 769 = 230 -> class 2201 = 220 ->
  equivalent class decomposition [97; 769; 2201] [97; 2201; 769]
  /\ forall k, normal_points [97; 769; 2201] k false <> normal_points [97; 2201; 769] k false.
Proof.
  intros class decomposition A B. split.
  - apply eq_step. apply (step_swap class decomposition [97] 769 2201 []); lia.
  - intros [|]; vm_compute; discriminate.
Qed.

(** Non-trivial cases: e with acute and dot below, the Angstrom sign, a ligature. *)
Example C86_ex :
  normal_points [233; 803] false false = Some [101; 803; 769]
  /\ normal_points [233; 803] false true = Some [7865; 769]
  /\ normal_points [8491] false true = Some [197]
  /\ normal_points [64257] true true = Some [102; 105] /\ normal_points [64257] false true = Some [64257]
  /\ normal_form [195; 169] true false = Some [101; 204; 129]
  /\ composition 101 803 = 7865.
Proof. vm_compute. repeat split; reflexivity. Qed.
Example C86_ex_equivalent : equivalent canonical_class (dec false) [233; 803] [7865; 769].
Proof. apply nf_iff. vm_compute. reflexivity. Qed.

Print Assumptions C86_total.
Print Assumptions C86_in_range.
Print Assumptions C86_decomposition.
Print Assumptions C86_same_form.
Print Assumptions C86_idempotent.
Print Assumptions C86_valid.
Print Assumptions C86_utf8.
Print Assumptions C86_ascii.
Print Assumptions C86_text.
Print Assumptions C86_hangul.
Print Assumptions C86_pairs.
Print Assumptions C86_invalid_refuted.
Print Assumptions C86_class_refuted.
